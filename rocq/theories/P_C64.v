(** * C64: the scanner finds what is on a medium *)
From Coq Require Import Lia String.
From Verif Require Import Base BaseLemmas Formatters_model Formatters_spec Formatters_proofs VfsContext_model VfsScanner_model VfsScanner_spec.
Open Scope N_scope.
Open Scope list_scope.
Ltac Zify.zify_post_hook ::= idtac.

(** ** A number has one decimal text *)
Definition value (t : list N) : N := fold_left (fun a c => a * 10 + (c - 48)) t 0.
Lemma value_snoc t c : value (t ++ [c]) = value t * 10 + (c - 48).
Proof. unfold value. rewrite fold_left_app. reflexivity. Qed.
Definition canonical (t : list N) : Prop := Forall (fun c => 48 <= c <= 57) t /\ match t with [] => True | c :: _ => c <> 48 end.
Lemma canonical_init t c : canonical (t ++ [c]) -> canonical t /\ 48 <= c <= 57.
Proof.
  intros [A B]. apply Forall_app in A. destruct A as [A1 A2]. inversion A2; subst. split; [|assumption]. split; [exact A1|]. destruct t; [exact I|exact B].
Qed.
Lemma value_positive t : canonical t -> t <> [] -> 0 < value t.
Proof.
  intros [A B] H. destruct t as [|c t]; [congruence|]. unfold value. cbn [fold_left]. inversion A as [|? ? A1 A2]; subst.
  assert (K : forall t a, 0 < a -> 0 < fold_left (fun a c => a * 10 + (c - 48)) t a) by (clear; induction t as [|d t IH]; intros a Ha; cbn [fold_left]; [exact Ha|apply IH; lia]).
  apply K. lia.
Qed.
Lemma canonical_unique t : forall u, canonical t -> canonical u -> value t = value u -> t = u.
Proof.
  induction t as [|c t IH] using rev_ind; intros u Ct Cu E.
  - destruct u as [|d u]; [reflexivity|]. pose proof (value_positive _ Cu ltac:(discriminate)) as P. rewrite <- E in P. change (value []) with 0 in P. lia.
  - destruct u as [|d u _] using rev_ind.
    + pose proof (value_positive _ Ct ltac:(destruct t; discriminate)) as P. rewrite E in P. change (value []) with 0 in P. lia.
    + destruct (canonical_init _ _ Ct) as [C1 C2], (canonical_init _ _ Cu) as [D1 D2]. rewrite !value_snoc in E.
      assert (value t = value u) by lia. assert (c = d) by lia. subst d. f_equal. apply IH; assumption.
Qed.
Lemma decimal_unique n t u : decimal_text n t -> decimal_text n u -> t = u.
Proof.
  assert (Z : forall t, decimal_text n t -> (n = 0 /\ t = [48]) \/ canonical t).
  { intros x (A & B & c & r & -> & C). destruct (N.eq_dec c 48) as [->|Hc]; [|right; split; assumption]. left. rewrite (C eq_refl) in *. split; [|reflexivity]. rewrite <- B. reflexivity. }
  intros T U. destruct (Z t T) as [[E1 E2]|C1], (Z u U) as [[E3 E4]|C2]; try congruence.
  - exfalso. destruct U as (_ & U2 & c & r & -> & _). pose proof (value_positive _ C2 ltac:(discriminate)). unfold value in *. lia.
  - exfalso. destruct T as (_ & T2 & c & r & -> & _). pose proof (value_positive _ C1 ltac:(discriminate)). unfold value in *. lia.
  - apply canonical_unique; auto. destruct T as (_ & T2 & _), U as (_ & U2 & _). unfold value. congruence.
Qed.

Lemma bind_np A B (x : res A) (k : A -> res B) : x <> Panic -> (forall a, k a <> Panic) -> bind x k <> Panic.
Proof. destruct x; cbn [bind]; congruence || auto. Qed.

(** ** The tree *)
Definition container (t : vfs_type) : Prop :=
  match t with TApm | TEwf | TGpt | TMbr | TQcow | TSparseImage | TUdif | TVhd | TVhdx => True | _ => False end.
Lemma member_place l t place n : n < two64 -> container t -> member l t place n ->
  place = new_with_layer l t (from_path t (path_prefix_of t ++ number_text n)).
Proof.
  intros Hn Ht (number & T & ->). rewrite (decimal_unique n number (number_text n) T) by (apply number_text_ok; change (10 ^ 20) with 100000000000000000000; change two64 with 18446744073709551616 in Hn; lia).
  destruct t; try contradiction; reflexivity.
Qed.
Lemma root_place l t : t <> TOs -> new_with_layer l t (from_path t (root_path t)) = root_of l t.
Proof. destruct t; try reflexivity. congruence. Qed.

(** What the code is made for: partitions hold file systems or nothing known, layers hold those
    or volume systems, and files hold any of these or an image, which is not a sparse image or
    UDIF. *)
Definition in_partition (m : medium) : Prop := match m with Unknown | FileSystem _ => True | _ => False end.
Definition in_layer (m : medium) : Prop := match m with Volumes _ parts => Forall in_partition parts | _ => in_partition m end.
Definition in_file (m : medium) : Prop :=
  match m with Image t _ content => t <> TSparseImage /\ t <> TUdif /\ in_layer content | _ => in_layer m end.

Section Proof.
Context {D : Type}.
Variables i s1 s2 s3 f : D -> res (list format).
Variable resolve : location -> res unit.
Variable stream_at : location -> res (option D).
Variable number_at : vfs_type -> location -> res N.
Notation shows := (shows i s1 s2 s3 f resolve stream_at number_at).
Notation shows_parts := (shows_parts i s1 s2 s3 f resolve stream_at number_at).
Notation sub_nodes := (scan_for_sub_nodes i s1 s2 s3 f resolve stream_at number_at).
Notation for_format := (node_for_format i s1 s2 s3 f stream_at).
Notation the_format := (scan_for_format i s1 s2 s3 f stream_at).

Definition medium_type (m : medium) : option vfs_type :=
  match m with Unknown => None | FileSystem t => Some t | Volumes t _ => Some t | Image t _ _ => Some t end.
Lemma format_in_partition l m : shows l m -> in_partition m -> location_type l = TApm \/ location_type l = TGpt \/ location_type l = TMbr -> the_format l = Ok (medium_type m).
Proof.
  intros H P T. inversion H as [? ? d S G _]; subst. unfold scan_for_format. rewrite S. cbn [bind].
  assert (E : scan_for_file_system_format f d = Ok (medium_type m)).
  { unfold scan_for_file_system_format. destruct m as [|t| |]; try contradiction; cbn [medium_type].
    - destruct G as (_ & _ & _ & _ & ->). reflexivity.
    - destruct t; try contradiction; cbn [signatures] in G; intuition; repeat match goal with H : f d = _ |- _ => rewrite H; clear H end; reflexivity. }
  destruct T as [-> |[-> | ->]]; exact E.
Qed.
Lemma format_in_layer l m : shows l m -> in_layer m -> location_type l = TEwf \/ location_type l = TQcow \/ location_type l = TVhd \/ location_type l = TVhdx -> the_format l = Ok (medium_type m).
Proof.
  intros H P T. inversion H as [? ? d S G _]; subst. unfold scan_for_format. rewrite S. cbn [bind].
  assert (E : (result <- scan_for_volume_system_format s1 s2 s3 d ;; match result with Some t => Ok (Some t) | None => scan_for_file_system_format f d end) = Ok (medium_type m)).
  { unfold scan_for_volume_system_format, scan_for_file_system_format. destruct m as [|t|t parts|]; try contradiction; cbn [medium_type].
    - destruct G as (_ & -> & -> & -> & ->). reflexivity.
    - destruct t; try contradiction; cbn [signatures] in G.
      + destruct G as (_ & -> & -> & -> & ->). reflexivity.
      + destruct G as (_ & -> & -> & ->). reflexivity.
      + destruct G as (_ & -> & -> & ->). reflexivity.
    - destruct t; try contradiction; cbn [signatures] in G.
      + destruct G as (_ & -> & _). reflexivity.
      + destruct G as (_ & -> & _). reflexivity.
      + destruct G as (_ & -> & -> & -> & _). reflexivity. }
  destruct T as [-> |[-> |[-> | ->]]]; exact E.
Qed.
Lemma format_in_file l m : shows l m -> in_file m -> location_type l = TOs -> the_format l = Ok (medium_type m).
Proof.
  intros H P T. pose proof H as H0. inversion H as [? ? d S G _]; subst. unfold scan_for_format. rewrite S. cbn [bind]. rewrite T.
  destruct m as [|t|t parts|t n c].
  4: { unfold scan_for_storage_media_image_format. destruct t; try contradiction; cbn [signatures] in G; rewrite G; reflexivity. }
  all: assert (I : i d = Ok []) by (try destruct t; try contradiction; cbn [signatures] in G; intuition).
  all: unfold scan_for_storage_media_image_format; rewrite I; cbn [bind len length N.of_nat N.ltb N.compare].
  all: unfold scan_for_volume_system_format, scan_for_file_system_format; cbn [medium_type].
  - destruct G as (_ & -> & -> & -> & ->). reflexivity.
  - destruct t; try contradiction; cbn [signatures] in G.
    + destruct G as (_ & -> & -> & -> & ->). reflexivity.
    + destruct G as (_ & -> & -> & ->). reflexivity.
    + destruct G as (_ & -> & -> & ->). reflexivity.
  - destruct t; try contradiction; cbn [signatures] in G.
    + destruct G as (_ & -> & _). reflexivity.
    + destruct G as (_ & -> & _). reflexivity.
    + destruct G as (_ & -> & -> & -> & _). reflexivity.
Qed.
Lemma file_system_type l t : shows l (FileSystem t) -> t = TExt \/ t = TFat \/ t = TNtfs.
Proof. intros H. inversion H as [? ? d S G _]; subst. destruct t; try contradiction; auto. Qed.
Lemma volumes_type l t parts : shows l (Volumes t parts) -> t = TApm \/ t = TGpt \/ t = TMbr.
Proof. intros H. inversion H as [? ? d S G _]; subst. destruct t; try contradiction; auto. Qed.

(** A place where the format is found and that holds no more than a file system *)
Lemma tree_in_partition fuel l m : shows l m -> in_partition m -> the_format l = Ok (medium_type m) ->
  exists nodes, for_format (sub_nodes (S fuel)) l = Ok nodes /\ tells l m nodes.
Proof.
  intros H P E. unfold node_for_format. rewrite E. cbn [bind]. destruct m as [|t| |]; try contradiction; cbn [medium_type].
  - eexists. split; [reflexivity|constructor].
  - pose proof (file_system_type l t H) as T. rewrite root_place by (destruct T as [-> |[-> | ->]]; discriminate). eexists. split; [|apply tells_file_system].
    destruct T as [-> |[-> | ->]]; reflexivity.
Qed.
Lemma tree_parts fuel l t parts : t = TApm \/ t = TGpt \/ t = TMbr -> forall n, Forall in_partition parts -> shows_parts l t (n + 1) parts ->
  exists nodes, volume_nodes i s1 s2 s3 f stream_at (sub_nodes (S fuel)) l t (length parts) n = Ok nodes /\ tells_parts l t (n + 1) parts nodes.
Proof.
  intros T. induction parts as [|m parts IH]; intros n P H.
  - exists []. split; [reflexivity|constructor].
  - inversion P as [|? ? P1 P2]; subst. inversion H as [|? ? ? ? ? place Hn M Sh Rest]; subst.
    assert (C : container t) by (destruct T as [-> |[-> | ->]]; exact I).
    pose proof (member_place l t place (n + 1) Hn C M) as ->. set (place := new_with_layer l t _) in *.
    destruct (tree_in_partition fuel place m Sh P1) as (nodes & E1 & E2).
    { apply format_in_partition; auto. }
    destruct (IH (n + 1) P2 Rest) as (rest & R1 & R2). exists (Node place nodes :: rest). split; [|econstructor; eassumption].
    cbn [length volume_nodes]. fold place. rewrite E1. cbn [bind]. rewrite R1. reflexivity.
Qed.
Lemma tree_in_layer fuel l m : shows l m -> in_layer m -> the_format l = Ok (medium_type m) ->
  exists nodes, for_format (sub_nodes (S (S fuel))) l = Ok nodes /\ tells l m nodes.
Proof.
  intros H P E. destruct m as [|t|t parts|]; try contradiction; try (apply tree_in_partition; assumption).
  pose proof (volumes_type l t parts H) as T. inversion H as [? ? d S G In]; subst. inversion In as [| |? ? ? Nm Rs Sp|]; subst.
  destruct (tree_parts fuel l t parts T 0 P Sp) as (nodes & E1 & E2).
  unfold node_for_format. rewrite E. cbn [bind medium_type]. rewrite root_place by (destruct T as [-> |[-> | ->]]; discriminate).
  exists [Node (root_of l t) nodes]. split; [|constructor; exact E2].
  assert (K : sub_nodes (Datatypes.S (Datatypes.S fuel)) l (root_of l t) = Ok nodes).
  { assert (K0 : (n <- number_at t l ;; volume_system_sub_nodes i s1 s2 s3 f resolve stream_at (sub_nodes (Datatypes.S fuel)) l t n) = Ok nodes).
    { rewrite Nm. cbn [bind]. unfold volume_system_sub_nodes. rewrite root_place by (destruct T as [-> |[-> | ->]]; discriminate). rewrite Rs. cbn [bind].
      unfold len. rewrite Nat2N.id. exact E1. }
    destruct T as [-> |[-> | ->]]; exact K0. }
  rewrite K. reflexivity.
Qed.
Lemma tree_in_file fuel l m : shows l m -> in_file m -> location_type l = TOs ->
  exists nodes, for_format (sub_nodes (S (S (S fuel)))) l = Ok nodes /\ tells l m nodes.
Proof.
  intros H P T. pose proof (format_in_file l m H P T) as E. destruct m as [|t|t parts|t n content]; try (apply tree_in_layer; assumption).
  destruct P as (P1 & P2 & P3). inversion H as [? ? d S G In]; subst. inversion In as [| | |? ? ? ? place Nm Hn One M Rs Sh]; subst.
  assert (Ty : t = TEwf \/ t = TQcow \/ t = TVhd \/ t = TVhdx) by (destruct t; try contradiction; auto; congruence).
  assert (C : container t) by (destruct Ty as [-> |[-> |[-> | ->]]]; exact I).
  pose proof (member_place l t place n (proj2 Hn) C M) as Ep.
  assert (Tp : location_type place = t) by (rewrite Ep; reflexivity).
  destruct (tree_in_layer fuel place content Sh P3) as (nodes & E1 & E2).
  { apply format_in_layer; auto. rewrite Tp. exact Ty. }
  unfold node_for_format. rewrite E. cbn [bind medium_type]. rewrite root_place by (destruct Ty as [-> |[-> |[-> | ->]]]; discriminate).
  exists [Node (root_of l t) nodes]. split; [|econstructor; eassumption].
  assert (K0 : image_sub_nodes i s1 s2 s3 f resolve stream_at (sub_nodes (Datatypes.S (Datatypes.S fuel))) l t n = Ok nodes).
  { unfold image_sub_nodes. destruct (N.eqb_spec n 0) as [->|_]; [lia|]. cbv zeta. rewrite <- Ep, Rs. cbn [bind]. exact E1. }
  assert (K : sub_nodes (Datatypes.S (Datatypes.S (Datatypes.S fuel))) l (root_of l t) = Ok nodes).
  { destruct Ty as [-> |[-> |[-> | ->]]].
    - rewrite (One (or_introl eq_refl)) in *. cbn [scan_for_sub_nodes root_of location_type]. rewrite Nm. exact K0.
    - cbn [scan_for_sub_nodes root_of location_type]. rewrite Nm. exact K0.
    - cbn [scan_for_sub_nodes root_of location_type]. rewrite Nm. exact K0.
    - cbn [scan_for_sub_nodes root_of location_type]. rewrite Nm. exact K0. }
  rewrite K. reflexivity.
Qed.
Lemma sub_nodes_os fuel l node : location_type node = TOs -> sub_nodes (S fuel) l node = for_format (sub_nodes fuel) l.
Proof. cbn [scan_for_sub_nodes]. intros ->. reflexivity. Qed.

(** ** Scans return *)
Definition rank (t : vfs_type) : nat :=
  match t with TExt | TFat | TNtfs | TFake => 1 | TApm | TGpt | TMbr => 2 | TEwf | TSparseImage | TUdif | TQcow | TVhd | TVhdx => 3 | TOs => 4 end.
Hypothesis scanners_np : forall d, i d <> Panic /\ s1 d <> Panic /\ s2 d <> Panic /\ s3 d <> Panic /\ f d <> Panic.
Hypothesis world_np : forall l, resolve l <> Panic /\ stream_at l <> Panic /\ forall t, number_at t l <> Panic.
Lemma fs_np d : scan_for_file_system_format f d <> Panic /\ forall t, scan_for_file_system_format f d = Ok (Some t) -> rank t = 1%nat.
Proof.
  unfold scan_for_file_system_format. destruct (scanners_np d) as (_ & _ & _ & _ & N). destruct (f d) as [r| |]; try congruence; cbn [bind]; [|split; discriminate].
  destruct (1 <? len r); [split; discriminate|]. destruct r as [|[] ?]; split; try discriminate; intros t [= <-]; reflexivity.
Qed.
Lemma volume_np d : scan_for_volume_system_format s1 s2 s3 d <> Panic /\ forall t, scan_for_volume_system_format s1 s2 s3 d = Ok (Some t) -> rank t = 2%nat.
Proof.
  unfold scan_for_volume_system_format. destruct (scanners_np d) as (_ & N1 & N2 & N3 & _).
  destruct (s1 d) as [r| |]; try congruence; cbn [bind]; [|split; discriminate]. destruct (1 <? len r); [split; discriminate|].
  destruct r as [|[] ?]; try (split; try discriminate; intros t [= <-]; reflexivity).
  destruct (s2 d) as [r| |]; try congruence; cbn [bind]; [|split; discriminate]. destruct (1 <? len r); [split; discriminate|].
  destruct r as [|[] ?]; try (split; try discriminate; intros t [= <-]; reflexivity).
  destruct (s3 d) as [r| |]; try congruence; cbn [bind]; [|split; discriminate]. destruct (1 <? len r); [split; discriminate|].
  destruct r as [|[] ?]; (split; try discriminate; intros t [= <-]; reflexivity).
Qed.
Lemma image_np d : scan_for_storage_media_image_format i d <> Panic /\ forall t, scan_for_storage_media_image_format i d = Ok (Some t) -> rank t = 3%nat.
Proof.
  unfold scan_for_storage_media_image_format. destruct (scanners_np d) as (N & _). destruct (i d) as [r| |]; try congruence; cbn [bind]; [|split; discriminate].
  destruct (1 <? len r); [split; discriminate|]. destruct r as [|[] ?]; split; try discriminate; intros t [= <-]; reflexivity.
Qed.
(** What is found is of a lower rank than where it is found. *)
Lemma format_np l : the_format l <> Panic /\ forall t, the_format l = Ok (Some t) -> location_type l = TFake \/ (rank t < rank (location_type l))%nat.
Proof.
  unfold scan_for_format. destruct (world_np l) as (_ & N & _). destruct (stream_at l) as [[d|]| |]; try congruence; cbn [bind]; try (split; discriminate).
  destruct (fs_np d) as [F1 F2], (volume_np d) as [V1 V2], (image_np d) as [I1 I2].
  assert (VF : (result <- scan_for_volume_system_format s1 s2 s3 d ;; match result with Some t => Ok (Some t) | None => scan_for_file_system_format f d end) <> Panic /\
    forall t, (result <- scan_for_volume_system_format s1 s2 s3 d ;; match result with Some t => Ok (Some t) | None => scan_for_file_system_format f d end) = Ok (Some t) -> (rank t < 3)%nat).
  { destruct (scan_for_volume_system_format s1 s2 s3 d) as [[t|]| |]; try congruence; cbn [bind]; split; try discriminate; auto.
    - intros t0 [= <-]. rewrite (V2 t eq_refl). lia.
    - intros t E. rewrite (F2 t E). lia. }
  destruct VF as [VF1 VF2].
  destruct (location_type l) eqn:T; try (split; discriminate); try (split; [exact F1|intros t E; right; rewrite (F2 t E); cbn [rank]; lia]);
    try (split; [exact VF1|intros t E; right; exact (VF2 t E)]).
  - destruct (scan_for_storage_media_image_format i d) as [[t|]| |]; try congruence; cbn [bind]; split; try discriminate; auto.
  - destruct (scan_for_storage_media_image_format i d) as [[t|]| |]; try congruence; cbn [bind]; split; try discriminate; auto.
    + intros t0 [= <-]. right. rewrite (I2 t eq_refl). cbn [rank]. lia.
    + intros t E. right. specialize (VF2 t E). cbn [rank]. lia.
Qed.
Lemma node_np (sub : location -> location -> res (list scan_node)) l : location_type l <> TFake ->
  (forall a n, (rank (location_type n) < rank (location_type l))%nat -> sub a n <> Panic) -> for_format sub l <> Panic.
Proof.
  intros T H. unfold node_for_format. destruct (format_np l) as [N1 N2]. destruct (the_format l) as [[t|]| |]; try congruence; cbn [bind]; try discriminate.
  apply bind_np; [|discriminate]. apply H. destruct (N2 t eq_refl) as [E|E]; [contradiction|exact E].
Qed.
Lemma volumes_np (sub : location -> location -> res (list scan_node)) l t : t <> TFake ->
  (forall a n, (rank (location_type n) < rank t)%nat -> sub a n <> Panic) -> forall count k, volume_nodes i s1 s2 s3 f stream_at sub l t count k <> Panic.
Proof.
  intros T H. induction count as [|count IH]; intros k; cbn [volume_nodes]; [discriminate|].
  apply bind_np; [apply node_np; assumption|intros ?]. apply bind_np; [apply IH|discriminate].
Qed.
Lemma sub_nodes_np fuel : forall l node, (location_type node = TOs -> location_type l = TOs) -> (rank (location_type node) <= fuel)%nat -> sub_nodes fuel l node <> Panic.
Proof.
  induction fuel as [|fuel IH]; intros l node HO H; [destruct (location_type node); cbn [rank] in H; lia|]. cbn [scan_for_sub_nodes].
  assert (K : forall a n, (rank (location_type n) < rank (location_type node))%nat -> sub_nodes fuel a n <> Panic).
  { intros a n Hr. apply IH; [|lia]. intros E. rewrite E in Hr. destruct (location_type node); cbn [rank] in Hr; lia. }
  assert (KI : forall n, location_type node <> TFake -> image_sub_nodes i s1 s2 s3 f resolve stream_at (sub_nodes fuel) l (location_type node) n <> Panic).
  { intros n T. unfold image_sub_nodes. destruct (n =? 0); [discriminate|]. apply bind_np; [apply world_np|intros _]. apply node_np; [exact T|exact K]. }
  assert (KV : forall n, location_type node <> TFake -> volume_system_sub_nodes i s1 s2 s3 f resolve stream_at (sub_nodes fuel) l (location_type node) n <> Panic).
  { intros n T. unfold volume_system_sub_nodes. apply bind_np; [apply world_np|intros _]. apply volumes_np; [exact T|exact K]. }
  destruct (location_type node) eqn:T; try discriminate; try (apply bind_np; [apply world_np|intros n; first [apply KI|apply KV]; discriminate]).
  apply node_np; rewrite HO by reflexivity; [discriminate|exact K].
Qed.
End Proof.

(** The scan of a file tells all that is on the medium, for the nestings above. *)
Theorem C64_scan_tells_all_partial :
  forall D (i s1 s2 s3 f : D -> res (list format)) resolve type_at stream_at number_at l m fuel,
  location_type l = TOs -> resolve l = Ok tt -> type_at l = Ok (Some FileType) ->
  shows i s1 s2 s3 f resolve stream_at number_at l m -> in_file m -> (4 <= fuel)%nat ->
  exists nodes, scan i s1 s2 s3 f resolve type_at stream_at number_at fuel l = Ok (Node l nodes) /\ tells l m nodes.
Proof.
  intros D i s1 s2 s3 f resolve type_at stream_at number_at l m fuel T R Ty H P Hf.
  do 4 (destruct fuel as [|fuel]; [lia|]). destruct (tree_in_file i s1 s2 s3 f resolve stream_at number_at fuel l m H P T) as (nodes & E1 & E2).
  exists nodes. split; [|exact E2]. unfold scan. rewrite R, Ty. cbn [bind]. rewrite sub_nodes_os by exact T. rewrite E1. reflexivity.
Qed.
Print Assumptions C64_scan_tells_all_partial.

(** Scans return: four levels are enough for any world and location, whatever is found. *)
Theorem C64_scan_returns :
  forall D (i s1 s2 s3 f : D -> res (list format)) resolve type_at stream_at number_at l fuel,
  (forall d, i d <> Panic /\ s1 d <> Panic /\ s2 d <> Panic /\ s3 d <> Panic /\ f d <> Panic) ->
  (forall l, resolve l <> Panic /\ type_at l <> Panic /\ stream_at l <> Panic /\ forall t, number_at t l <> Panic) ->
  (4 <= fuel)%nat -> scan i s1 s2 s3 f resolve type_at stream_at number_at fuel l <> Panic.
Proof.
  intros D i s1 s2 s3 f resolve type_at stream_at number_at l fuel Hs Hw Hf. unfold scan.
  apply bind_np; [apply Hw|intros _]. apply bind_np; [apply Hw|intros [[]|]]; try discriminate.
  apply bind_np; [|discriminate]. apply sub_nodes_np; [exact Hs|intros l0; destruct (Hw l0) as (W1 & W2 & W3 & W4); auto|auto|]. destruct (location_type l); cbn [rank]; lia.
Qed.
Print Assumptions C64_scan_returns.

(** Sparse images and UDIF images are recognized, and then the scan fails, whatever is in them. *)
Theorem C64_sparse_and_udif_refuted :
  forall D (i s1 s2 s3 f : D -> res (list format)) resolve type_at stream_at number_at l d fuel,
  location_type l = TOs -> stream_at l = Ok (Some d) -> i d = Ok [FSparseImage] \/ i d = Ok [FUdif] ->
  forall node, scan i s1 s2 s3 f resolve type_at stream_at number_at fuel l <> Ok node.
Proof.
  intros D i s1 s2 s3 f resolve type_at stream_at number_at l d fuel T S I node H. unfold scan in H.
  destruct (resolve l); try discriminate. cbn [bind] in H. destruct (type_at l) as [[[]|]| |]; try discriminate. cbn [bind] in H.
  destruct fuel as [|fuel]; [discriminate|]. rewrite sub_nodes_os in H by exact T.
  assert (K : forall t, t = TSparseImage \/ t = TUdif -> forall x, node_for_format i s1 s2 s3 f stream_at (scan_for_sub_nodes i s1 s2 s3 f resolve stream_at number_at fuel) l = Ok x ->
    scan_for_format i s1 s2 s3 f stream_at l = Ok (Some t) -> False).
  { clear S H. intros t Ht x E F. unfold node_for_format in E. rewrite F in E. cbn [bind] in E. destruct fuel as [|fuel]; [discriminate|].
    assert (E2 : scan_for_sub_nodes i s1 s2 s3 f resolve stream_at number_at (Datatypes.S fuel) l (new_with_layer l t (from_path t (root_path t))) =
      (number_at t l ;;; image_sub_nodes i s1 s2 s3 f resolve stream_at (scan_for_sub_nodes i s1 s2 s3 f resolve stream_at number_at fuel) l t 1)) by (destruct Ht as [-> | ->]; reflexivity).
    rewrite E2 in E. destruct (number_at t l); try discriminate. cbn [bind] in E. unfold image_sub_nodes in E. cbn [N.eqb] in E.
    destruct (resolve _); try discriminate. cbn [bind] in E. unfold node_for_format at 1 in E. unfold scan_for_format at 1 in E.
    destruct (stream_at _) as [[d2|]| |]; try discriminate. cbn [bind new_with_layer location_type] in E. destruct Ht as [-> | ->]; cbn in E; discriminate E. }
  assert (F : scan_for_format i s1 s2 s3 f stream_at l = Ok (Some TSparseImage) \/ scan_for_format i s1 s2 s3 f stream_at l = Ok (Some TUdif)).
  { unfold scan_for_format. rewrite S. cbn [bind]. rewrite T. unfold scan_for_storage_media_image_format. destruct I as [-> | ->]; [left|right]; reflexivity. }
  assert (X : exists x, node_for_format i s1 s2 s3 f stream_at (scan_for_sub_nodes i s1 s2 s3 f resolve stream_at number_at fuel) l = Ok x) by (destruct (node_for_format i s1 s2 s3 f stream_at (scan_for_sub_nodes i s1 s2 s3 f resolve stream_at number_at fuel) l) as [x| |]; try discriminate H; exists x; reflexivity).
  destruct X as [x X]. destruct F as [F|F]; [exact (K _ (or_introl eq_refl) x X F)|exact (K _ (or_intror eq_refl) x X F)].
Qed.
Print Assumptions C64_sparse_and_udif_refuted.

(** A medium that is shown: a QCOW image of two layers with an MBR of an ext file system and an
    unknown partition; the scan of it. *)
Definition example_file : location := LBase (3, chars "/image") TOs.
Definition example_medium : medium := Image TQcow 2 (Volumes TMbr [FileSystem TExt; Unknown]).
Definition example_stream (l : location) : res (option N) :=
  match l with
  | LBase _ _ => Ok (Some 0)
  | LLayer _ _ TQcow => Ok (Some 1)
  | LLayer (_, path) _ TMbr => if last path 0 =? 49 then Ok (Some 2) else Ok (Some 3)
  | _ => Ok None
  end.
Definition found_at (d : N) (at_ : N) (x : format) : res (list format) := Ok (if d =? at_ then [x] else []).
Lemma digit_text n : n < 10 -> decimal_text n [48 + n].
Proof.
  intros H. split; [constructor; [lia|constructor]|]. split; [cbn [fold_left]; lia|]. exists (48 + n), []. split; reflexivity.
Qed.
Example C64_example_shows :
  shows (fun d => found_at d 0 FQcow) (fun d => found_at d 9 FGpt) (fun d => found_at d 9 FFat) (fun d => found_at d 1 FMbr) (fun d => found_at d 2 FExt)
    (fun _ => Ok tt) example_stream (fun _ _ => Ok 2) example_file example_medium /\ in_file example_medium.
Proof.
  split; [|repeat split; try discriminate; repeat constructor].
  eapply shows_at; [reflexivity|reflexivity|]. eapply inside_image; [reflexivity|split; reflexivity|intros [E|[E|E]]; discriminate|exists [50]; split; [exact (digit_text 2 eq_refl)|reflexivity]|reflexivity|].
  eapply shows_at; [reflexivity|repeat split; reflexivity|]. apply inside_volumes; [reflexivity|reflexivity|].
  eapply parts_more; [reflexivity|exists [49]; split; [exact (digit_text 1 eq_refl)|reflexivity]| |].
  { eapply shows_at; [reflexivity|repeat split; reflexivity|constructor]. }
  eapply parts_more; [reflexivity|exists [50]; split; [exact (digit_text 2 eq_refl)|reflexivity]| |constructor].
  eapply shows_at; [reflexivity|repeat split; reflexivity|constructor].
Qed.
Example C64_example_scan :
  scan (fun d => found_at d 0 FQcow) (fun d => found_at d 9 FGpt) (fun d => found_at d 9 FFat) (fun d => found_at d 1 FMbr) (fun d => found_at d 2 FExt)
    (fun _ => Ok tt) (fun _ => Ok (Some FileType)) example_stream (fun _ _ => Ok 2) 4 example_file =
  let layer := LLayer (4, chars "/qcow2") example_file TQcow in
  let first := LLayer (4, chars "/mbr1") layer TMbr in
  let second := LLayer (4, chars "/mbr2") layer TMbr in
  Ok (Node example_file [Node (LLayer (4, chars "/") example_file TQcow)
        [Node (LLayer (4, chars "/") layer TMbr)
          [Node first [Node (LLayer (0, chars "/") first TExt) []]; Node second []]]]).
Proof. reflexivity. Qed.

(** A volume system in a partition is not found: the scan of a GPT with one partition that holds
    an MBR with a file system succeeds and does not tell it. *)
Theorem C64_nested_volumes_refuted :
  exists (i s1 s2 s3 f : N -> res (list format)) resolve type_at stream_at number_at l m nodes,
  location_type l = TOs /\ resolve l = Ok tt /\ type_at l = Ok (Some FileType) /\
  shows i s1 s2 s3 f resolve stream_at number_at l m /\
  scan i s1 s2 s3 f resolve type_at stream_at number_at 4 l = Ok (Node l nodes) /\ ~ tells l m nodes.
Proof.
  exists (fun d => found_at d 9 FQcow), (fun d => found_at d 0 FGpt), (fun d => found_at d 9 FFat), (fun d => found_at d 1 FMbr), (fun d => found_at d 2 FExt).
  exists (fun _ => Ok tt), (fun _ => Ok (Some FileType)).
  exists (fun l => match l with LBase _ _ => Ok (Some 0) | LLayer _ _ TGpt => Ok (Some 1) | LLayer _ _ TMbr => Ok (Some 2) | _ => Ok None end), (fun _ _ => Ok 1).
  exists example_file, (Volumes TGpt [Volumes TMbr [FileSystem TExt]]).
  exists [Node (LLayer (4, chars "/") example_file TGpt) [Node (LLayer (4, chars "/gpt1") example_file TGpt) []]].
  repeat apply conj; try reflexivity.
  - eapply shows_at; [reflexivity|repeat split; reflexivity|]. apply inside_volumes; [reflexivity|reflexivity|].
    eapply parts_more; [reflexivity|exists [49]; split; [exact (digit_text 1 eq_refl)|reflexivity]| |constructor].
    eapply shows_at; [reflexivity|repeat split; reflexivity|]. apply inside_volumes; [reflexivity|reflexivity|].
    eapply parts_more; [reflexivity|exists [49]; split; [exact (digit_text 1 eq_refl)|reflexivity]| |constructor].
    eapply shows_at; [reflexivity|repeat split; reflexivity|constructor].
  - intros H. inversion H as [| |? ? ? ? P|]; subst. inversion P as [|? ? ? ? ? ? ? ? M T R]; subst. inversion T.
Qed.
Print Assumptions C64_nested_volumes_refuted.

(** A medium has one such tree. *)
Scheme tells_both := Minimality for tells Sort Prop with parts_both := Minimality for tells_parts Sort Prop.
Theorem C64_tells_one_tree :
  forall l m nodes others, tells l m nodes -> tells l m others -> nodes = others.
Proof.
  assert (U : forall l t p q n, member l t p n -> member l t q n -> p = q).
  { intros l t p q n (a & A & ->) (b & B & ->). rewrite (decimal_unique n a b A B). reflexivity. }
  intros l m nodes others H. revert others.
  refine (tells_both (fun l m nodes => forall others, tells l m others -> nodes = others)
    (fun l t n parts nodes => forall others, tells_parts l t n parts others -> nodes = others) _ _ _ _ _ _ l m nodes H); clear l m nodes H.
  - intros l others K. inversion K; reflexivity.
  - intros l t others K. inversion K; reflexivity.
  - intros l t parts nodes _ IH others K. inversion K; subst. rewrite (IH nodes0) by assumption. reflexivity.
  - intros l t layers content place nodes M _ IH others K. inversion K as [| | |? ? ? ? place2 nodes2 M2 T2]; subst.
    rewrite (U _ _ _ _ _ M2 M) in T2. rewrite (IH nodes2) by exact T2. reflexivity.
  - intros l t n others K. inversion K; reflexivity.
  - intros l t n part parts place sub nodes M _ IH _ IHP others K. inversion K as [|? ? ? ? ? place2 sub2 nodes2 M2 T2 P2]; subst.
    pose proof (U _ _ _ _ _ M2 M) as ->. rewrite (IH sub2) by exact T2. rewrite (IHP nodes2) by exact P2. reflexivity.
Qed.
Print Assumptions C64_tells_one_tree.
