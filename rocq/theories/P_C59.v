(** * C59: partitions and image layers as files: names and paths agree *)
From Coq Require Import Lia String.
From Verif Require Import Base BaseLemmas Formatters_model Formatters_spec Formatters_proofs Utf8_spec
  Paths_model Paths_spec Paths_proofs VfsVolumes_model VfsVolumes_spec.
Open Scope N_scope.
Open Scope list_scope.
Notation length := List.length.
Ltac Zify.zify_post_hook ::= idtac.

(** ** Numbers *)
Lemma fold_ge t : forall a, a <= fold_left (fun a c => a * 10 + (c - 48)) t a.
Proof. induction t as [|c t IH]; intros a; cbn [fold_left]; [lia|]. etransitivity; [|apply IH]. lia. Qed.
Lemma parse_digits_iff t : forall a n,
  a < two64 -> (parse_digits t a = Some n <-> Forall (fun c => 48 <= c <= 57) t /\ fold_left (fun a c => a * 10 + (c - 48)) t a = n /\ n < two64).
Proof.
  induction t as [|c t IH]; intros a n Ha; cbn [parse_digits fold_left].
  - split; [intros [= <-]; auto|intros (_ & -> & _); reflexivity].
  - cbv zeta. change 0x30 with 48. change 0x39 with 57. destruct (N.leb_spec 48 c), (N.leb_spec c 57); cbn [andb];
      try (split; [discriminate|intros (F & _); inversion F; subst; lia]).
    destruct (N.ltb_spec (a * 10 + (c - 48)) two64) as [L|L].
    + rewrite (IH _ n L). split; intros (F & E & B); (split; [|auto]); [constructor; auto; lia|inversion F; auto].
    + split; [discriminate|]. intros (F & E & B). pose proof (fold_ge t (a * 10 + (c - 48))). lia.
Qed.
Lemma parse_usize_iff t n : parse_usize t = Some n <-> numeral n t /\ n < two64.
Proof.
  assert (D : forall t n, match t with [] => None | _ => parse_digits t 0 end = Some n <-> digits_of n t /\ n < two64).
  { clear. intros t n. unfold digits_of. destruct t as [|c t].
    - split; [discriminate|intros [[H _] _]; congruence].
    - rewrite parse_digits_iff by reflexivity. split; [intros (F & E & B)|intros [(_ & F & E) B]]; repeat split; auto. discriminate. }
  unfold parse_usize, numeral. cbv zeta. destruct t as [|c t].
  - specialize (D [] n). cbv iota in D |- *. rewrite D. split; [intros []; auto|]. intros [[H|(t' & E & _)] B]; [auto|discriminate].
  - cbv iota. destruct (N.eqb_spec c 0x2b) as [->|Hc].
    + rewrite (D t n). split.
      * intros []. split; [|auto]. right. exists t. auto.
      * intros [[H|(t' & E & H)] B].
        -- destruct H as (_ & F & _). inversion F; subst; lia.
        -- injection E as ->. auto.
    + rewrite (D (c :: t) n). split; [intros []; auto|]. intros [[H|(t' & E' & _)] B]; [auto|]. injection E' as E' _. congruence.
Qed.

Lemma starts_with_iff p : forall s, str_starts_with s p = true <-> exists t, s = p ++ t.
Proof.
  induction p as [|x p IH]; intros s; [split; [intros _; exists s; reflexivity|reflexivity]|]. cbn [str_starts_with app].
  destruct s as [|c s]; [split; [discriminate|intros [t E]; discriminate]|].
  rewrite Bool.andb_true_iff, N.eqb_eq, IH. split.
  - intros [-> [t ->]]. eauto.
  - intros [t E]. injection E as -> ->. eauto.
Qed.
Lemma str_eqb_iff a : forall b, str_eqb a b = true <-> a = b.
Proof.
  induction a as [|x a IH]; intros [|y b]; cbn [str_eqb]; try (split; congruence). rewrite Bool.andb_true_iff, N.eqb_eq, IH. split; [intros [-> ->]; auto|intros [= -> ->]; auto].
Qed.
Lemma index_prefix_text kind : index_prefix kind = kind_text kind.
Proof. destruct kind; reflexivity. Qed.
Lemma name_prefix_text kind : name_prefix kind = kind_text kind.
Proof. destruct kind; reflexivity. Qed.
Lemma from_prefix kind t : str_from (kind_text kind ++ t) (index_start kind) = Ok t.
Proof.
  unfold str_from. replace (index_start kind) with (str_len (kind_text kind)) by (destruct kind; reflexivity).
  rewrite str_split_at_app. reflexivity.
Qed.

Section Proof.
Context {A : Type}.
Implicit Types (fs : volume_file_system A) (e : volume_entry A).

Lemma open_number fs : is_open fs -> vfs_number fs = vs_number (vfs_system fs) /\ vs_number (vfs_system fs) < two64.
Proof. intros (kind & system & H & B). injection H as <-. auto. Qed.
Lemma index_some fs name i : volume_index fs name = Ok (Some i) ->
  exists t, name = kind_text (vfs_kind fs) ++ t /\ numeral (i + 1) t /\ i < vfs_number fs.
Proof.
  unfold volume_index. rewrite index_prefix_text. destruct (str_starts_with name (kind_text (vfs_kind fs))) eqn:E; [|discriminate].
  apply starts_with_iff in E. destruct E as [t ->]. rewrite from_prefix. cbn [bind]. destruct (parse_usize t) as [n|] eqn:Ep; [|discriminate].
  apply parse_usize_iff in Ep. destruct Ep as [Hn B]. destruct (N.ltb_spec 0 n); [|discriminate]. destruct (N.leb_spec n (vfs_number fs)); [|discriminate].
  cbn [andb]. intros [= <-]. exists t. replace (n - 1 + 1) with n by lia. repeat split; auto. lia.
Qed.
Lemma index_of_numeral fs t i : numeral (i + 1) t -> i < vfs_number fs -> i + 1 < two64 ->
  volume_index fs (kind_text (vfs_kind fs) ++ t) = Ok (Some i).
Proof.
  intros Hn Hi Hb. unfold volume_index. rewrite index_prefix_text.
  replace (str_starts_with _ _) with true by (symmetry; apply starts_with_iff; eauto). rewrite from_prefix. cbn [bind].
  rewrite (proj2 (parse_usize_iff t (i + 1))) by auto. destruct (N.ltb_spec 0 (i + 1)); [|lia]. destruct (N.leb_spec (i + 1) (vfs_number fs)); [|lia].
  cbn [andb]. do 2 f_equal. lia.
Qed.
Lemma index_total fs name : exists o, volume_index fs name = Ok o.
Proof.
  unfold volume_index. rewrite index_prefix_text. destruct (str_starts_with name (kind_text (vfs_kind fs))) eqn:E; [|eauto].
  apply starts_with_iff in E. destruct E as [t ->]. rewrite from_prefix. cbn [bind]. eauto.
Qed.
Lemma decimal_numeral n t : decimal_text n t -> numeral n t.
Proof. intros (F & E & c & t' & -> & _). left. split; [discriminate|auto]. Qed.
Lemma kind_no_slash kind t n : decimal_text n t -> ~ In 0x2f (kind_text kind ++ t).
Proof.
  intros (F & _) H. apply in_app_or in H. destruct H as [H|H].
  - destruct kind; cbn in H; repeat (destruct H as [H|H]; [discriminate|]); exact H.
  - rewrite Forall_forall in F. specialize (F _ H). lia.
Qed.
Lemma path_of_name name : ~ In 0x2f name -> name <> [] -> string_path_from (slash ++ name) = [[]; name].
Proof.
  intros H Hne. destruct name as [|c name]; [congruence|]. change (slash ++ c :: name) with (0x2f :: c :: name).
  unfold string_path_from. cbv iota. change (split 0x2f (0x2f :: c :: name)) with ([] :: split 0x2f (c :: name)). now rewrite split_none.
Qed.
End Proof.

(** The n-th entry that the root lists has the name of the kind with the number n, and the
    path of that name gives the same entry. *)
Theorem C59_listed_entries_are_found :
  forall A (fs : volume_file_system A) number i e,
  is_open fs -> volume_number_of_subs (volume_root fs) = Ok number -> i < number ->
  volume_sub (volume_root fs) i = Ok e ->
  exists name, volume_name (vfs_kind fs) e = Ok (Some name) /\ nth_name (vfs_kind fs) (i + 1) name /\
    volume_by_path fs (VfsPathString (string_path_from (slash ++ name))) = Ok (Some e) /\
    volume_exists fs (VfsPathString (string_path_from (slash ++ name))) = Ok true.
Proof.
  intros A fs number i e Ho Hn Hi Hs. injection Hn as <-. destruct (open_number fs Ho) as [En B].
  cbn [volume_sub volume_root] in Hs. destruct (vs_get (vfs_system fs) i) as [part| |] eqn:Eg; try discriminate. injection Hs as <-.
  assert (T : decimal_text (i + 1) (number_text (i + 1))) by (apply number_text_ok; generalize B; unfold two64; lia).
  exists (kind_text (vfs_kind fs) ++ number_text (i + 1)).
  split; [cbn [volume_name]; unfold add_chk; destruct (N.ltb_spec (i + 1) two64); [|lia]; cbn [bind]; now rewrite name_prefix_text|].
  split; [exists (number_text (i + 1)); auto|].
  rewrite path_of_name; [|now apply kind_no_slash with (i + 1)|destruct (vfs_kind fs); discriminate].
  cbn [volume_by_path volume_exists]. rewrite (index_of_numeral fs _ i); [|now apply decimal_numeral|rewrite En; exact Hi|lia].
  cbn [bind]. rewrite Eg. auto.
Qed.
Print Assumptions C59_listed_entries_are_found.

(** Different entries have different names. *)
Theorem C59_names_differ :
  forall A (fs : volume_file_system A) i j (part1 part2 : A) name,
  volume_name (vfs_kind fs) (VPart i part1) = Ok (Some name) -> volume_name (vfs_kind fs) (VPart j part2) = Ok (Some name) -> i = j.
Proof.
  intros A fs i j part1 part2 name. cbn [volume_name]. unfold add_chk. destruct (N.ltb_spec (i + 1) two64) as [L|]; [|discriminate].
  destruct (N.ltb_spec (j + 1) two64) as [L'|]; [|discriminate]. cbn [bind]. intros [= <-] [= H]. apply app_inv_head in H.
  assert (Ti : decimal_text (i + 1) (number_text (i + 1))) by (apply number_text_ok; generalize L; unfold two64; lia).
  assert (Tj : decimal_text (j + 1) (number_text (j + 1))) by (apply number_text_ok; generalize L'; unfold two64; lia).
  destruct Ti as (_ & Ei & _). destruct Tj as (_ & Ej & _). rewrite H in Ej. rewrite Ei in Ej. lia.
Qed.
Print Assumptions C59_names_differ.

(** What a path gives is the root, for "/", or one of the entries that the root lists, the
    last component being the text of the kind with its number. *)
Theorem C59_found_entries_are_listed :
  forall A (fs : volume_file_system A) components e,
  is_open fs -> volume_by_path fs (VfsPathString components) = Ok (Some e) ->
  (components = string_path_from slash /\ e = volume_root fs) \/
  (exists i t number, volume_number_of_subs (volume_root fs) = Ok number /\ i < number /\
    volume_sub (volume_root fs) i = Ok e /\ components = [[]; kind_text (vfs_kind fs) ++ t] /\ numeral (i + 1) t).
Proof.
  intros A fs components e Ho H. destruct (open_number fs Ho) as [En B]. unfold volume_by_path in H.
  destruct components as [|[|? ?] [|name [|? ?]]]; try discriminate.
  - injection H as <-. left. auto.
  - right. destruct (volume_index fs name) as [[i|]| |] eqn:Ei; try discriminate. cbn [bind] in H.
    destruct (index_some fs name i Ei) as (t & -> & Ht & Hi). exists i, t, (vs_number (vfs_system fs)).
    split; [reflexivity|]. split; [lia|]. split; [|auto].
    cbn [volume_sub volume_root]. destruct (vs_get (vfs_system fs) i); [cbn [bind] in *; congruence|discriminate|discriminate].
Qed.
Print Assumptions C59_found_entries_are_listed.

(** A path of the file system exists exactly when there is an entry for it, which may still
    be one that cannot be read. *)
Theorem C59_exists_iff_found :
  forall A (fs : volume_file_system A) components,
  exists b, volume_exists fs (VfsPathString components) = Ok b /\
  (b = false <-> volume_by_path fs (VfsPathString components) = Ok None).
Proof.
  intros A fs components. unfold volume_exists, volume_by_path.
  destruct components as [|[|? ?] [|name [|? ?]]]; try (exists false; split; [reflexivity|tauto]).
  - exists true. split; [reflexivity|]. split; discriminate.
  - destruct (index_total fs name) as [[i|] ->]; cbn [bind].
    + exists true. split; [reflexivity|]. split; [discriminate|]. destruct (vs_get (vfs_system fs) i); discriminate.
    + exists false. split; [reflexivity|tauto].
Qed.
Print Assumptions C59_exists_iff_found.

(** No path makes it panic, unless retrieving a partition or layer does. *)
Theorem C59_no_panic :
  forall A (fs : volume_file_system A) path,
  is_open fs -> (forall i, i < vs_number (vfs_system fs) -> vs_get (vfs_system fs) i <> Panic) ->
  volume_exists fs path <> Panic /\ volume_by_path fs path <> Panic.
Proof.
  intros A fs [components|] Ho Hg; [|split; discriminate]. destruct (open_number fs Ho) as [En B]. unfold volume_exists, volume_by_path.
  destruct components as [|[|? ?] [|name [|? ?]]]; try (split; discriminate).
  destruct (volume_index fs name) as [[i|]| |] eqn:Ei; cbn [bind]; try (split; discriminate).
  - destruct (index_some fs name i Ei) as (t & _ & _ & Hi). rewrite En in Hi. specialize (Hg i Hi). destruct (vs_get (vfs_system fs) i); split; try discriminate. congruence.
  - destruct (index_total fs name) as [o Eo]. congruence.
Qed.
Print Assumptions C59_no_panic.

(** Only one path for each entry: not so, "/apm01" and "/apm+1" are the first partition as
    well, and its name is "apm1". *)
Definition case_system : volume_system N := {| vs_number := 12; vs_get := fun i => if i <? 12 then Ok (100 + i) else Err |}.
Definition case_fs (kind : volume_kind) : volume_file_system N :=
  {| vfs_kind := kind; vfs_system := case_system; vfs_number := 12 |}.
Theorem C59_one_path_refuted :
  exists fs : volume_file_system N, is_open fs /\
  let e := VPart 0 100 in
  volume_name (vfs_kind fs) e = Ok (Some (text "apm1")) /\
  List.map (fun p => volume_by_path fs (VfsPathString (string_path_from (text p)))) ["/apm1"; "/apm01"; "/apm+1"]%string
  = [Ok (Some e); Ok (Some e); Ok (Some e)].
Proof.
  exists (case_fs Apm). split; [exists Apm, case_system; split; reflexivity|]. split; reflexivity.
Qed.
Print Assumptions C59_one_path_refuted.

(** The file systems of images with one layer: the layer is the only entry of the root, and
    it and the root are found by their paths and by no other. *)
Theorem C59_single_layer :
  forall A kind (image : A),
  image_number_of_subs (IRoot image) = Ok 1 /\ image_sub (IRoot image) 0 = Ok (ILayer image) /\
  (forall i, i <> 0 -> image_sub (IRoot image) i = Err) /\
  image_name kind (ILayer image) = Some (image_text kind) /\
  (forall components e, image_by_path kind image (VfsPathString components) = Ok (Some e) <->
     (components = string_path_from slash /\ e = IRoot image) \/
     (components = string_path_from (slash ++ image_text kind) /\ e = ILayer image)) /\
  (forall components, exists b, image_exists kind image (VfsPathString components) = Ok b /\
     (b = false <-> image_by_path kind image (VfsPathString components) = Ok None)).
Proof.
  intros A kind image. assert (Et : image_path_name kind = image_text kind) by (destruct kind; reflexivity).
  assert (El : image_layer_name kind = image_text kind) by (destruct kind; reflexivity).
  assert (Ep : string_path_from (slash ++ image_text kind) = [[]; image_text kind]) by (destruct kind; reflexivity).
  assert (Er : string_path_from slash = [[]]) by reflexivity. rewrite Ep, Er.
  repeat split; try reflexivity.
  - intros i Hi. cbn. destruct (N.eqb_spec i 0); [congruence|reflexivity].
  - cbn. now rewrite El.
  - unfold image_by_path. destruct components as [|[|? ?] [|name [|? ?]]]; try discriminate.
    + intros [= <-]. auto.
    + destruct (str_eqb name (image_path_name kind)) eqn:E; [|discriminate]. intros [= <-]. apply str_eqb_iff in E. right. rewrite E, Et. auto.
  - intros [[-> ->]|[-> ->]]; [reflexivity|]. cbn [image_by_path]. rewrite <- Et. now rewrite (proj2 (str_eqb_iff _ _) eq_refl).
  - intros components. unfold image_exists, image_by_path. destruct components as [|[|? ?] [|name [|? ?]]]; try (exists false; split; [reflexivity|tauto]).
    + exists true. split; [reflexivity|split; discriminate].
    + destruct (str_eqb name (image_path_name kind)); [exists true|exists false]; (split; [reflexivity|]); [split; discriminate|tauto].
Qed.
Print Assumptions C59_single_layer.

(** Paths of another kind of file system are refused. *)
Theorem C59_other_paths_refused :
  forall A (fs : volume_file_system A) kind (image : A),
  volume_exists fs VfsPathOther = Err /\ volume_by_path fs VfsPathOther = Err /\
  image_exists kind image VfsPathOther = Err /\ image_by_path kind image VfsPathOther = Err.
Proof. repeat split; reflexivity. Qed.
Print Assumptions C59_other_paths_refused.

(** ** Twelve partitions or layers of each kind *)
Example C59_case : forall kind, is_open (case_fs kind) /\
  volume_number_of_subs (volume_root (case_fs kind)) = Ok 12 /\ volume_sub (volume_root (case_fs kind)) 11 = Ok (VPart 11 111) /\
  (forall i, i < vs_number (vfs_system (case_fs kind)) -> vs_get (vfs_system (case_fs kind)) i <> Panic).
Proof.
  intros kind. split; [exists kind, case_system; split; reflexivity|]. split; [reflexivity|]. split; [reflexivity|].
  intros i _. cbn. destruct (i <? 12); discriminate.
Qed.
Example C59_case_names :
  List.map (fun kind => volume_name kind (VPart 11 tt)) [Apm; Gpt; Mbr; Qcow; Vhd; Vhdx] =
  List.map (fun s => Ok (Some (text s))) ["apm12"; "gpt12"; "mbr12"; "qcow12"; "vhd12"; "vhdx12"]%string /\
  List.map (fun p => volume_by_path (case_fs Vhd) (VfsPathString (string_path_from (text p))))
    ["/vhd12"; "/vhd0"; "/vhd13"; "/vhdx1"; "/vhd"; "vhd1"; "/vhd1/"; "/vhd18446744073709551617"; "/"; ""]%string =
  [Ok (Some (VPart 11 111)); Ok None; Ok None; Ok None; Ok None; Ok None; Ok None; Ok None;
   Ok (Some (VRoot case_system)); Ok (Some (VRoot case_system))].
Proof. split; reflexivity. Qed.
