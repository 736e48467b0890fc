(** * C68: File entries of the operating system say what the operating system says *)
From Coq Require Import ZArith.
From Verif Require Import Base BaseLemmas Paths_model Resolver_model OsEntry_model.
Open Scope N_scope. Open Scope list_scope.
Ltac Zify.zify_post_hook ::= idtac.

(** ** Specification *)

(** The file types of stat(2): bits 12 to 15 of the mode *)
Inductive has_type (mode : N) : vfs_file_type -> Prop :=
| type_fifo : mode / 4096 mod 16 = 1 -> has_type mode NamedPipe
| type_chr : mode / 4096 mod 16 = 2 -> has_type mode CharacterDevice
| type_dir : mode / 4096 mod 16 = 4 -> has_type mode Directory
| type_blk : mode / 4096 mod 16 = 6 -> has_type mode BlockDevice
| type_reg : mode / 4096 mod 16 = 8 -> has_type mode File
| type_lnk : mode / 4096 mod 16 = 10 -> has_type mode SymbolicLink
| type_sock : mode / 4096 mod 16 = 12 -> has_type mode Socket.

(** The moment a date and time value stands for: seconds since 1970 and nanoseconds *)
Definition moment (t : os_time) : option (Z * N) :=
  match t with
  | NotSet => None
  | PosixTime32 timestamp => Some (timestamp, 0)
  | PosixTime64Ns timestamp fraction => Some (timestamp, fraction)
  end.

(** Times that are kept: those within a second, and whole seconds of a 32-bit number that
    are not the start of 1970. *)
Definition kept (t : Z * N) : Prop :=
  snd t <> 0 \/ (fst t <> 0 /\ - 2 ^ 31 <= fst t < 2 ^ 31)%Z.

Definition says (t : option os_time) (m : Z * N) : Prop :=
  exists v, t = Some v /\ moment v = Some m.

(** ** Proofs *)
Lemma land_f000 : forall mode, N.land mode 0xf000 = (mode / 4096 mod 16) * 4096.
Proof.
  intros mode. change 4096 with (2 ^ 12). change 16 with (2 ^ 4).
  rewrite <- N.shiftr_div_pow2, <- N.land_ones, <- N.shiftl_mul_pow2.
  apply N.bits_inj. intros i. rewrite N.land_spec.
  change 0xf000 with (N.shiftl (N.ones 4) 12).
  destruct (N.lt_ge_cases i 12) as [H|H].
  - rewrite !N.shiftl_spec_low by assumption. apply andb_false_r.
  - rewrite !N.shiftl_spec_high' by assumption.
    rewrite N.land_spec, N.shiftr_spec'. f_equal. f_equal. lia.
Qed.

Lemma mode_file_type_spec : forall mode t,
  mode_file_type mode = Ok t <-> has_type mode t /\ t <> Socket.
Proof.
  intros mode t. unfold mode_file_type. rewrite land_f000.
  set (v := mode / 4096 mod 16).
  assert (K : forall k, (v * 4096 =? k * 4096) = (v =? k)).
  { intros k. destruct (N.eqb_spec v k) as [->|H]; [apply N.eqb_refl|].
    apply N.eqb_neq. lia. }
  change 0x1000 with (1 * 4096). change 0x2000 with (2 * 4096).
  change 0x4000 with (4 * 4096). change 0x6000 with (6 * 4096).
  change 0x8000 with (8 * 4096). change 0xa000 with (10 * 4096). cbv zeta.
  rewrite !K. split.
  - intros E.
    repeat match type of E with
    | (if ?a =? ?b then _ else _) = _ =>
        destruct (N.eqb_spec a b) as [Hv|];
          [injection E as <-; split; [constructor; exact Hv|discriminate]|]
    end. discriminate.
  - intros [H Hs]. destruct H as [H|H|H|H|H|H|H]; fold v in H; rewrite ?H; try reflexivity.
    congruence.
Qed.

Lemma mode_file_type_no_panic : forall mode, mode_file_type mode <> Panic.
Proof.
  intros mode. unfold mode_file_type.
  repeat match goal with |- context [if ?c then _ else _] => destruct c end; discriminate.
Qed.

Lemma as_i32_id : forall z, as_i32 z = z <-> (- 2 ^ 31 <= z < 2 ^ 31)%Z.
Proof.
  intros z. unfold as_i32. split.
  - intros E. pose proof (Z.mod_pos_bound (z + 2 ^ 31) (2 ^ 32) eq_refl). lia.
  - intros H. rewrite Z.mod_small by lia. lia.
Qed.

Lemma value_says : forall t,
  says (Some (get_posix_datetime_value (fst t) (snd t))) t <-> kept t.
Proof.
  intros [s n]. unfold kept, says, get_posix_datetime_value. cbn [fst snd].
  destruct (N.eqb_spec n 0) as [->|Hn]; cbn [negb].
  - destruct (Z.eqb_spec s 0) as [->|Hs]; cbn [negb].
    + split; [intros (v & E & M); injection E as <-; discriminate|].
      intros [H|[H _]]; congruence.
    + split.
      * intros (v & E & M). injection E as <-. cbn [moment] in M. injection M as M.
        right. split; [assumption|]. apply as_i32_id. exact M.
      * intros [H|[_ H]]; [congruence|]. eexists. split; [reflexivity|].
        cbn [moment]. apply as_i32_id in H. now rewrite H.
  - split; [intros _; left; assumption|]. intros _. eexists. split; reflexivity.
Qed.

Lemma follow_no_panic : forall n os path, os_follow n os path <> Panic.
Proof.
  induction n as [|n IH]; intros os path; cbn [os_follow];
    destruct (os path) as [[md d|target]|]; try discriminate. apply IH.
Qed.

Lemma follow_file : forall os path md data, os path = Some (OsReal md data) ->
  os_lookup os path = Ok (Some (md, data)).
Proof. intros os path md data E. unfold os_lookup. cbn [os_follow]. now rewrite E. Qed.

Lemma creation_spec : forall c, creation_value c <> Panic /\
  (creation_value c = Err <-> exists s n, c = Some (s, n) /\ (s < 0)%Z) /\
  (forall t, creation_value c = Ok t ->
     match c with None => t = None | Some m => says t m end).
Proof.
  intros [[s n]|]; cbn [creation_value].
  - destruct (Z.leb_spec 0 s) as [H|H]; cbn [check bind].
    + split; [discriminate|]. split.
      * split; [discriminate|]. intros (s' & n' & E & Hs). injection E as <- <-. lia.
      * intros t E. injection E as <-. eexists. split; reflexivity.
    + split; [discriminate|]. split.
      * split; [|reflexivity]. intros _. exists s, n. split; [reflexivity|assumption].
      * discriminate.
  - split; [discriminate|]. split.
    + split; [discriminate|]. intros (s & n & E & _). discriminate.
    + intros t E. injection E as <-. reflexivity.
Qed.

(** ** Theorems *)

(** Asking for a file: the answer is an entry exactly if the file is not a socket or of an
    unknown type and was not created before 1970. Its type is that of the file, each of its
    times is that of the file exactly if the time is one that is kept, its data stream is the
    data of a regular file, and others have none. *)
Theorem C68_entry_partial :
  forall os path md data, os path = Some (OsReal md data) ->
  os_entry_exists os (VOs path) = Ok true /\
  ((exists t, has_type (md_mode md) t /\ t <> Socket) /\
   (forall s n, md_creation md = Some (s, n) -> (0 <= s)%Z) <->
   exists entry, os_entry_by_path os (VOs path) = Ok (Some entry)) /\
  (forall entry, os_entry_by_path os (VOs path) = Ok (Some entry) ->
     has_type (md_mode md) (oe_file_type entry) /\
     (says (oe_access entry) (md_access md) <-> kept (md_access md)) /\
     (says (oe_change entry) (md_change md) <-> kept (md_change md)) /\
     (says (oe_modification entry) (md_modification md) <-> kept (md_modification md)) /\
     match md_creation md with
     | None => oe_creation entry = None
     | Some t => says (oe_creation entry) t
     end /\
     (has_type (md_mode md) File -> os_entry_data_stream os entry = Ok (Some data)) /\
     (~ has_type (md_mode md) File -> os_entry_data_stream os entry = Ok None)).
Proof.
  intros os path md data E.
  pose proof (follow_file os path md data E) as L.
  pose proof (creation_spec (md_creation md)) as (C1 & C2 & C3).
  unfold os_entry_exists, os_entry_by_path, os_entry_open. rewrite L. cbn [bind].
  split; [reflexivity|]. split.
  - split.
    + intros [(t & Ht) Hc]. apply mode_file_type_spec in Ht. rewrite Ht. cbn [bind].
      destruct (creation_value (md_creation md)) as [c| |]; cbn [bind].
      * eexists. reflexivity.
      * exfalso. destruct (proj1 C2 eq_refl) as (s & n & Ec & Hs). specialize (Hc s n Ec). lia.
      * congruence.
    + intros (entry & H). apply bind_Ok_inv in H as (e & H & _).
      apply bind_Ok_inv in H as (t & Ht & H). apply bind_Ok_inv in H as (c & Hc & _).
      split; [exists t; apply mode_file_type_spec; exact Ht|].
      intros s n Ec. destruct (Z.neg_nonneg_cases s) as [Hs|Hs]; [|exact Hs].
      rewrite (proj2 C2 (ex_intro _ s (ex_intro _ n (conj Ec Hs)))) in Hc. discriminate.
  - intros entry H. apply bind_Ok_inv in H as (e & H & He). injection He as ->.
    apply bind_Ok_inv in H as (t & Ht & H). apply bind_Ok_inv in H as (c & Hc & H).
    injection H as <-. cbn [oe_file_type oe_access oe_change oe_modification oe_creation].
    pose proof (proj1 (mode_file_type_spec _ _) Ht) as [T Ts].
    split; [exact T|]. split; [apply value_says|]. split; [apply value_says|].
    split; [apply value_says|]. split; [exact (C3 c Hc)|].
    unfold os_entry_data_stream. cbn [oe_file_type oe_path]. rewrite L. cbn [bind]. split.
    + intros F. assert (t = File) as ->; [|reflexivity].
      assert (F' : mode_file_type (md_mode md) = Ok File)
        by (apply mode_file_type_spec; split; [exact F|discriminate]).
      rewrite Ht in F'. now injection F'.
    + intros F. destruct t; try reflexivity. contradiction.
Qed.
Print Assumptions C68_entry_partial.

(** What is not there is said to be not there, paths of other kinds are an error, and nothing
    panics. *)
Theorem C68_not_there :
  (forall os path, os path = None ->
     os_entry_exists os (VOs path) = Ok false /\ os_entry_by_path os (VOs path) = Ok None) /\
  (forall os path, (forall p, path <> VOs p) ->
     os_entry_exists os path = Err /\ os_entry_by_path os path = Err) /\
  (forall os path, os_entry_exists os path <> Panic /\ os_entry_by_path os path <> Panic).
Proof.
  split; [|split].
  - intros os path E. unfold os_entry_exists, os_entry_by_path, os_lookup.
    cbn [os_follow]. rewrite E. split; reflexivity.
  - intros os [l|l|l|p|l] H; try (split; reflexivity). exfalso. exact (H p eq_refl).
  - intros os path. unfold os_entry_exists, os_entry_by_path, os_entry_open.
    destruct path as [l|l|l|p|l]; try (split; discriminate).
    pose proof (follow_no_panic 40 os p) as F. fold (os_lookup os p) in F.
    destruct (os_lookup os p) as [[[md d]|]| |]; cbn [bind];
      [|split; discriminate|split; discriminate|congruence].
    split; [discriminate|].
    pose proof (mode_file_type_no_panic (md_mode md)) as T.
    destruct (mode_file_type (md_mode md)) as [t| |]; cbn [bind]; [|discriminate|congruence].
    pose proof (creation_spec (md_creation md)) as (C & _).
    destruct (creation_value (md_creation md)); cbn [bind]; congruence.
Qed.
Print Assumptions C68_not_there.

(** Missing: links. The entry of a link is that of the file it leads to, so that a link is
    never seen, and a link that leads nowhere is said to be not there. *)
Theorem C68_links_refuted :
  (forall os path target md data,
     os path = Some (OsLink target) -> os target = Some (OsReal md data) ->
     forall entry, os_entry_by_path os (VOs path) = Ok (Some entry) ->
     exists entry', os_entry_by_path os (VOs target) = Ok (Some entry') /\
       oe_file_type entry = oe_file_type entry' /\ oe_access entry = oe_access entry' /\
       oe_change entry = oe_change entry' /\ oe_creation entry = oe_creation entry' /\
       oe_modification entry = oe_modification entry' /\ oe_path entry = path) /\
  (forall os, (forall path md data, os path = Some (OsReal md data) ->
       ~ has_type (md_mode md) SymbolicLink) ->
     forall path entry, os_entry_by_path os (VOs path) = Ok (Some entry) ->
     oe_file_type entry <> SymbolicLink) /\
  (forall os path target, os path = Some (OsLink target) -> os target = None ->
     os_entry_exists os (VOs path) = Ok false /\ os_entry_by_path os (VOs path) = Ok None).
Proof.
  split; [|split].
  - intros os path target md data E1 E2 entry.
    assert (L1 : os_lookup os path = Ok (Some (md, data)))
      by (unfold os_lookup; cbn [os_follow]; rewrite E1; cbn [os_follow]; now rewrite E2).
    pose proof (follow_file os target md data E2) as L2.
    unfold os_entry_by_path, os_entry_open. rewrite L1, L2. cbn [bind]. intros H.
    apply bind_Ok_inv in H as (e & H & He). injection He as ->.
    apply bind_Ok_inv in H as (t & Ht & H). apply bind_Ok_inv in H as (c & Hc & H).
    injection H as <-. rewrite Ht. cbn [bind]. rewrite Hc. cbn [bind].
    eexists. split; [reflexivity|]. repeat split.
  - intros os Hos path entry H.
    assert (F : forall n p md d, os_follow n os p = Ok (Some (md, d)) ->
              ~ has_type (md_mode md) SymbolicLink).
    { induction n as [|n IH]; intros p md d; cbn [os_follow];
        destruct (os p) as [[md' d'|target]|] eqn:E; try discriminate.
      - intros K. injection K as <- <-. exact (Hos p md' d' E).
      - intros K. injection K as <- <-. exact (Hos p md' d' E).
      - apply IH. }
    unfold os_entry_by_path, os_entry_open in H.
    destruct (os_lookup os path) as [[[md d]|]| |] eqn:L; cbn [bind] in H; try discriminate.
    apply bind_Ok_inv in H as (e & H & He). injection He as ->.
    apply bind_Ok_inv in H as (t & Ht & H). apply bind_Ok_inv in H as (c & Hc & H).
    injection H as <-. cbn [oe_file_type]. intros ->.
    apply mode_file_type_spec in Ht as [Ht _]. exact (F _ _ _ _ L Ht).
  - intros os path target E1 E2. unfold os_entry_exists, os_entry_by_path, os_lookup.
    cbn [os_follow]. rewrite E1. cbn [os_follow]. rewrite E2. split; reflexivity.
Qed.
Print Assumptions C68_links_refuted.

(** Missing: sockets and files created before 1970 cannot be opened at all. *)
Theorem C68_sockets_refuted :
  forall os path md data, os path = Some (OsReal md data) ->
  has_type (md_mode md) Socket \/
  (exists s n, md_creation md = Some (s, n) /\ (s < 0)%Z) ->
  os_entry_by_path os (VOs path) = Err.
Proof.
  intros os path md data E H.
  pose proof (C68_not_there) as (_ & _ & P). specialize (P os (VOs path)) as [_ P].
  pose proof (C68_entry_partial os path md data E) as (_ & I & _).
  destruct (os_entry_by_path os (VOs path)) as [[entry|]| |] eqn:R; [|exfalso|reflexivity|congruence].
  - exfalso. destruct (proj2 I (ex_intro _ entry eq_refl)) as [(t & Ht & Hs) Hc].
    destruct H as [H|(s & n & Ec & Hs')].
    + inversion H as [| | | | | |H1]. inversion Ht as [H2|H2|H2|H2|H2|H2|H2]; subst; try congruence.
    + specialize (Hc s n Ec). lia.
  - unfold os_entry_by_path in R. rewrite (follow_file _ _ _ _ E) in R. cbn [bind] in R.
    apply bind_Ok_inv in R as (e & _ & R). discriminate.
Qed.
Print Assumptions C68_sockets_refuted.

(** Missing: whole seconds. A file modified at a whole second from 2038 on, as other systems
    and archives write them, gets another time, and the start of 1970 is no time. *)
Theorem C68_times_refuted :
  (forall s, (s < - 2 ^ 31 \/ 2 ^ 31 <= s)%Z ->
     exists s', moment (get_posix_datetime_value s 0) = Some (s', 0) /\ s' <> s /\
       (s' mod 2 ^ 32 = s mod 2 ^ 32)%Z) /\
  moment (get_posix_datetime_value (2 ^ 31) 0) = Some ((- 2 ^ 31)%Z, 0) /\
  moment (get_posix_datetime_value 0 0) = None.
Proof.
  split; [|split; reflexivity].
  intros s Hs. exists (as_i32 s). unfold get_posix_datetime_value. cbn [negb N.eqb].
  destruct (Z.eqb_spec s 0) as [->|H]; [lia|]. cbn [negb]. split; [reflexivity|]. split.
  - intros E. apply as_i32_id in E. lia.
  - unfold as_i32. rewrite Zminus_mod_idemp_l. f_equal. lia.
Qed.
Print Assumptions C68_times_refuted.

(** ** Concrete cases *)
Definition some_metadata (mode : N) (creation : option (Z * N)) : metadata :=
  {| md_mode := mode; md_access := (1700000000%Z, 5); md_change := (1700000001%Z, 0);
     md_modification := (2147483648%Z, 0); md_creation := creation |}.
Definition some_os (path : list N) : option os_file :=
  match path with
  | [0x61] => Some (OsReal (some_metadata 0x81a4 (Some (1600000000%Z, 7))) [1; 2; 3])
  | [0x62] => Some (OsLink [0x61])
  | [0x63] => Some (OsReal (some_metadata 0xc1a4 None) [])
  | [0x64] => Some (OsLink [0x65])
  | [0x66] => Some (OsLink [0x66])
  | _ => None
  end.
Example C68_case :
  os_entry_by_path some_os (VOs [0x61]) =
    Ok (Some {| oe_path := [0x61]; oe_file_type := File;
                oe_access := Some (PosixTime64Ns 1700000000 5);
                oe_change := Some (PosixTime32 1700000001);
                oe_creation := Some (PosixTime64Ns 1600000000 7);
                oe_modification := Some (PosixTime32 (-2147483648)) |}) /\
  (exists e, os_entry_by_path some_os (VOs [0x62]) = Ok (Some e) /\
     oe_file_type e = File /\ os_entry_data_stream some_os e = Ok (Some [1; 2; 3])) /\
  os_entry_by_path some_os (VOs [0x63]) = Err /\
  os_entry_by_path some_os (VOs [0x64]) = Ok None /\
  os_entry_by_path some_os (VOs [0x66]) = Err.
Proof.
  split; [vm_compute; reflexivity|]. split; [eexists; split; [vm_compute; reflexivity|split; vm_compute; reflexivity]|].
  repeat split; vm_compute; reflexivity.
Qed.
Example C68_case_met : has_type 0x81a4 File /\ kept (1700000000%Z, 5) /\ kept (1700000001%Z, 0) /\
  ~ kept (2147483648%Z, 0) /\ has_type 0xc1a4 Socket.
Proof.
  split; [apply type_reg; reflexivity|]. split; [left; discriminate|].
  split; [right; cbn; lia|]. split; [|apply type_sock; reflexivity].
  intros [H|[_ H]]; cbn in H; [congruence|lia].
Qed.
