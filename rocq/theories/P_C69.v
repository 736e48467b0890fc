(** * C69: The names of NTFS junctions *)
From Verif Require Import Base BaseLemmas Bytes_model Strings_model Strings_spec Strings_proofs Part_model Part_spec
  Headers_model Headers_spec Headers_proofs Streams_model Streams_spec Streams_proofs BlockTree_model Blocks_model
  Blocks_proofs Ntfs_model Ntfs_spec Ntfs_proofs NtfsCompressed_model NtfsFs_model NtfsFs_spec NtfsFs_proofs Junction_model.
Open Scope N_scope. Open Scope list_scope.
Ltac Zify.zify_post_hook ::= idtac.

(** ** Specification: the data of a junction is two pairs of a position, counted from byte 8,
    and a size in bytes, and then the texts of 16-bit values. *)
Definition within (data : list N) (position size : N) : Prop :=
  8 + position < len data /\ 8 + position + size <= len data.
Definition sound (data : list N) : Prop :=
  8 <= len data /\ within data (field data 0 2) (field data 2 2) /\
  within data (field data 4 2) (field data 6 2).
Definition substitute_name (data : list N) : list N :=
  text16 data (8 + field data 0 2) (field data 2 2).
Definition display_name (data : list N) : list N :=
  text16 data (8 + field data 4 2) (field data 6 2).

(** ** Proofs *)
Lemma name_read : forall elements data o n, o < 65536 -> n < 65536 ->
  (~ within data o n -> junction_name_read elements data o n = Err) /\
  (within data o n -> N.even n = true ->
   junction_name_read elements data o n = Ok (elements ++ text16 data (8 + o) n)).
Proof.
  intros elements data o n Ho Hn. unfold within, junction_name_read. rewrite (N.add_comm o 8).
  destruct (N.ltb_spec (8 + o) (len data)) as [L1|L1]; cbn [check bind];
    [|split; [reflexivity|lia]].
  destruct (N.leb_spec (8 + o + n) (len data)) as [L2|L2]; cbn [check bind];
    [|split; [reflexivity|lia]].
  split; [intros H; exfalso; apply H; split; assumption|]. intros _ He.
  rewrite slice_at by lia. cbn [bind]. replace (8 + o + n - (8 + o)) with n by lia.
  assert (L : len (bytes_at data (8 + o) n) = n) by (rewrite len_bytes_at; lia).
  rewrite text_read; [reflexivity| |now rewrite L]. rewrite L. unfold two64. lia.
Qed.

Lemma junction_read : forall value data, buffer data ->
  N.even (field data 2 2) = true -> N.even (field data 6 2) = true ->
  (sound data -> junction_read_data value data =
     Ok {| jn_substitute := jn_substitute value ++ substitute_name data;
           jn_display := jn_display value ++ display_name data |}) /\
  (~ sound data -> junction_read_data value data = Err).
Proof.
  intros value data Hb E1 E2. unfold junction_read_data, sound.
  assert (F : forall o, field data o 2 < 65536) by (intros o; exact (field_lt data Hb o 2)).
  destruct (N.leb_spec 8 (len data)) as [H8|H8]; cbn [check bind]; [|split; [lia|reflexivity]].
  rewrite (u16_at _ Hb) by lia. cbn [bind]. rewrite (u16_at _ Hb) by lia. cbn [bind].
  destruct (name_read (jn_substitute value) data _ _ (F 0) (F 2)) as [S1 S2].
  destruct (name_read (jn_display value) data _ _ (F 4) (F 6)) as [D1 D2].
  assert (W : forall o n, within data o n \/ ~ within data o n)
    by (intros o n; unfold within; lia).
  destruct (W (field data 0 2) (field data 2 2)) as [W1|W1].
  - rewrite S2 by assumption. cbn [bind].
    rewrite (u16_at _ Hb) by lia. cbn [bind]. rewrite (u16_at _ Hb) by lia. cbn [bind].
    destruct (W (field data 4 2) (field data 6 2)) as [W2|W2].
    + rewrite D2 by assumption. cbn [bind]. split; [reflexivity|].
      intros H. exfalso. apply H. auto.
    + rewrite D1 by assumption. cbn [bind]. split; [|reflexivity]. intros (_ & _ & H). contradiction.
  - rewrite S1 by assumption. cbn [bind]. split; [|reflexivity]. intros (_ & H & _). contradiction.
Qed.

(** ** Theorems *)

(** Every buffer of bytes whose two sizes are even: a new value gets the two texts, each up to
    a zero, exactly if they are within the data, and reading fails otherwise. Missing: odd
    sizes, see below. *)
Theorem C69_names_partial :
  forall data, wf_bytes data -> len data < two64 ->
  N.even (field data 2 2) = true -> N.even (field data 6 2) = true ->
  (sound data ->
   junction_read_data junction_new data =
   Ok {| jn_substitute := substitute_name data; jn_display := display_name data |}) /\
  (~ sound data -> junction_read_data junction_new data = Err).
Proof.
  intros data Hw Hl E1 E2. apply (junction_read junction_new data (conj Hw Hl) E1 E2).
Qed.
Print Assumptions C69_names_partial.

(** Reading panics for names of an odd size. *)
Definition odd_junction : list N := [0; 0; 1; 0; 1; 0; 0; 0; 0x61; 0; 0; 0].
Theorem C69_odd_refuted :
  (exists data, wf_bytes data /\ sound data /\ junction_read_data junction_new data = Panic) /\
  (forall value data, buffer data -> len data = 9 ->
     field data 0 2 = 0 -> field data 2 2 = 1 -> junction_read_data value data = Panic).
Proof.
  split.
  - exists odd_junction. split; [apply wf_bytesb_iff; vm_compute; reflexivity|].
    split; [|vm_compute; reflexivity]. vm_compute. intuition discriminate.
  - intros value data Hb L F0 F2. unfold junction_read_data. rewrite L.
    change (8 <=? 9) with true. cbn [check bind].
    rewrite (u16_at _ Hb) by lia. cbn [bind]. rewrite (u16_at _ Hb) by lia. cbn [bind].
    rewrite F0, F2. unfold junction_name_read. rewrite L. change (0 + 8 <? 9) with true.
    change (0 + 8 + 1 <=? 9) with true. cbn [check bind].
    destruct data as [|a0 [|a1 [|a2 [|a3 [|a4 [|a5 [|a6 [|a7 [|a8 [|a9 data]]]]]]]]]];
      try discriminate L.
    + cbn. reflexivity.
    + exfalso. rewrite !len_cons in L. lia.
Qed.
Print Assumptions C69_odd_refuted.

(** A value that is read into again keeps the old names before the new ones. *)
Theorem C69_read_again_refuted :
  forall data data', buffer data -> buffer data' -> sound data -> sound data' ->
  N.even (field data 2 2) = true -> N.even (field data 6 2) = true ->
  N.even (field data' 2 2) = true -> N.even (field data' 6 2) = true ->
  (value <- junction_read_data junction_new data ;; junction_read_data value data') =
  Ok {| jn_substitute := substitute_name data ++ substitute_name data';
        jn_display := display_name data ++ display_name data' |}.
Proof.
  intros data data' Hb Hb' S S' E1 E2 E3 E4.
  rewrite (proj1 (junction_read junction_new data Hb E1 E2) S). cbn [bind].
  rewrite (proj1 (junction_read _ data' Hb' E3 E4) S'). reflexivity.
Qed.
Print Assumptions C69_read_again_refuted.

(** The names of a junction are never read: the reparse point of a file is the same whatever
    the data after the tag, also when it is no sound junction. *)
Theorem C69_reparse_points_refuted :
  forall a a', ma_type a = 0xc0 -> resident a -> buffer (ma_resident_data a) ->
  8 <= len (ma_resident_data a) -> field (ma_resident_data a) 0 4 = 0xa0000003 ->
  ma_type a' = 0xc0 -> resident a' -> buffer (ma_resident_data a') ->
  8 <= len (ma_resident_data a') -> field (ma_resident_data a') 0 4 = 0xa0000003 ->
  reparse_point_of a = reparse_point_of a' /\ exists r, reparse_point_of a = Ok r.
Proof.
  assert (K : forall a, ma_type a = 0xc0 -> resident a -> buffer (ma_resident_data a) ->
    8 <= len (ma_resident_data a) -> field (ma_resident_data a) 0 4 = 0xa0000003 ->
    reparse_point_of a = Ok Junction).
  { intros a Ht Hr Hb H8 Htag. rewrite reparse_content; try assumption.
    - unfold reparse_value. rewrite Htag. reflexivity.
    - unfold reparse_ok. rewrite Htag. apply N.leb_le in H8. rewrite H8. reflexivity. }
  intros a a' H1 H2 H3 H4 H5 H1' H2' H3' H4' H5'. rewrite !K by assumption.
  split; [reflexivity|]. eexists. reflexivity.
Qed.
Print Assumptions C69_reparse_points_refuted.

(** ** Concrete cases *)

(** "C:" and "D" *)
Definition small_junction : list N :=
  [0; 0; 4; 0; 6; 0; 2; 0; 0x43; 0; 0x3a; 0; 0; 0; 0x44; 0; 0; 0].
Example C69_case :
  wf_bytes small_junction /\ sound small_junction /\
  N.even (field small_junction 2 2) = true /\ N.even (field small_junction 6 2) = true /\
  junction_read_data junction_new small_junction =
  Ok {| jn_substitute := [0x43; 0x3a]; jn_display := [0x44] |}.
Proof.
  split; [apply wf_bytesb_iff; vm_compute; reflexivity|].
  split; [vm_compute; intuition discriminate|]. repeat split; vm_compute; reflexivity.
Qed.
(** An empty name at the end of the data is not within it. *)
Example C69_empty_at_end :
  junction_read_data junction_new [0; 0; 2; 0; 2; 0; 0; 0; 0x43; 0] = Err /\
  ~ sound [0; 0; 2; 0; 2; 0; 0; 0; 0x43; 0].
Proof. split; [vm_compute; reflexivity|]. intros (_ & _ & H & _). vm_compute in H. discriminate. Qed.
Definition junction_attribute (content : list N) : mft_attribute :=
  {| ma_type := 0xc0; ma_size := 0; ma_name := None; ma_allocated := 0; ma_data_size := len content;
     ma_valid := 0; ma_unit := 0; ma_compressed := 0; ma_resident_data := content; ma_groups := [];
     ma_non_resident := 0; ma_flags := 0 |}.
(** A junction with names and one with no data at all *)
Example C69_reparse_points_met :
  Forall (fun content =>
    let a := junction_attribute content in
    ma_type a = 0xc0 /\ resident a /\ buffer (ma_resident_data a) /\
    8 <= len (ma_resident_data a) /\ field (ma_resident_data a) 0 4 = 0xa0000003)
  [[3; 0; 0; 0xa0; 18; 0; 0; 0] ++ small_junction; [3; 0; 0; 0xa0; 0; 0; 0; 0]].
Proof.
  repeat constructor; try (vm_compute; reflexivity);
    try (apply wf_bytesb_iff; vm_compute; reflexivity); vm_compute; discriminate.
Qed.
Example C69_odd_met :
  let data := [0; 0; 1; 0; 0; 0; 0; 0; 0x61] in
  wf_bytes data /\ len data = 9 /\ field data 0 2 = 0 /\ field data 2 2 = 1.
Proof. split; [apply wf_bytesb_iff; vm_compute; reflexivity|]. repeat split. Qed.
