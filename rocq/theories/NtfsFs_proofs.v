(** * Proofs about NTFS MFT entries, attributes and directories *)
From Coq Require Import Permutation Sorted.
From Verif Require Import Base BaseLemmas Bytes_model Streams_model Streams_spec Streams_proofs BlockTree_model
  Blocks_model Blocks_proofs Strings_model Strings_spec Strings_proofs Part_model Part_spec Headers_model
  Headers_spec Headers_proofs Ntfs_model Ntfs_spec Ntfs_proofs NtfsCompressed_model NtfsFs_model NtfsFs_spec.
Ltac Zify.zify_post_hook ::= idtac.

(** ** Computations with fuel *)
Lemma ends_now {A} (r : res A) : ends (fun _ => now r) r.
Proof. now exists O. Qed.
Lemma ends_bind {A B} (f : nat -> out A) (k : nat -> A -> out B) a r :
  ends f (Ok a) -> ends (fun m => k m a) r -> ends (fun m => obind (f m) (k m)) r.
Proof.
  intros [n Hn] [p Hp]. exists (max n p). intros m Hm. rewrite Hn by lia. cbn [obind]. apply Hp. lia.
Qed.
Lemma ends_eq {A} (f g : nat -> out A) r : (forall m, f m = g m) -> ends g r -> ends f r.
Proof. intros H [n Hn]. exists n. intros m Hm. rewrite H. now apply Hn. Qed.
Lemma ends_S {A} (f : nat -> out A) (g : nat -> out A) r : (forall m, f (S m) = g m) -> ends g r -> ends f r.
Proof. intros H [n Hn]. exists (S n). intros [|m] Hm; [lia|]. rewrite H. apply Hn. lia. Qed.

(** ** Records *)
Lemma nth_seqN_map {B} (f : N -> B) d n i : (i < n)%nat -> nth i (map f (seqN 0 n)) d = f (N.of_nat i).
Proof.
  intros H. apply nth_error_nth. rewrite nth_error_map.
  rewrite nth_error_seqN by assumption. reflexivity.
Qed.
Lemma len_record data o : len (record_of data o) = len data.
Proof. unfold record_of, len. rewrite map_length, seqN_length. reflexivity. Qed.
Lemma byte_record data o i : i < len data -> byte (record_of data o) i =
  if 510 <=? i mod 512 then byte data (o + 2 + 2 * (i / 512) + (i mod 512 - 510)) else byte data i.
Proof.
  intros H. unfold byte at 1. unfold record_of. rewrite nth_seqN_map by (unfold len in H; lia).
  rewrite N2Nat.id. reflexivity.
Qed.
Lemma nth_all_eq (a b : list N) : len a = len b -> (forall i, i < len a -> byte a i = byte b i) -> a = b.
Proof.
  intros Hl H. apply nth_ext with 0 0; [unfold len in Hl; lia|]. intros n Hn.
  specialize (H (N.of_nat n)). unfold byte in H. rewrite Nat2N.id in H. apply H. unfold len. lia.
Qed.
Lemma fixup_record data o values : record_ok data o values ->
  apply_fixup_values data o values = (record_of data o, Ok tt).
Proof.
  intros (Hl & Hm & -> & Ho & Hp). unfold apply_fixup_values.
  assert (Hs : len data = 512 * sectors data).
  { unfold sectors. pose proof (N.div_mod (len data) 512 ltac:(lia)). lia. }
  assert (1 <= sectors data) by lia.
  destruct (N.leb_spec (len data) o); [lia|].
  destruct (N.ltb_spec (len data) (o + (2 + (sectors data + 1) * 2))); [lia|].
  rewrite slice_two by lia. replace (N.to_nat (sectors data + 1 - 1)) with (N.to_nat (sectors data)) by lia.
  destruct (fixup_loop_ok (byte data o) (byte data (o + 1)) o (N.to_nat (sectors data)) 0 data) as (b & E & L & F1 & F2).
  - lia.
  - lia.
  - intros k [Hk _]. apply Hp. lia.
  - rewrite N.mul_0_r, !N.add_0_r in E. unfold byte in E. rewrite E. f_equal.
    apply nth_all_eq; [rewrite len_record; congruence|]. intros i Hi. rewrite L in Hi.
    rewrite byte_record by assumption.
    pose proof (N.div_mod i 512 ltac:(lia)) as Ei. pose proof (N.mod_lt i 512 ltac:(lia)) as Li.
    set (k := i / 512) in *. set (x := i mod 512) in *.
    destruct (N.leb_spec 510 x) as [Hx|Hx].
    + unfold byte. replace (N.to_nat i) with (N.to_nat (512 * k + 510 + (x - 510))) by lia.
      apply F1; [|lia]. split; lia.
    + apply F2. intros k' _. split; intros ->.
      * assert (k = k') by (unfold k; symmetry; apply N.div_unique with 510; lia). lia.
      * assert (k = k') by (unfold k; symmetry; apply N.div_unique with 511; lia). lia.
Qed.
Lemma wf_byte data i : wf_bytes data -> byte data i < 256.
Proof.
  intros H. unfold byte. destruct (Nat.ltb_spec (N.to_nat i) (length data)).
  - unfold wf_bytes in H. rewrite Forall_forall in H. apply H. now apply nth_In.
  - rewrite nth_overflow by assumption. lia.
Qed.
Lemma buffer_record data o : buffer data -> buffer (record_of data o).
Proof.
  intros [H1 H2]. split; [|now rewrite len_record]. unfold record_of. unfold wf_bytes. apply Forall_forall.
  intros x Hx. apply in_map_iff in Hx as (i & <- & _). unfold byte_ok.
  destruct (510 <=? i mod 512); now apply wf_byte.
Qed.

(** ** MFT entries *)
Lemma mft_entry_ok data : buffer data -> entry_ok data -> mft_entry_read data = Ok (entry_value data).
Proof.
  intros Hb (H1 & H2 & H3 & H4 & H5 & H6 & H7).
  pose proof H7 as (L1 & L2 & L3 & L4 & _).
  assert (Hl : 512 <= len data).
  { pose proof (N.div_mod (len data) 512 ltac:(lia)). assert (len data / 512 <> 0) by (intros E; rewrite E in *; lia). lia. }
  unfold mft_entry_read. rewrite slice_at by lia. cbn [bind].
  change (4 - 0) with 4.
  rewrite (has_same data 0 [0; 0; 0; 0]) by reflexivity.
  rewrite (has_same data 0 [0x42; 0x41; 0x41; 0x44]) by reflexivity.
  assert (E1 : bytes_at data 0 4 = [0x46; 0x49; 0x4c; 0x45]).
  { unfold has in H1. destruct list_eq_dec as [E|]; [exact E|discriminate]. }
  unfold has. change (len [0; 0; 0; 0]) with 4. change (len [0x42; 0x41; 0x41; 0x44]) with 4. rewrite E1.
  destruct list_eq_dec as [|_]; [discriminate|]. destruct list_eq_dec as [|_]; [discriminate|].
  rewrite (mft_entry_header_ok' data Hb I). unfold mft_entry_header_ok. rewrite H1.
  destruct (N.leb_spec 42 (len data)); [|lia]. cbn [andb bind].
  unfold mft_entry_header_of. cbn [mh_size mh_fixup_offset mh_attributes_offset mh_fixups mh_sequence mh_base mh_journal].
  rewrite H2, N.eqb_refl. cbn [check bind].
  destruct (N.ltb_spec (field data 4 2) 42); [lia|]. destruct (N.ltb_spec (len data) (field data 4 2)); [lia|]. cbn [orb negb check bind].
  destruct (N.ltb_spec (field data 20 2) (if field data 4 2 =? 42 then 42 else 48)).
  { destruct (field data 4 2 =? 42); lia. }
  destruct (N.ltb_spec (len data) (field data 20 2)); [lia|]. cbn [orb negb check bind].
  destruct (N.ltb_spec (field data 4 2) (field data 20 2)); [|lia]. cbn [check bind].
  rewrite (fixup_record _ _ _ H7). reflexivity.
Qed.

(** ** Attributes *)
Lemma u16_text bytes : len bytes < two64 -> N.even (len bytes) = true ->
  u16string_from_le_bytes bytes = Ok (up_to_zero (pairs_le bytes)).
Proof.
  intros H1 H2. pose proof (text_read [] bytes H1 H2) as E. unfold ucs2_read_data_le in E.
  unfold u16string_from_le_bytes. apply bind_Ok_inv in E as (l & E & E'). rewrite E. cbn [app] in E'. exact E'.
Qed.
Lemma attribute_name_ok data first : buffer data -> 16 <= first <= len data ->
  attribute_name_read data (attribute_header_of data) first =
  if name_ok data first then Ok (name_of data, name_end data first) else Err.
Proof.
  intros Hb Hf. unfold attribute_name_read, name_ok, name_of, name_end, attribute_header_of.
  cbn [ah_name_size ah_name_offset]. destruct (N.eqb_spec (byte data 9) 0) as [E|E].
  - rewrite E. reflexivity.
  - destruct (N.ltb_spec 0 (byte data 9)); [|lia]. cbn [orb].
    destruct (N.leb_spec first (field data 10 2)); destruct (N.ltb_spec (field data 10 2) first); try lia;
      cbn [orb negb check bind andb]; [|reflexivity].
    rewrite (N.mul_comm (byte data 9) 2).
    destruct (N.leb_spec (len data) (field data 10 2)); cbn [negb check bind].
    + destruct (N.leb_spec (field data 10 2 + 2 * byte data 9) (len data)); [lia|reflexivity].
    + destruct (N.leb_spec (field data 10 2 + 2 * byte data 9) (len data)); [|reflexivity]. cbn [check bind].
      rewrite slice_at by lia. cbn [bind].
      replace (field data 10 2 + 2 * byte data 9 - field data 10 2) with (2 * byte data 9) by lia.
      assert (len (bytes_at data (field data 10 2) (2 * byte data 9)) = 2 * byte data 9) as L by (rewrite len_bytes_at; lia).
      rewrite u16_text; [reflexivity| |].
      * rewrite L. destruct Hb as [_ Hb]. unfold two64. lia.
      * rewrite L. apply N.even_spec. now exists (byte data 9).
Qed.
Lemma byte_skip data o e : byte (skipn (N.to_nat o) data) e = byte data (o + e).
Proof.
  unfold byte. rewrite N2Nat.inj_add. generalize (N.to_nat o) as n. revert data.
  intros data n. revert data. induction n as [|n IH]; intros [|x data]; cbn [skipn Nat.add]; auto.
  - now destruct (N.to_nat e).
  - apply IH.
Qed.
Lemma land_low v : N.land v 0xff = v mod 256.
Proof. change 0xff with (N.ones 8). apply N.land_ones. Qed.
Lemma land_one v : (N.land v 1 =? 0) = negb (flag v 0).
Proof. exact (land_flag v 0). Qed.
Lemma if_false {A} (b : bool) (x : A) : (if b then x else x) = x. Proof. now destruct b. Qed.

Lemma mft_attribute_resident data : buffer data -> flag (byte data 8) 0 = false ->
  mft_attribute_read data = if resident_ok data then Ok (resident_of data) else Err.
Proof.
  intros Hb Hf. unfold mft_attribute_read, resident_ok, method_ok.
  rewrite (attribute_header_ok' data Hb I). destruct (N.leb_spec 16 (len data)) as [H16|H16]; cbn [bind].
  2:{ destruct (N.leb_spec 24 (len data)); [lia|reflexivity]. }
  unfold attribute_header_of at 1 2. cbn [ah_data_flags ah_non_resident]. rewrite land_low, land_one, Hf. cbn [negb].
  destruct (field data 12 2 mod 256 <=? 1); cbn [check bind]; [|now rewrite andb_false_r].
  rewrite andb_true_r. unfold attribute_read_resident. rewrite slice_rest by lia. cbn [bind].
  rewrite (attribute_resident_ok' _ (buffer_skip _ _ Hb) I). rewrite len_skip.
  replace (8 <=? len data - N.of_nat (N.to_nat 16)) with (24 <=? len data) by (destruct (N.leb_spec 24 (len data)), (N.leb_spec 8 (len data - N.of_nat (N.to_nat 16))); lia).
  destruct (N.leb_spec 24 (len data)) as [H24|H24]; [|reflexivity]. cbn [bind andb].
  unfold attribute_resident_of. rewrite !(field_skip data 16). change (16 + 0) with 16. change (16 + 4) with 20.
  rewrite attribute_name_ok by (auto; lia). destruct (name_ok data 24) eqn:En; cbn [bind andb]; [|reflexivity].
  unfold resident_of. assert (E : 16 <= name_end data 24) by (unfold name_ok, name_end in *; destruct (byte data 9 =? 0); lia).
  destruct (N.eqb_spec (field data 16 4) 0) as [Ez|Ez].
  - rewrite Ez. cbn [N.ltb N.compare orb bind]. reflexivity.
  - destruct (N.ltb_spec 0 (field data 16 4)); [|lia]. cbn [orb].
    destruct (N.leb_spec (name_end data 24) (field data 20 2)); destruct (N.ltb_spec (field data 20 2) (name_end data 24)); try lia;
      cbn [orb negb check bind andb]; [|reflexivity].
    destruct (N.leb_spec (len data) (field data 20 2)); cbn [negb check bind];
      destruct (N.leb_spec (field data 20 2 + field data 16 4) (len data)); try lia; [reflexivity|..|reflexivity].
    cbn [check bind]. rewrite slice_at by lia. cbn [bind]. do 2 f_equal.
    replace (field data 20 2 + field data 16 4 - field data 20 2) with (field data 16 4) by lia. reflexivity.
Qed.
Lemma mft_attribute_non_resident data : buffer data -> flag (byte data 8) 0 = true ->
  mft_attribute_read data =
  if non_resident_ok data then '(runs, _) <- read_data_runs data (field data 32 2) ;; Ok (non_resident_of data runs) else Err.
Proof.
  intros Hb Hf. unfold mft_attribute_read, non_resident_ok, method_ok.
  assert (H64 : 64 <= runs_first data <= 72) by (unfold runs_first; destruct (field data 34 2 =? 0); lia).
  rewrite (attribute_header_ok' data Hb I). destruct (N.leb_spec 16 (len data)) as [H16|H16]; cbn [bind].
  2:{ destruct (N.leb_spec (runs_first data) (len data)); [lia|reflexivity]. }
  unfold attribute_header_of at 1 2. cbn [ah_data_flags ah_non_resident]. rewrite land_low, land_one, Hf. cbn [negb].
  destruct (field data 12 2 mod 256 <=? 1); cbn [check bind]; [|now rewrite andb_false_r].
  rewrite andb_true_r. unfold attribute_read_non_resident. rewrite slice_rest by lia. cbn [bind].
  rewrite (attribute_non_resident_ok' _ (buffer_skip _ _ Hb) I).
  assert (E : attribute_non_resident_ok (skipn (N.to_nat 16) data) = (runs_first data <=? len data) && (field data 34 2 <? 32)).
  { unfold attribute_non_resident_ok, runs_first. rewrite len_skip, (field_skip data 16). change (16 + 18) with 34.
    apply bool_eq. rewrite !andb_true_iff, orb_true_iff, andb_true_iff. rewrite !N.leb_le, !N.ltb_lt, N.eqb_eq.
    destruct (N.eqb_spec (field data 34 2) 0); lia. }
  rewrite E. destruct (N.leb_spec (runs_first data) (len data)); [|reflexivity].
  destruct (N.ltb_spec (field data 34 2) 32); [|reflexivity]. cbn [andb bind].
  assert (E2 : 16 + (if an_compression_unit (attribute_non_resident_of (skipn (N.to_nat 16) data)) =? 0 then 48 else 56) = runs_first data).
  { unfold attribute_non_resident_of, runs_first. cbn [an_compression_unit]. rewrite (field_skip data 16). change (16 + 18) with 34.
    destruct (N.eqb_spec (field data 34 2) 0) as [->|Hn]; [reflexivity|]. destruct (N.leb_spec 1 (field data 34 2)); [|lia].
    destruct (N.eqb_spec (2 ^ field data 34 2) 0); [|reflexivity]. pose proof (N.pow_nonzero 2 (field data 34 2)). lia. }
  rewrite E2. rewrite attribute_name_ok by (auto; lia). destruct (name_ok data (runs_first data)); cbn [bind andb]; [|reflexivity].
  replace (an_runs_offset (attribute_non_resident_of (skipn (N.to_nat 16) data))) with (field data 32 2)
    by (unfold attribute_non_resident_of; cbn [an_runs_offset]; now rewrite (field_skip data 16)).
  destruct (N.leb_spec (name_end data (runs_first data)) (field data 32 2)); destruct (N.ltb_spec (field data 32 2) (name_end data (runs_first data)));
    try lia; cbn [orb negb check bind andb]; [|reflexivity].
  destruct (N.leb_spec (len data) (field data 32 2)); destruct (N.ltb_spec (field data 32 2) (len data)); try lia; cbn [negb check bind]; [reflexivity|].
  destruct (read_data_runs data (field data 32 2)) as [[runs u]| |]; cbn [bind]; [|reflexivity..].
  unfold non_resident_of, attribute_non_resident_of, attribute_header_of.
  cbn [an_allocated an_size an_valid an_compression_unit an_compressed an_first_vcn an_last_vcn ah_type ah_size ah_non_resident ah_data_flags].
  rewrite !(field_skip data 16). change (16 + 18) with 34.
  replace (1 <=? field data 34 2) with (negb (field data 34 2 =? 0)); [reflexivity|].
  destruct (N.eqb_spec (field data 34 2) 0), (N.leb_spec 1 (field data 34 2)); auto; lia.
Qed.
Lemma runs_in data o runs bytes : len data < two64 -> encoded 0 runs bytes -> bytes_at data o (len bytes + 1) = bytes ++ [0] ->
  read_data_runs data o = Ok (map as_data_run runs, len bytes + 1).
Proof.
  intros Hl He Hd. 
  assert (L : o + len bytes + 1 <= len data).
  { assert (len (bytes_at data o (len bytes + 1)) = len bytes + 1) as L by (rewrite Hd, len_app; reflexivity).
    rewrite len_bytes_at in L. lia. }
  assert (E : data = firstn (N.to_nat o) data ++ bytes ++ 0 :: skipn (N.to_nat (o + len bytes + 1)) data).
  { rewrite <- (firstn_skipn (N.to_nat o) data) at 1. f_equal.
    rewrite <- (firstn_skipn (N.to_nat (len bytes + 1)) (skipn (N.to_nat o) data)) at 1.
    unfold bytes_at in Hd. rewrite Hd, <- app_assoc. cbn [app]. do 2 f_equal. rewrite skipn_skipn. f_equal. lia. }
  assert (Lo : len (firstn (N.to_nat o) data) = o) by (unfold len in *; rewrite firstn_length; lia).
  unfold read_data_runs. pose proof (encoded_length _ _ _ He).
  pose proof (loop_encoded runs 0 bytes (firstn (N.to_nat o) data) (0 :: skipn (N.to_nat (o + len bytes + 1)) data) [] (S (length data)) He) as El.
  rewrite <- E, Lo in El. cbn [app] in El. rewrite El.
  - cbn [bind]. unfold sub_chk. destruct (N.leb_spec o (o + len bytes + 1)); [|lia]. cbn [bind]. do 2 f_equal. lia.
  - unfold two63. lia.
  - unfold len in L. lia.
  - now right.
Qed.
Lemma attribute_ok data a : buffer data -> attribute_in data a -> mft_attribute_read data = Ok a.
Proof.
  intros Hb [H1 H2|runs bytes H1 H2 H3 H4].
  - rewrite mft_attribute_resident by assumption. now rewrite H2.
  - rewrite mft_attribute_non_resident by assumption. rewrite H2, (runs_in data _ runs bytes); auto.
    destruct Hb as [_ Hb]. unfold two64. lia.
Qed.

(** ** Collecting attributes *)
Lemma equal_names_spec a b : reflect (a = b) (equal_names a b).
Proof.
  destruct a as [a|], b as [b|]; cbn [equal_names]; try (constructor; congruence).
  destruct list_eq_dec; constructor; congruence.
Qed.
Lemma name_eqb_equal a b : name_eqb a b = equal_names a b.
Proof. destruct a, b; reflexivity. Qed.
Lemma existsb_names n l : existsb (name_eqb n) l = existsb (equal_names n) l.
Proof. induction l as [|m l IH]; [reflexivity|]. cbn [existsb]. now rewrite IH, name_eqb_equal. Qed.

Lemma reparse_content a : buffer (ma_resident_data a) -> ma_type a = 0xc0 -> resident a -> reparse_ok (ma_resident_data a) = true ->
  reparse_point_of a = Ok (reparse_value (ma_resident_data a)).
Proof.
  intros Hb Ht Hr Hk. unfold reparse_point_of. rewrite Ht. cbn [N.eqb Pos.eqb check bind].
  unfold ma_is_resident. unfold resident in Hr. rewrite land_one, Hr. cbn [negb check bind].
  rewrite (reparse_header_ok' _ Hb I). unfold reparse_ok in Hk. apply andb_true_iff in Hk as [H8 Hk]. rewrite H8.
  apply N.leb_le in H8. cbn [bind]. unfold reparse_header_of. rewrite slice_rest by lia. cbn [bind].
  change (N.to_nat 8) with 8%nat. set (data := skipn 8 (ma_resident_data a)) in *.
  assert (Hbd : buffer data) by (apply buffer_skip, Hb).
  unfold reparse_value. fold data. set (tag := field (ma_resident_data a) 0 4) in *.
  destruct (N.eqb_spec tag 0x80000017) as [E1|E1].
  { rewrite (wof_reparse_ok' _ Hbd I), Hk. reflexivity. }
  destruct (N.eqb_spec tag 0xa0000003) as [E2|E2]; [reflexivity|].
  destruct (N.eqb_spec tag 0xa000000c) as [E3|E3]; [|reflexivity].
  apply andb_true_iff in Hk as [Hk K2]. apply andb_true_iff in Hk as [K0 K1]. apply N.leb_le in K0.
  assert (R : forall o n, o < 65536 -> n < 65536 -> link_name_ok data o n = true -> link_name_read data o n = Ok (text16 data (12 + o) n)).
  { intros o n Ho Hn Hl. unfold link_name_ok in Hl. apply andb_true_iff in Hl as [Hl He]. apply andb_true_iff in Hl as [L1 L2].
    apply N.ltb_lt in L1. apply N.leb_le in L2. unfold link_name_read. rewrite (N.add_comm o 12).
    destruct (N.ltb_spec (12 + o) (len data)); [|lia]. cbn [check bind].
    destruct (N.leb_spec (12 + o + n) (len data)); [|lia]. cbn [check bind]. rewrite slice_at by lia. cbn [bind].
    replace (12 + o + n - (12 + o)) with n by lia.
    assert (L : len (bytes_at data (12 + o) n) = n) by (rewrite len_bytes_at; lia).
    rewrite text_read; [reflexivity| |now rewrite L]. rewrite L. unfold two64. lia. }
  unfold symbolic_link_read. destruct (N.leb_spec 12 (len data)); [|lia]. cbn [check bind].
  assert (F : forall o, field data o 2 < 65536) by (intros o; exact (field_lt data Hbd o 2)).
  rewrite (u16_at _ Hbd) by lia. cbn [bind]. rewrite (u16_at _ Hbd) by lia. cbn [bind].
  rewrite R by auto. cbn [bind].
  rewrite (u16_at _ Hbd) by lia. cbn [bind]. rewrite (u16_at _ Hbd) by lia. cbn [bind].
  rewrite R by auto. reflexivity.
Qed.
Lemma standard_content a : buffer (ma_resident_data a) -> ma_type a = 0x10 -> resident a -> 48 <= len (ma_resident_data a) ->
  standard_of a = Ok (standard_information_of (ma_resident_data a)).
Proof.
  intros Hb Ht Hr Hk. unfold standard_of. rewrite Ht. cbn [N.eqb Pos.eqb check bind].
  unfold ma_is_resident. unfold resident in Hr. rewrite land_one, Hr. cbn [negb check bind].
  rewrite (standard_information_ok' _ Hb I). destruct (N.leb_spec 48 (len (ma_resident_data a))); [reflexivity|lia].
Qed.

Lemma insert_group_perm g l : Permutation (insert_group g l) (g :: l).
Proof.
  induction l as [|h l IH]; cbn [insert_group]; [reflexivity|]. destruct (first_vcn g <=? first_vcn h); [reflexivity|].
  rewrite IH. apply perm_swap.
Qed.
Lemma sort_groups_perm l : Permutation (sort_groups l) l.
Proof. induction l as [|g l IH]; cbn [sort_groups fold_right]; [reflexivity|]. fold (sort_groups l). now rewrite insert_group_perm, IH. Qed.
Definition vcn_le (g h : cluster_group) : Prop := first_vcn g <= first_vcn h.
Lemma insert_group_sorted g l : StronglySorted vcn_le l -> StronglySorted vcn_le (insert_group g l).
Proof.
  induction 1 as [|h l Hl IH Hh]; cbn [insert_group]; [repeat constructor|].
  destruct (N.leb_spec (first_vcn g) (first_vcn h)).
  - constructor; [now constructor|]. constructor; [assumption|]. eapply Forall_impl; [|exact Hh]. unfold vcn_le. intros; lia.
  - constructor; [assumption|]. rewrite insert_group_perm. constructor; [unfold vcn_le; lia|assumption].
Qed.
Lemma sort_groups_sorted l : StronglySorted vcn_le (sort_groups l).
Proof. induction l as [|g l IH]; cbn [sort_groups fold_right]; [constructor|]. now apply insert_group_sorted. Qed.

Record collected (l : list mft_attribute) (s : mft_attributes) : Prop := {
  c_index : forall name t, t <> 0x30 ->
    match index_of s name t with
    | None => pieces name t l = []
    | Some i => exists a, nth_error (as_attributes s) i = Some a /\ assembled (pieces name t l) a
    end;
  c_inj : forall n1 t1 n2 t2 i, index_of s n1 t1 = Some i -> index_of s n2 t2 = Some i -> n1 = n2 /\ t1 = t2;
  c_names : forall name, index_of s name 0x30 = None;
  c_groups : forall name, has_group s name = existsb (fun a => equal_names name (ma_name a)) l;
  c_list : as_list s = index_of s None 0x20;
  c_data : Forall2 (fun k n => index_of s n 0x80 = Some k) (as_data s) (data_names l);
  c_reparse : as_reparse s = option_map reparse_value (content_of_type 0xc0 l);
  c_standard : as_standard s = option_map standard_information_of (content_of_type 0x10 l);
  c_plain : ForallOrdPairs (fun a b => ma_type a = 0x30 \/ ma_name a <> ma_name b \/ ma_type a <> ma_type b) l ->
    as_attributes s = l }.

Lemma collected_none : collected [] no_attributes.
Proof. split; try reflexivity; try discriminate. constructor. Qed.

Lemma pieces_app name t l m : pieces name t (l ++ m) = pieces name t l ++ pieces name t m.
Proof. apply filter_app. Qed.
Lemma pieces_one name t a : pieces name t [a] = if equal_names name (ma_name a) && (ma_type a =? t) then [a] else [].
Proof. cbn [pieces filter]. now destruct (_ && _). Qed.
Lemma in_pieces name t l a : In a (pieces name t l) <-> In a l /\ ma_name a = name /\ ma_type a = t.
Proof.
  unfold pieces. rewrite filter_In, andb_true_iff, N.eqb_eq. destruct (equal_names_spec name (ma_name a)); intuition congruence.
Qed.
Lemma existsb_app {A} (f : A -> bool) l m : existsb f (l ++ m) = existsb f l || existsb f m.
Proof. induction l as [|a l IH]; [reflexivity|]. cbn [app existsb]. now rewrite IH, orb_assoc. Qed.
Lemma distinct_snoc n : forall names seen,
  distinct seen (names ++ [n]) = distinct seen names ++ (if existsb (equal_names n) (seen ++ names) then [] else [n]).
Proof.
  induction names as [|m names IH]; intros seen; cbn [app distinct].
  - rewrite app_nil_r. destruct existsb; reflexivity.
  - destruct (existsb (equal_names m) seen) eqn:E.
    + rewrite IH. do 2 f_equal. rewrite !existsb_app. cbn [existsb].
      destruct (equal_names_spec n m) as [->|]; [|reflexivity]. rewrite E. reflexivity.
    + cbn [app]. f_equal. rewrite IH. do 2 f_equal. cbn [app]. cbn [existsb]. rewrite !existsb_app. cbn [existsb].
      destruct (equal_names n m), (existsb (equal_names n) seen); reflexivity.
Qed.
Lemma find_app {A} (f : A -> bool) l m : find f (l ++ m) = match find f l with Some a => Some a | None => find f m end.
Proof. induction l as [|a l IH]; [reflexivity|]. cbn [app find]. destruct (f a); auto. Qed.
Lemma ordpairs_snoc {A} (R : A -> A -> Prop) l a : ForallOrdPairs R (l ++ [a]) -> ForallOrdPairs R l /\ Forall (fun b => R b a) l.
Proof.
  induction l as [|b l IH]; cbn [app]; intros H; [split; constructor|]. inversion H as [|? ? H1 H2]; subst.
  apply IH in H2 as [I1 I2]. apply Forall_app in H1 as [J1 J2]. apply Forall_cons_iff in J2 as [J2 _]. split; constructor; auto.
Qed.
Lemma ordpairs_app {A} (R : A -> A -> Prop) l m : ForallOrdPairs R (l ++ m) -> ForallOrdPairs R l.
Proof.
  induction l as [|b l IH]; cbn [app]; intros H; [constructor|]. inversion H as [|? ? H1 H2]; subst.
  apply Forall_app in H1 as [J1 J2]. constructor; auto.
Qed.
Lemma sound_app l m : sound (l ++ m) -> sound l.
Proof. intros [H1 H2]. split; [eapply ordpairs_app, H1|]. now apply Forall_app in H2 as [H2 _]. Qed.

Lemma index_of_cons s name t n t' i rest : as_index s = (n, t', i) :: rest ->
  index_of s name t = if equal_names name n && (t' =? t) then Some i
    else match find (fun e => name_eqb name (fst (fst e)) && (snd (fst e) =? t)) rest with Some e => Some (snd e) | None => None end.
Proof. intros E. unfold index_of. rewrite E. cbn [find fst snd]. rewrite name_eqb_equal. now destruct (_ && _). Qed.
Lemma set_nth_same {A} (l : list A) i v a : nth_error l i = Some a -> nth_error (set_nth l i v) i = Some v.
Proof. revert i. induction l as [|b l IH]; intros [|i] H; try discriminate; [reflexivity|]. apply IH, H. Qed.
Lemma set_nth_other {A} (l : list A) i j v : i <> j -> nth_error (set_nth l i v) j = nth_error l j.
Proof. revert i j. induction l as [|b l IH]; intros [|i] [|j] H; try reflexivity; try congruence. apply IH. congruence. Qed.

Lemma Forall2_weaken {A B} (P Q : A -> B -> Prop) l m : (forall a b, P a b -> Q a b) -> Forall2 P l m -> Forall2 Q l m.
Proof. intros H. induction 1; constructor; auto. Qed.
Lemma merge_assembled ps a b : Forall (fun p => compatible p b) ps -> Forall (fun p => ma_type p = ma_type b /\ ma_name p = ma_name b) ps ->
  ma_type b <> 0x30 -> (exists g, ma_groups b = [g]) -> assembled ps a ->
  exists c, merge a b = Ok c /\ assembled (ps ++ [b]) c.
Proof.
  intros Hc Hk Ht [g Hg] Ha.
  assert (Hb : flag (ma_non_resident b) 0 = true).
  { destruct ps as [|p ps]; [destruct Ha|]. apply Forall_cons_iff in Hc as [Hc _]. apply Forall_cons_iff in Hk as [[K1 K2] _].
    apply Hc; congruence. }
  unfold merge, ma_is_resident. rewrite land_one, Hb, Hg. cbn [negb check bind nth_error unwrap].
  eexists. split; [reflexivity|].
  assert (Hp : exists p rest, ps = p :: rest /\ ma_type a = ma_type p /\ ma_name a = ma_name p /\ ma_non_resident a = ma_non_resident p /\
      ma_flags a = ma_flags p /\ ma_resident_data a = ma_resident_data p /\ Permutation (ma_groups a) (flat_map ma_groups ps) /\
      (forall q, In q ps -> starts q -> sizes a = sizes q)).
  { destruct ps as [|p [|p' ps]]; [destruct Ha|..].
    - cbn [assembled] in Ha. subst a. exists p, []. cbn [flat_map]. rewrite app_nil_r. repeat split; auto.
      intros q [<-|[]] _. reflexivity.
    - destruct Ha as (A1 & A2 & A3 & A4 & A5 & A6 & A7 & A8). exists p, (p' :: ps). auto 10. }
  destruct Hp as (p & rest & E & A1 & A2 & A3 & A4 & A5 & A6 & A8).
  assert (Q : forall q, In q (ps ++ [b]) -> starts q ->
    sizes (if first_vcn g =? 0 then b else a) = sizes q).
  { intros q Hq Hs. apply in_app_iff in Hq as [Hq|[<-|[]]].
    - destruct (N.eqb_spec (first_vcn g) 0) as [Eg|_]; [|now apply A8].
      rewrite Forall_forall in Hc, Hk. destruct (Hk q Hq) as [K1 K2].
      destruct (Hc q Hq ltac:(congruence) K2 K1) as (_ & _ & C). exfalso. apply C. split; [assumption|]. exists g. auto.
    - destruct Hs as (g' & G1 & G2). assert (g' = g) by congruence. subst g'. now rewrite G2. }
  assert (P : Permutation (sort_groups (ma_groups a ++ [g])) (flat_map ma_groups (ps ++ [b]))).
  { rewrite sort_groups_perm, flat_map_app. cbn [flat_map]. now rewrite Hg, A6, app_nil_r. }
  assert (S := sort_groups_sorted (ma_groups a ++ [g])).
  subst ps. cbn [app] in *. destruct (rest ++ [b]) as [|x y] eqn:Er; [now apply app_eq_nil in Er|].
  cbn [assembled ma_type ma_name ma_non_resident ma_flags ma_resident_data ma_groups].
  repeat match goal with |- _ /\ _ => split end; auto.
Qed.

Lemma add_ok l s a : collected l s -> sound (l ++ [a]) -> buffer (ma_resident_data a) ->
  (flag (ma_non_resident a) 0 = true -> exists g, ma_groups a = [g]) ->
  exists s', add_attribute s a = Ok s' /\ collected (l ++ [a]) s'.
Proof.
  intros C [S1 S2] Hbuf G1. apply ordpairs_snoc in S1 as [S1 S3]. apply Forall_app in S2 as [S2 S4].
  apply Forall_cons_iff in S4 as [(G2 & G3 & G4) _].
  unfold add_attribute.
  assert (Hg : forall gs, (gs = if has_group s (ma_name a) then as_groups s else ma_name a :: as_groups s) ->
    forall name, existsb (name_eqb name) gs = existsb (fun b => equal_names name (ma_name b)) (l ++ [a])).
  { intros gs -> name. rewrite existsb_app. rewrite <- (c_groups _ _ C name). cbn [existsb]. rewrite orb_false_r.
    destruct (has_group s (ma_name a)) eqn:E.
    - unfold has_group. destruct (equal_names_spec name (ma_name a)) as [->|]; [|now rewrite orb_false_r].
      unfold has_group in E. now rewrite E.
    - unfold has_group. cbn [existsb]. rewrite name_eqb_equal. apply orb_comm. }
  set (gs := if has_group s (ma_name a) then as_groups s else ma_name a :: as_groups s) in *.
  specialize (Hg gs eq_refl). clearbody gs.
  assert (Hd : forall type, (ma_type a = type -> pieces (ma_name a) type l <> []) \/ ma_type a <> type ->
     content_of_type type (l ++ [a]) = content_of_type type l).
  { intros type H. unfold content_of_type. f_equal. rewrite find_app. destruct (find _ l) eqn:E; [reflexivity|].
    cbn [find]. destruct (N.eqb_spec (ma_type a) type) as [Et|Et]; [|reflexivity]. destruct H as [H|H]; [|contradiction].
    exfalso. specialize (H Et). destruct (pieces (ma_name a) type l) as [|b ps] eqn:Ep; [contradiction|].
    assert (Hin : In b (pieces (ma_name a) type l)) by (rewrite Ep; now left).
    apply in_pieces in Hin as (I1 & _ & I2). pose proof (find_none _ _ E b I1) as F. cbn beta in F. rewrite I2, N.eqb_refl in F. discriminate. }
  destruct (index_of s (ma_name a) (ma_type a)) as [i|] eqn:Ei.
  - assert (Ht : ma_type a <> 0x30) by (intros E; rewrite E, (c_names _ _ C) in Ei; discriminate).
    pose proof (c_index _ _ C (ma_name a) (ma_type a) Ht) as Hi. rewrite Ei in Hi. destruct Hi as (x & X1 & X2).
    rewrite X1. cbn [of_option bind].
    assert (Hps : Forall (fun p => In p l /\ ma_name p = ma_name a /\ ma_type p = ma_type a) (pieces (ma_name a) (ma_type a) l)).
    { apply Forall_forall. intros p Hp. now apply in_pieces in Hp. }
    assert (Hne : pieces (ma_name a) (ma_type a) l <> []) by (intros E; rewrite E in X2; destruct X2).
    destruct (merge_assembled (pieces (ma_name a) (ma_type a) l) x a) as (c & M1 & M2); auto.
    { eapply Forall_impl; [|exact Hps]. cbn beta. intros p (P1 & _). rewrite Forall_forall in S3. auto. }
    { eapply Forall_impl; [|exact Hps]. cbn beta. tauto. }
    { apply G1. destruct (pieces (ma_name a) (ma_type a) l) as [|p ps]; [contradiction|]. apply Forall_cons_iff in Hps as [(P1 & P2 & P3) _].
      rewrite Forall_forall in S3. apply (S3 p P1); congruence. }
    rewrite M1. cbn [bind]. eexists. split; [reflexivity|].
    split; cbn [as_attributes as_groups as_index as_list as_data as_reparse as_standard]; unfold index_of; cbn [as_index]; fold (index_of s).
    + intros name t H30. pose proof (c_index _ _ C name t H30) as Hi. rewrite pieces_app, pieces_one.
      change (match find (fun e => name_eqb name (fst (fst e)) && (snd (fst e) =? t)) (as_index s) with Some e' => Some (snd e') | None => None end)
        with (index_of s name t).
      destruct (equal_names_spec name (ma_name a)) as [->|Hn].
      * destruct (N.eqb_spec (ma_type a) t) as [<-|Hn]; cbn [andb].
        -- rewrite Ei. exists c. split; [|exact M2]. eapply set_nth_same, X1.
        -- rewrite app_nil_r. destruct (index_of s (ma_name a) t) as [j|] eqn:Ej; [|exact Hi].
           destruct Hi as (y & Y1 & Y2). exists y. split; [|exact Y2]. rewrite set_nth_other; [exact Y1|].
           intros ->. destruct (c_inj _ _ C _ _ _ _ _ Ei Ej). congruence.
      * cbn [andb]. rewrite app_nil_r. destruct (index_of s name t) as [j|] eqn:Ej; [|exact Hi].
        destruct Hi as (y & Y1 & Y2). exists y. split; [|exact Y2]. rewrite set_nth_other; [exact Y1|].
        intros ->. destruct (c_inj _ _ C _ _ _ _ _ Ei Ej). congruence.
    + exact (c_inj _ _ C).
    + exact (c_names _ _ C).
    + intros name. unfold has_group. cbn [as_groups]. apply Hg.
    + exact (c_list _ _ C).
    + replace (data_names (l ++ [a])) with (data_names l); [exact (c_data _ _ C)|].
      unfold data_names. rewrite filter_app, map_app. cbn [filter]. destruct (N.eqb_spec (ma_type a) 0x80) as [E8|E8]; cbn [map].
      * rewrite distinct_snoc. cbn [app]. replace (existsb _ _) with true; [now rewrite app_nil_r|].
        symmetry. apply existsb_exists. rewrite E8 in Hne. destruct (pieces (ma_name a) 0x80 l) as [|b ps] eqn:Ep; [contradiction|].
        assert (Hin : In b (pieces (ma_name a) 0x80 l)) by (rewrite Ep; now left). apply in_pieces in Hin as (I1 & I2 & I3).
        exists (ma_name b). split; [|now rewrite I2; destruct (equal_names_spec (ma_name a) (ma_name a))].
        apply in_map, filter_In. split; [exact I1|]. now rewrite I3.
      * now rewrite app_nil_r.
    + rewrite (c_reparse _ _ C). f_equal. symmetry. apply Hd. left. intros <-. exact Hne.
    + rewrite (c_standard _ _ C). f_equal. symmetry. apply Hd. left. intros <-. exact Hne.
    + intros Hp. exfalso. apply ordpairs_snoc in Hp as [_ Hp].
      destruct (pieces (ma_name a) (ma_type a) l) as [|p ps]; [contradiction|]. apply Forall_cons_iff in Hps as [(P1 & P2 & P3) _].
      rewrite Forall_forall in Hp. destruct (Hp p P1) as [Q|[Q|Q]]; congruence.
  - assert (Hn : forall t, ma_type a = t -> t <> 0x30 -> pieces (ma_name a) t l = []).
    { intros t <- H30. pose proof (c_index _ _ C (ma_name a) (ma_type a) H30) as Hi. now rewrite Ei in Hi. }
    assert (Hfirst : forall t, ma_type a = t -> t <> 0x30 -> (forall b, In b l -> ma_type b = t -> ma_name b = ma_name a) ->
      content_of_type t l = None /\ content_of_type t (l ++ [a]) = Some (ma_resident_data a)).
    { intros t Et H30 Hall. assert (F : find (fun b => ma_type b =? t) l = None).
      { destruct (find _ l) as [b|] eqn:E; [|reflexivity]. apply find_some in E as [E1 E2]. apply N.eqb_eq in E2.
        assert (Hin : In b (pieces (ma_name a) t l)) by (apply in_pieces; auto). rewrite (Hn t Et H30) in Hin. destruct Hin. }
      unfold content_of_type. rewrite find_app, F. cbn [option_map find]. rewrite Et, N.eqb_refl. auto. }
    assert (Hl : (if ma_type a =? 0x20 then match as_list s with Some _ => Err | None => Ok (Some (length (as_attributes s))) end else Ok (as_list s)) =
       Ok (if ma_type a =? 0x20 then Some (length (as_attributes s)) else as_list s)).
    { destruct (N.eqb_spec (ma_type a) 0x20) as [E|E]; [|reflexivity]. rewrite (c_list _ _ C). rewrite (G3 E), E in Ei. now rewrite Ei. }
    assert (Hr : (if ma_type a =? 0xc0 then match as_reparse s with Some _ => Err | None => r <- reparse_point_of a ;; Ok (Some r) end else Ok (as_reparse s)) =
       Ok (option_map reparse_value (content_of_type 0xc0 (l ++ [a])))).
    { destruct (N.eqb_spec (ma_type a) 0xc0) as [E|E].
      - destruct (G4 E) as (N1 & N2 & N3). destruct (Hfirst 0xc0 E ltac:(discriminate)) as [F1 F2].
        { intros b B1 B2. rewrite Forall_forall in S2. destruct (S2 b B1) as (_ & _ & B3). destruct (B3 B2). congruence. }
        rewrite (c_reparse _ _ C), F1, F2. cbn [option_map]. now rewrite (reparse_content a).
      - rewrite (c_reparse _ _ C). do 2 f_equal. symmetry. apply Hd. now right. }
    assert (Hs : (if ma_type a =? 0x10 then match as_standard s with Some _ => Err | None => r <- standard_of a ;; Ok (Some r) end else Ok (as_standard s)) =
       Ok (option_map standard_information_of (content_of_type 0x10 (l ++ [a])))).
    { destruct (N.eqb_spec (ma_type a) 0x10) as [E|E].
      - destruct (G2 E) as (N1 & N2 & N3). destruct (Hfirst 0x10 E ltac:(discriminate)) as [F1 F2].
        { intros b B1 B2. rewrite Forall_forall in S2. destruct (S2 b B1) as (B3 & _). destruct (B3 B2). congruence. }
        rewrite (c_standard _ _ C), F1, F2. cbn [option_map]. now rewrite (standard_content a).
      - rewrite (c_standard _ _ C). do 2 f_equal. symmetry. apply Hd. now right. }
    rewrite Hl. cbn [bind]. rewrite Hr. cbn [bind]. rewrite Hs. cbn [bind]. eexists. split; [reflexivity|].
    set (s' := {| as_attributes := as_attributes s ++ [a]; as_groups := _; as_index := _; as_list := _; as_data := _;
                  as_reparse := _; as_standard := _ |}).
    assert (Hidx : forall name t, index_of s' name t =
      if equal_names name (ma_name a) && (ma_type a =? t) && negb (t =? 0x30) then Some (length (as_attributes s)) else index_of s name t).
    { intros name t. destruct (N.eqb_spec (ma_type a) 0x30) as [E30|E30].
      - assert (Ex : as_index s' = as_index s) by (unfold s'; cbn [as_index]; rewrite ?E30; reflexivity).
        unfold index_of at 1. rewrite Ex. fold (index_of s name t). rewrite E30. destruct (N.eqb_spec 0x30 t) as [<-|Ht]; [|now rewrite andb_false_r].
        rewrite andb_false_r. reflexivity.
      - rewrite (index_of_cons s' name t (ma_name a) (ma_type a) (length (as_attributes s)) (as_index s)).
        2:{ unfold s'. cbn [as_index]. destruct (N.eqb_spec (ma_type a) 0x30); [contradiction|reflexivity]. }
        fold (index_of s name t). destruct (N.eqb_spec (ma_type a) t) as [<-|Ht]; [|now rewrite andb_false_r].
        destruct (N.eqb_spec (ma_type a) 0x30); [contradiction|]. cbn [negb]. rewrite !andb_true_r. reflexivity. }
    assert (Hlt : forall name t i, index_of s name t = Some i -> (i < length (as_attributes s))%nat).
    { intros name t i E. destruct (N.eq_dec t 0x30) as [->|H30]; [rewrite (c_names _ _ C) in E; discriminate|].
      pose proof (c_index _ _ C name t H30) as Hi. rewrite E in Hi. destruct Hi as (x & X & _). apply nth_error_Some. congruence. }
    split.
    + intros name t H30. rewrite Hidx, pieces_app, pieces_one. destruct (N.eqb_spec t 0x30); [contradiction|]. cbn [negb]. rewrite andb_true_r.
      destruct (equal_names name (ma_name a) && (ma_type a =? t)) eqn:E.
      * apply andb_true_iff in E as [E1 E2]. apply N.eqb_eq in E2. destruct (equal_names_spec name (ma_name a)) as [->|]; [|discriminate].
        exists a. rewrite (Hn t E2 H30). cbn [app assembled]. split; [|reflexivity]. unfold s'. cbn [as_attributes].
        rewrite nth_error_app2, Nat.sub_diag by lia. reflexivity.
      * rewrite app_nil_r. pose proof (c_index _ _ C name t H30) as Hi. destruct (index_of s name t) as [j|] eqn:Ej; [|exact Hi].
        destruct Hi as (x & X1 & X2). exists x. split; [|exact X2]. unfold s'. cbn [as_attributes].
        rewrite nth_error_app1; [exact X1|]. eapply Hlt, Ej.
    + intros n1 t1 n2 t2 i. rewrite !Hidx.
      destruct (equal_names n1 (ma_name a) && (ma_type a =? t1) && negb (t1 =? 0x30)) eqn:B1;
      destruct (equal_names n2 (ma_name a) && (ma_type a =? t2) && negb (t2 =? 0x30)) eqn:B2.
      * intros _ _. apply andb_true_iff in B1 as [B1 _]. apply andb_true_iff in B1 as [B1 B1'].
        apply andb_true_iff in B2 as [B2 _]. apply andb_true_iff in B2 as [B2 B2'].
        apply N.eqb_eq in B1', B2'. destruct (equal_names_spec n1 (ma_name a)), (equal_names_spec n2 (ma_name a)); try discriminate.
        split; congruence.
      * intros [= <-] E. apply Hlt in E. lia.
      * intros E [= <-]. apply Hlt in E. lia.
      * apply (c_inj _ _ C).
    + intros name. rewrite Hidx. cbn [N.eqb Pos.eqb negb]. rewrite andb_false_r. apply (c_names _ _ C).
    + intros name. unfold has_group, s'. cbn [as_groups]. apply Hg.
    + rewrite Hidx. unfold s'. cbn [as_list N.eqb Pos.eqb negb]. rewrite andb_true_r.
      destruct (N.eqb_spec (ma_type a) 0x20) as [E|E]; [|rewrite andb_false_r; apply (c_list _ _ C)].
      rewrite (G3 E). reflexivity.
    + assert (K : Forall2 (fun k n => index_of s' n 0x80 = Some k) (as_data s) (data_names l)).
      { assert (KC := c_data _ _ C). revert KC. apply Forall2_weaken. intros k n E. rewrite Hidx. cbn [N.eqb Pos.eqb negb]. rewrite andb_true_r.
        destruct (equal_names n (ma_name a) && (ma_type a =? 0x80)) eqn:B; [|exact E].
        apply andb_true_iff in B as [B1 B2]. apply N.eqb_eq in B2. destruct (equal_names_spec n (ma_name a)) as [->|]; [|discriminate].
        rewrite B2 in Ei. congruence. }
      unfold data_names. rewrite filter_app, map_app. cbn [filter].
      unfold s' at 2. cbn [as_data]. destruct (N.eqb_spec (ma_type a) 0x80) as [E8|E8]; cbn [map].
      * rewrite distinct_snoc. cbn [app]. replace (existsb _ _) with false.
        -- apply Forall2_app; [exact K|]. constructor; [|constructor]. rewrite Hidx, E8. cbn [N.eqb Pos.eqb negb].
           destruct (equal_names_spec (ma_name a) (ma_name a)); [reflexivity|contradiction].
        -- symmetry. apply not_true_is_false. intros E. apply existsb_exists in E as (n & E1 & E2).
           destruct (equal_names_spec (ma_name a) n) as [<-|]; [|discriminate].
           apply in_map_iff in E1 as (b & E3 & E4). apply filter_In in E4 as [E4 E5]. apply N.eqb_eq in E5.
           assert (Hin : In b (pieces (ma_name a) 0x80 l)) by (apply in_pieces; auto).
           rewrite (Hn 0x80 E8 ltac:(discriminate)) in Hin. destruct Hin.
      * rewrite app_nil_r. exact K.
    + reflexivity.
    + reflexivity.
    + intros Hp. unfold s'. cbn [as_attributes]. f_equal. apply (c_plain _ _ C). eapply ordpairs_app, Hp.
Qed.

(** ** The attributes of an entry *)
Lemma bytes_value l v : wf_bytes l -> le_value l = v -> l = le_bytes (length l) v.
Proof. intros H <-. symmetry. now apply le_bytes_le_value. Qed.
Lemma end_marker record o : buffer record -> o + 4 <= len record ->
  same (bytes_at record o 4) [0xff; 0xff; 0xff; 0xff] = (field record o 4 =? 0xffffffff).
Proof.
  intros Hb H. assert (Hw := proj1 (buffer_part record o 4 Hb)).
  assert (L : length (bytes_at record o 4) = 4%nat).
  { assert (len (bytes_at record o 4) = 4) by (rewrite len_bytes_at; lia). unfold len in *. lia. }
  unfold same, field. destruct list_eq_dec as [E|E]; destruct (N.eqb_spec (le_value (bytes_at record o 4)) 0xffffffff) as [F|F]; auto.
  - rewrite E in F. exfalso. apply F. reflexivity.
  - apply bytes_value in F; [|exact Hw]. rewrite L in F. exfalso. apply E. rewrite F. reflexivity.
Qed.
Definition usable (a : mft_attribute) : Prop :=
  buffer (ma_resident_data a) /\ (resident a -> ma_data_size a = len (ma_resident_data a)) /\
  (flag (ma_non_resident a) 0 = true -> exists g, ma_groups a = [g]).
Lemma attribute_usable data a : buffer data -> attribute_in data a -> usable a.
Proof.
  intros Hb [H1 H2|runs bytes H1 H2 H3 H4].
  - unfold usable, resident, resident_of. cbn [ma_resident_data ma_data_size ma_groups ma_non_resident]. split; [now apply buffer_part|].
    split; [|congruence]. intros _. rewrite len_bytes_at. unfold resident_ok in H2. apply andb_true_iff in H2 as [_ H2].
    apply orb_true_iff in H2 as [H2|H2]; [apply N.eqb_eq in H2; lia|]. apply andb_true_iff in H2 as [_ H2]. apply N.leb_le in H2. lia.
  - unfold usable, resident, non_resident_of. cbn [ma_resident_data ma_data_size ma_groups ma_non_resident]. split; [|split].
    + split; [constructor|]. reflexivity.
    + congruence.
    + intros _. eexists. reflexivity.
Qed.
Lemma attributes_loop record : buffer record -> forall o l, attributes_from record o l -> forall pre s,
  collected pre s -> sound (pre ++ l) ->
  Forall usable l /\
  exists s', ends (fun m => read_attributes_loop m record o s) (Ok s') /\ collected (pre ++ l) s'.
Proof.
  intros Hb. induction 1 as [o Ho Hm|o a l Ho Hm Ha Hr IH]; intros pre s C S.
  - split; [constructor|]. exists s. rewrite app_nil_r. split; [|exact C].
    apply ends_S with (fun _ => now (Ok s)); [|apply ends_now]. intros m. cbn [read_attributes_loop]. unfold sub_chk.
    destruct (N.leb_spec 4 (len record)); [|lia]. cbn [now obind]. destruct (N.ltb_spec (len record - 4) o); [lia|].
    rewrite slice_at by lia. cbn [obind]. replace (o + 4 - o) with 4 by lia. rewrite end_marker by assumption.
    rewrite Hm. reflexivity.
  - assert (U := attribute_usable _ _ (buffer_skip _ _ Hb) Ha).
    replace (pre ++ a :: l) with ((pre ++ [a]) ++ l) in * by (rewrite <- app_assoc; reflexivity).
    destruct (add_ok pre s a C) as (s1 & E1 & C1); [eapply sound_app, S|apply U..|].
    destruct (IH (pre ++ [a]) s1 C1 S) as (U' & s' & E' & C'). split; [constructor; assumption|]. exists s'. split; [|exact C'].
    apply ends_S with (2 := E'). intros m. cbn [read_attributes_loop]. unfold sub_chk.
    destruct (N.leb_spec 4 (len record)); [|lia]. cbn [now obind]. destruct (N.ltb_spec (len record - 4) o); [lia|].
    rewrite slice_at by lia. cbn [obind]. replace (o + 4 - o) with 4 by lia. rewrite end_marker by assumption.
    destruct (N.eqb_spec (field record o 4) 0xffffffff); [contradiction|].
    rewrite slice_rest by lia. cbn [obind]. rewrite (attribute_ok _ _ (buffer_skip _ _ Hb) Ha). cbn [obind]. rewrite E1. reflexivity.
Qed.

(** ** What a collection shows *)
Lemma get_collected l s name t : collected l s -> t <> 0x30 ->
  match get_attribute s name t with
  | None => pieces name t l = []
  | Some a => assembled (pieces name t l) a
  end.
Proof.
  intros C H. unfold get_attribute. pose proof (c_index _ _ C name t H) as Hi. destruct (index_of s name t) as [i|]; [|exact Hi].
  destruct Hi as (a & E & A). now rewrite E.
Qed.
Lemma get_one l s name t p : collected l s -> t <> 0x30 -> pieces name t l = [p] -> get_attribute s name t = Some p.
Proof.
  intros C H E. pose proof (get_collected l s name t C H) as G. rewrite E in G. destruct get_attribute; [|discriminate].
  cbn [assembled] in G. congruence.
Qed.
Lemma get_none l s name t : collected l s -> t <> 0x30 -> pieces name t l = [] -> get_attribute s name t = None.
Proof.
  intros C H E. pose proof (get_collected l s name t C H) as G. rewrite E in G. destruct get_attribute; [destruct G|reflexivity].
Qed.
Lemma data_fork_collected l s i : collected l s -> data_fork_name s i = of_option (nth_error (data_names l) i).
Proof.
  intros C. unfold data_fork_name. assert (D := c_data _ _ C). revert i. 
  induction D as [|k n ks ns Hk _ IH]; intros [|i]; cbn [nth_error of_option bind]; auto.
  pose proof (c_index _ _ C n 0x80 ltac:(discriminate)) as Hi. rewrite Hk in Hi. destruct Hi as (a & E & A). rewrite E. cbn [of_option bind].
  f_equal. destruct (pieces n 0x80 l) as [|p ps] eqn:Ep; [destruct A|].
  assert (Hp : In p (pieces n 0x80 l)) by (rewrite Ep; now left). apply in_pieces in Hp as (_ & <- & _).
  destruct ps; [cbn [assembled] in A; congruence|]. apply A.
Qed.

(** Two ways to sort the same groups *)
Lemma sorted_unique l : forall m, StronglySorted vcn_le l -> StronglySorted vcn_le m -> Permutation l m ->
  NoDup (map first_vcn m) -> l = m.
Proof.
  induction l as [|g l IH]; intros m Hl Hm Hp Hn.
  - apply Permutation_nil in Hp. congruence.
  - destruct m as [|h m]; [apply Permutation_sym, Permutation_nil in Hp; discriminate|].
    inversion Hl as [|? ? L1 L2]; inversion Hm as [|? ? M1 M2]; subst.
    assert (g = h).
    { assert (I1 : In g (h :: m)) by (eapply Permutation_in; [exact Hp|now left]).
      assert (I2 : In h (g :: l)) by (eapply Permutation_in; [symmetry; exact Hp|now left]).
      destruct I1 as [->|I1]; [reflexivity|]. destruct I2 as [->|I2]; [reflexivity|].
      rewrite Forall_forall in L2, M2. pose proof (L2 h I2) as A. pose proof (M2 g I1) as B. unfold vcn_le in A, B.
      cbn [map] in Hn. apply NoDup_cons_iff in Hn as [Hn _]. exfalso. apply Hn. apply in_map_iff. exists g. split; [lia|assumption]. }
    subst h. f_equal. apply IH; auto; [|cbn [map] in Hn; now apply NoDup_cons_iff in Hn]. eapply Permutation_cons_inv, Hp.
Qed.
Lemma grouped_sorted vcn runs gs : grouped vcn runs gs -> Forall (fun g => vcn <= first_vcn g) gs /\ StronglySorted vcn_le gs.
Proof.
  induction 1 as [vcn|vcn runs runs' last groups Hl _ [I1 I2]]; [split; constructor|]. split.
  - constructor; [cbn [first_vcn]; lia|]. eapply Forall_impl; [|exact I1]. cbn beta. intros; lia.
  - constructor; [assumption|]. eapply Forall_impl; [|exact I1]. unfold vcn_le. cbn [first_vcn]. intros; lia.
Qed.

Lemma collected_shows l s : collected l s -> Forall usable l -> shows l s.
Proof.
  intros C U. split.
  - intros name t H. now apply get_collected.
  - exact (c_groups _ _ C).
  - split; [|intros i; now apply data_fork_collected]. assert (D := c_data _ _ C). clear - D. induction D; cbn [length]; congruence.
  - exact (c_reparse _ _ C).
  - exact (c_standard _ _ C).
  - exact (c_plain _ _ C).
  - eapply Forall_impl; [|exact U]. intros a (_ & H & _). exact H.
Qed.
Lemma ends_unique {A} (f : nat -> out A) r r' : ends f r -> ends f r' -> r = r'.
Proof. intros [n H] [m H']. specialize (H (max n m) ltac:(lia)). specialize (H' (max n m) ltac:(lia)). congruence. Qed.
