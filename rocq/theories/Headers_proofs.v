(** * Proofs about the readers of header structures *)
From Verif Require Import Base BaseLemmas Bytes_model Checksums_model Uuid_model Checksums_spec Checksums_proofs Strings_model Strings_spec Strings_proofs Streams_spec Streams_proofs Part_spec Part_model Fat_proofs Part_proofs Ext_proofs Headers_model Headers_spec.
Ltac Zify.zify_post_hook ::= idtac.

Section Readers.
  Variables (data : list N).
  Hypothesis Hb : buffer data.
  Let Hl : len data < two64 := proj2 Hb.
  Lemma u16_at o : o + 2 <= len data -> u16_le data o = Ok (field data o 2).
  Proof. intros H. unfold u16_le. now rewrite u_le_fits. Qed.
  Lemma u32_at o : o + 4 <= len data -> u32_le data o = Ok (field data o 4).
  Proof. intros H. unfold u32_le. now rewrite u_le_fits. Qed.
  Lemma u64_at o : o + 8 <= len data -> u64_le data o = Ok (field data o 8).
  Proof. intros H. unfold u64_le. now rewrite u_le_fits. Qed.
  Lemma u_be_fits n o : o + n <= len data -> bytes_to_uint_be n data o = Ok (field_be data o n).
  Proof.
    intros H1. assert (H2 : len data < two64) by exact Hl. unfold bytes_to_uint_be, add_chk. destruct (N.ltb_spec (o + n) two64); [|lia].
    cbn [bind]. rewrite slice_ok by lia. cbn [bind]. unfold field_be, bytes_at. do 3 f_equal. lia.
  Qed.
  Lemma u16b_at o : o + 2 <= len data -> u16_be data o = Ok (field_be data o 2).
  Proof. exact (u_be_fits 2 o). Qed.
  Lemma u32b_at o : o + 4 <= len data -> u32_be data o = Ok (field_be data o 4).
  Proof. exact (u_be_fits 4 o). Qed.
  Lemma u64b_at o : o + 8 <= len data -> u64_be data o = Ok (field_be data o 8).
  Proof. exact (u_be_fits 8 o). Qed.
  Lemma idx_at o : o + 1 <= len data -> idx data o = Ok (byte data o).
  Proof. intros H. unfold byte. apply idx_ok. lia. Qed.
  Lemma field_lt o n : field data o n < 2 ^ (8 * n).
  Proof.
    unfold field. assert (W : wf_bytes (bytes_at data o n)) by (apply wf_bytes_at, Hb).
    pose proof (le_bits_bound _ W) as B. eapply N.lt_le_trans; [exact B|].
    apply N.pow_le_mono_r; [lia|]. apply N.mul_le_mono_l. unfold bytes_at, len. rewrite firstn_length. lia.
  Qed.
  Lemma byte_lt o : byte data o < 256.
  Proof.
    unfold byte. destruct (Nat.lt_ge_cases (N.to_nat o) (length data)).
    - pose proof (proj1 (Forall_forall _ _) (proj1 Hb) _ (nth_In data 0 H)). assumption.
    - rewrite nth_overflow by lia. lia.
  Qed.
End Readers.

Lemma slice_at (data : list N) a b : a <= b -> b <= len data -> slice data a b = Ok (bytes_at data a (b - a)).
Proof. intros. now rewrite slice_ok. Qed.
Lemma has_same data o s x : x = bytes_at data o (len s) -> same x s = has data o s.
Proof. intros ->. reflexivity. Qed.
Lemma buffer_part data o n : buffer data -> buffer (bytes_at data o n).
Proof.
  intros [H1 H2]. split; [now apply wf_bytes_at|]. eapply N.le_lt_trans; [|exact H2].
  unfold bytes_at, len. rewrite firstn_length, skipn_length. lia.
Qed.
Lemma field_part data o n a m : a + m <= n -> field (bytes_at data o n) a m = field data (o + a) m.
Proof. intros H. unfold field. now rewrite bytes_at_bytes_at. Qed.
Lemma field_be_part data o n a m : a + m <= n -> field_be (bytes_at data o n) a m = field_be data (o + a) m.
Proof. intros H. unfold field_be. now rewrite bytes_at_bytes_at. Qed.
Lemma land_flag v k : (N.land v (2 ^ k) =? 0) = negb (flag v k).
Proof.
  unfold flag. destruct (N.eqb_spec (N.land v (2 ^ k)) 0) as [E|E].
  - assert (T : N.testbit (N.land v (2 ^ k)) k = false) by (rewrite E; apply N.bits_0).
    rewrite N.land_spec, N.pow2_bits_true, andb_true_r in T. now rewrite T.
  - destruct (N.testbit v k) eqn:T; [reflexivity|]. exfalso. apply E. apply N.bits_inj_0. intros j.
    rewrite N.land_spec. destruct (N.eq_dec j k) as [->|D]; [now rewrite T|].
    rewrite N.pow2_bits_false by congruence. apply andb_false_r.
Qed.
Lemma lor_high a b : a < 2 ^ 32 -> N.lor a (N.shiftl b 32) = a + 2 ^ 32 * b.
Proof. intros H. rewrite N.lor_comm, lor_disjoint by exact H. lia. Qed.

Lemma uuid_at data o : buffer data -> o + 16 <= len data -> uuid_from_le_bytes (bytes_at data o 16) = Ok (uuid_le data o).
Proof.
  intros Hb H. destruct (uuid_decode (bytes_at data o 16)) as (u & -> & E).
  { apply wf_bytes_at, Hb. } { rewrite len_bytes_at. lia. }
  f_equal. destruct u. unfold uuid_parts, guid in E. cbn [Uuid_model.part1 Uuid_model.part2 Uuid_model.part3 Uuid_model.part4 Uuid_model.part5] in E. unfold uuid_le.
  rewrite !field_part, !field_be_part in E by lia. rewrite !N.add_0_l, N.add_0_r in E. injection E. intros. subst. reflexivity.
Qed.

Lemma u16s_pairs bytes l : u16s false bytes l -> l = pairs_le bytes.
Proof. intros H. induction H; [reflexivity|]. cbn [pairs_le]. now rewrite IHu16s. Qed.
Lemma before_nul_zero l : before_nul l (up_to_zero l).
Proof.
  induction l as [|a l [I1 I2]]; [split; [constructor|now left]|]. cbn [up_to_zero].
  destruct (N.eqb_spec a 0) as [->|D].
  - split; [constructor|]. right. now exists l.
  - split; [now constructor|]. destruct I2 as [I2|[r I2]]; [left; now rewrite <- I2|right; exists r].
    cbn [app]. now rewrite <- I2.
Qed.
Lemma text_read elements bytes : len bytes < two64 -> N.even (len bytes) = true ->
  ucs2_read_data_le elements bytes = Ok (elements ++ up_to_zero (pairs_le bytes)).
Proof.
  intros Hl He. destruct (read_append elements bytes Hl) as (l & p & H1 & H2 & ->).
  - rewrite <- N.bit0_mod. rewrite N.bit0_odd, <- N.negb_even, He. reflexivity.
  - do 2 f_equal. rewrite <- (u16s_pairs _ _ H1). apply (before_nul_unique l); [exact H2|apply before_nul_zero].
Qed.
Lemma string_zero l : string_from_slice l = up_to_zero l.
Proof. apply (before_nul_unique l); [apply from_slice_ok|apply before_nul_zero]. Qed.

Lemma crc32c_read seed chunks : seed < 2 ^ 32 -> Forall wf_bytes chunks ->
  crc32c_of seed chunks = Ok (crc32_reflected 0x82f63b78 seed (concat chunks)).
Proof.
  intros Hs Hw. unfold crc32c_of.
  destruct (crc_reflected_ok 0x82f63b78 seed chunks ltac:(vm_compute; reflexivity) Hs Hw) as (c & c' & -> & E & _).
  cbn [bind]. now rewrite E.
Qed.

(** ** The steps of the readers *)
Ltac room := first [assumption | lia].
Ltac reads Hb := repeat (first
  [ rewrite (u16_at _ Hb) by room | rewrite (u32_at _ Hb) by room | rewrite (u64_at _ Hb) by room
  | rewrite (u16b_at _ Hb) by room | rewrite (u32b_at _ Hb) by room | rewrite (u64b_at _ Hb) by room
  | rewrite idx_at by room | rewrite slice_at by room ]; cbn [bind]).
Ltac signature := match goal with |- context [same (bytes_at ?d ?o ?n) ?s] =>
  rewrite (has_same d o s (bytes_at d o n)) by reflexivity end.
Ltac chk := match goal with |- context [check ?b] =>
  let E := fresh "E" in destruct b eqn:E; cbn [check bind andb]; rewrite ?andb_true_r, ?andb_false_r; cbn [andb]; [|reflexivity] end.
Ltac size_ge Hb n := match goal with |- context [n <=? len ?d] =>
  destruct (N.leb_spec n (len d)); cbn [check bind andb]; [|reflexivity] end.
Ltac size_is Hb n := match goal with |- context [len ?d =? n] =>
  destruct (N.eqb_spec (len d) n); cbn [check bind andb]; [|reflexivity] end.

Lemma mft_entry_header_ok' : decodes mft_entry_header_read mft_entry_header_ok mft_entry_header_of.
Proof.
  intros data Hb _. unfold mft_entry_header_read, mft_entry_header_ok. size_ge Hb 42. reads Hb. signature. chk. reads Hb. reflexivity.
Qed.
Lemma index_entry_header_ok' : decodes index_entry_header_read index_entry_header_ok index_entry_header_of.
Proof.
  intros data Hb _. unfold index_entry_header_read, index_entry_header_ok. size_ge Hb 24. reads Hb. signature. chk. reads Hb. reflexivity.
Qed.
Lemma index_node_header_ok' : decodes index_node_header_read (fun d => 16 <=? len d) index_node_header_of.
Proof. intros data Hb _. unfold index_node_header_read. size_ge Hb 16. reads Hb. reflexivity. Qed.
Lemma index_root_header_ok' : decodes index_root_header_read (fun d => 16 <=? len d) index_root_header_of.
Proof. intros data Hb _. unfold index_root_header_read. size_ge Hb 16. reads Hb. reflexivity. Qed.
Lemma index_value_ok' : decodes index_value_read (fun d => 16 <=? len d) index_value_of.
Proof. intros data Hb _. unfold index_value_read. size_ge Hb 16. reads Hb. reflexivity. Qed.
Lemma reparse_header_ok' : decodes reparse_header_read (fun d => 8 <=? len d) reparse_header_of.
Proof. intros data Hb _. unfold reparse_header_read. size_ge Hb 8. reads Hb. reflexivity. Qed.
Lemma wof_reparse_ok' : decodes wof_reparse_read (fun d => len d =? 16) (fun d => field d 12 4).
Proof. intros data Hb _. unfold wof_reparse_read. size_is Hb 16. reads Hb. reflexivity. Qed.
Lemma attribute_header_ok' : decodes attribute_header_read (fun d => 16 <=? len d) attribute_header_of.
Proof. intros data Hb _. unfold attribute_header_read. size_ge Hb 16. reads Hb. reflexivity. Qed.
Lemma attribute_resident_ok' : decodes attribute_resident_read (fun d => 8 <=? len d) attribute_resident_of.
Proof. intros data Hb _. unfold attribute_resident_read. size_ge Hb 8. reads Hb. reflexivity. Qed.
Lemma attribute_list_entry_ok' : decodes attribute_list_entry_read (fun d => 26 <=? len d) attribute_list_entry_of.
Proof. intros data Hb _. unfold attribute_list_entry_read. size_ge Hb 26. reads Hb. reflexivity. Qed.
Lemma volume_information_ok' : decodes volume_information_read (fun d => 12 <=? len d) volume_information_of.
Proof. intros data Hb _. unfold volume_information_read. size_ge Hb 12. reads Hb. reflexivity. Qed.

Lemma shl1 bits e : e < bits -> shl_chk bits 1 e = Ok (2 ^ e).
Proof.
  intros H. unfold shl_chk. destruct (N.ltb_spec e bits); [|lia]. rewrite N.shiftl_1_l. f_equal.
  apply N.mod_small. apply N.pow_lt_mono_r; lia.
Qed.
Lemma attribute_non_resident_ok' : decodes attribute_non_resident_read attribute_non_resident_ok attribute_non_resident_of.
Proof.
  intros data Hb _. unfold attribute_non_resident_read, attribute_non_resident_ok, attribute_non_resident_of. size_ge Hb 48. reads Hb.
  replace (field data 18 2 =? 0) with (negb (0 <? field data 18 2)) by (destruct (N.ltb_spec 0 (field data 18 2)); symmetry; [apply N.eqb_neq|apply N.eqb_eq]; lia).
  replace (1 <=? field data 18 2) with (0 <? field data 18 2) by (apply eq_true_iff_eq; rewrite N.ltb_lt, N.leb_le; lia).
  destruct (N.ltb_spec 0 (field data 18 2)); cbn [negb orb].
  - size_ge Hb 56. replace (field data 18 2 <=? 31) with (field data 18 2 <? 32) by (apply eq_true_iff_eq; rewrite N.ltb_lt, N.leb_le; lia).
    chk. apply N.ltb_lt in E. rewrite shl1 by lia. cbn [bind]. reads Hb. reflexivity.
  - cbn [bind]. reads Hb. reflexivity.
Qed.

Lemma field_skip (data : list N) o e n : field (skipn (N.to_nat o) data) e n = field data (o + e) n.
Proof. unfold field, bytes_at. rewrite skipn_skipn. do 3 f_equal. lia. Qed.
Lemma buffer_skip data n : buffer data -> buffer (skipn n data).
Proof.
  intros [H1 H2]. split; [now apply wf_bytes_skipn|]. eapply N.le_lt_trans; [|exact H2]. unfold len. rewrite skipn_length. lia.
Qed.
Lemma len_skip (data : list N) n : len (skipn n data) = len data - N.of_nat n.
Proof. unfold len. rewrite skipn_length. lia. Qed.
Lemma slice_rest (data : list N) o : o <= len data -> slice data o (len data) = Ok (skipn (N.to_nat o) data).
Proof.
  intros H. rewrite slice_ok by lia. f_equal. apply firstn_all2. rewrite skipn_length. unfold len. lia.
Qed.
Lemma filetime_at data o : buffer data -> o + 8 <= len data -> filetime_of data o = Ok (time_at data o).
Proof.
  intros Hb H. unfold filetime_of, time_at. rewrite slice_rest by lia. cbn [bind].
  rewrite (u64_at _ (buffer_skip _ _ Hb)) by (rewrite len_skip; lia). cbn [bind]. rewrite field_skip, N.add_0_r. reflexivity.
Qed.
Lemma standard_information_ok' : decodes standard_information_read (fun d => 48 <=? len d) standard_information_of.
Proof.
  intros data Hb _. unfold standard_information_read, standard_information_of. size_ge Hb 48. rewrite !(filetime_at data) by room. cbn [bind].
  reads Hb. destruct (N.leb_spec 52 (len data)); reads Hb; reflexivity.
Qed.
Lemma file_name_ok' : decodes file_name_read file_name_ok file_name_of.
Proof.
  intros data Hb _. unfold file_name_read, file_name_ok, file_name_of. size_ge Hb 66. rewrite !(filetime_at data) by room. cbn [bind].
  reads Hb.
  change 0x400 with (2 ^ 10). rewrite land_flag, negb_involutive.
  assert (T : (if flag (field data 56 4) 10 then Ok (Some (field data 60 4)) else Ok None) =
    Ok (if flag (field data 56 4) 10 then Some (field data 60 4) else None)).
  { destruct (flag _ 10); reflexivity. }
  rewrite T. cbn [bind]. reads Hb.
  destruct (N.eqb_spec (len data) 66) as [E|E]; cbn [orb].
  - destruct (N.ltb_spec 66 (len data)); [lia|]. cbn [bind]. reflexivity.
  - destruct (N.ltb_spec 66 (len data)); [|lia]. rewrite (N.mul_comm 2).
    destruct (N.leb_spec (66 + byte data 64 * 2) (len data)); cbn [check bind]; [|reflexivity].
    rewrite slice_at by lia. cbn [bind]. replace (66 + byte data 64 * 2 - 66) with (byte data 64 * 2) by lia.
    assert (L : len (bytes_at data 66 (byte data 64 * 2)) = byte data 64 * 2) by (rewrite len_bytes_at; lia).
    rewrite text_read.
    + reflexivity.
    + eapply N.le_lt_trans; [|exact (proj2 Hb)]. lia.
    + rewrite L, N.even_mul. apply orb_true_r.
Qed.

Lemma ext_group_descriptor_ok' version : decodes (ext_group_descriptor_read version) (ext_group_descriptor_ok version) ext_group_descriptor_of.
Proof.
  intros data Hb _. unfold ext_group_descriptor_read, ext_group_descriptor_ok, ext_group_descriptor_of.
  destruct (N.eqb_spec (len data) 32) as [E|E]; cbn [orb check bind].
  - reads Hb. destruct (N.leb_spec 44 (len data)); [lia|]. rewrite andb_false_r. cbn [bind]. reads Hb.
    destruct (N.eqb_spec (len data) 64); [lia|]. reflexivity.
  - destruct (version =? 4); cbn [andb check bind]; [|reflexivity].
    destruct (N.eqb_spec (len data) 64); cbn [check bind]; [|reflexivity]. reads Hb.
    destruct (N.leb_spec 44 (len data)); [|lia]. reads Hb. rewrite lor_high by (apply (field_lt data Hb _ 4)). reflexivity.
Qed.
Lemma ext_directory_entry_ok' : decodes ext_directory_entry_read (fun d => 8 <=? len d) ext_directory_entry_of.
Proof. intros data Hb _. unfold ext_directory_entry_read. size_ge Hb 8. reads Hb. reflexivity. Qed.
Lemma ext_attributes_entry_ok' : decodes ext_attributes_entry_read (fun d => 16 <=? len d) ext_attributes_entry_of.
Proof. intros data Hb _. unfold ext_attributes_entry_read. size_ge Hb 16. reads Hb. reflexivity. Qed.
Lemma ext_attributes_header_ok' : decodes ext_attributes_header_read ext_attributes_header_ok (fun _ => tt).
Proof.
  intros data Hb _. unfold ext_attributes_header_read, ext_attributes_header_ok. size_is Hb 32. reads Hb. signature. chk. reads Hb.
  destruct (field data 8 4 =? 1); reflexivity.
Qed.
Lemma ext_extents_footer_ok' : decodes ext_extents_footer_read (fun d => len d =? 4) (fun d => field d 0 4).
Proof. intros data Hb _. unfold ext_extents_footer_read. size_is Hb 4. reads Hb. reflexivity. Qed.

Lemma bool_eq (a b : bool) : (a = true <-> b = true) -> a = b.
Proof. apply eq_true_iff_eq. Qed.
Lemma cluster_sectors_ok v : v < 256 ->
  ntfs_cluster_sectors v = if (v <=? 128) || (244 <=? v) then Ok (ntfs_number 128 v) else Err.
Proof.
  intros H. unfold ntfs_cluster_sectors, ntfs_number. destruct (N.leb_spec v 128); cbn [orb]; [reflexivity|].
  unfold sub_chk. destruct (N.leb_spec v 256); [|lia]. cbn [bind].
  replace (256 - v <=? 12) with (244 <=? v) by (apply bool_eq; rewrite !N.leb_le; lia).
  destruct (N.leb_spec 244 v); cbn [check bind]; [|reflexivity]. apply shl1. lia.
Qed.
Lemma entry_size_ok cluster v minimum maximum : cluster <= 2 ^ 21 -> maximum <= 2 ^ 24 -> v <> 224 ->
  let e := if v <=? 127 then v * cluster else 2 ^ (256 - v) in
  ntfs_entry_size cluster v minimum maximum =
    if (1 <=? v) && (v <=? 255) && (minimum <=? e) && (e <=? maximum) then Ok e else Err.
Proof.
  intros Hc Hm Hv e. unfold ntfs_entry_size.
  replace (negb ((v =? 0) || (255 <? v))) with ((1 <=? v) && (v <=? 255))
    by (apply bool_eq; rewrite andb_true_iff, negb_true_iff, orb_false_iff, N.eqb_neq, N.ltb_ge, !N.leb_le; lia).
  destruct ((1 <=? v) && (v <=? 255)) eqn:R; cbn [andb check bind]; [|reflexivity].
  apply andb_true_iff in R. rewrite !N.leb_le in R.
  assert (F : forall s, negb ((s <? minimum) || (maximum <? s)) = (minimum <=? s) && (s <=? maximum)).
  { intros s. apply bool_eq. rewrite andb_true_iff, negb_true_iff, orb_false_iff, !N.ltb_ge, !N.leb_le. lia. }
  subst e. replace (v <? 128) with (v <=? 127) by (apply bool_eq; rewrite N.ltb_lt, N.leb_le; lia).
  destruct (N.leb_spec v 127).
  - unfold mul_chk, two32. assert (v * cluster <= 127 * 2 ^ 21) by (apply N.mul_le_mono; lia).
    destruct (N.ltb_spec (v * cluster) 4294967296); [|lia]. cbn [bind]. rewrite F. destruct (_ && _); reflexivity.
  - unfold sub_chk. destruct (N.leb_spec v 256); [|lia]. cbn [bind].
    destruct (N.leb_spec (256 - v) 32); cbn [check bind].
    + rewrite shl1 by lia. cbn [bind]. rewrite F. destruct (_ && _); reflexivity.
    + assert (2 ^ 33 <= 2 ^ (256 - v)) by (apply N.pow_le_mono_r; lia).
      destruct (N.leb_spec (2 ^ (256 - v)) maximum) as [L|L]; [|rewrite andb_false_r; reflexivity].
      exfalso. assert (2 ^ 33 <= 2 ^ 24) by lia. vm_compute in H2. now apply H2.
Qed.
Lemma one_of_le l m v : forallb (fun a => a <=? m) l = true -> one_of l v = true -> v <= m.
Proof.
  intros H1 H2. apply existsb_exists in H2. destruct H2 as (a & Hi & E). apply N.eqb_eq in E. subst a.
  rewrite forallb_forall in H1. apply N.leb_le, H1, Hi.
Qed.
Lemma one_of_pos l v : forallb (fun a => 1 <=? a) l = true -> one_of l v = true -> 1 <= v.
Proof.
  intros H1 H2. apply existsb_exists in H2. destruct H2 as (a & Hi & E). apply N.eqb_eq in E. subst a.
  rewrite forallb_forall in H1. apply N.leb_le, H1, Hi.
Qed.
Definition not_224 (data : list N) : Prop := field data 64 4 <> 224 /\ field data 68 4 <> 224.
Lemma ntfs_boot_ok' : decodes_if not_224 ntfs_boot_read ntfs_boot_ok ntfs_boot_of.
Proof.
  intros data Hb [G1 G2]. unfold ntfs_boot_read, ntfs_boot_ok. size_ge Hb 512. reads Hb. signature. chk. reads Hb.
  change (contains [256; 512; 1024; 2048; 4096] (field data 11 2)) with (one_of [256; 512; 1024; 2048; 4096] (field data 11 2)).
  chk. reads Hb. rewrite cluster_sectors_ok by (apply (byte_lt data Hb)).
  destruct ((byte data 13 <=? 128) || (244 <=? byte data 13)) eqn:B; cbn [bind andb]; [|reflexivity].
  assert (P4096 : field data 11 2 <= 4096) by (apply (one_of_le [256; 512; 1024; 2048; 4096]); [reflexivity|assumption]).
  assert (N4096 : ntfs_number 128 (byte data 13) <= 4096).
  { unfold ntfs_number. destruct (N.leb_spec (byte data 13) 128); [lia|].
    apply orb_true_iff in B. rewrite !N.leb_le in B. change 4096 with (2 ^ 12). apply N.pow_le_mono_r; lia. }
  assert (M : mul_chk two32 (ntfs_number 128 (byte data 13)) (field data 11 2) = Ok (ntfs_cluster data)).
  { unfold mul_chk, ntfs_cluster. assert (ntfs_number 128 (byte data 13) * field data 11 2 <= 4096 * 4096) by (apply N.mul_le_mono; assumption).
    destruct (N.ltb_spec (ntfs_number 128 (byte data 13) * field data 11 2) two32) as [L|L]; [f_equal; apply N.mul_comm|].
    exfalso. unfold two32 in L. lia. }
  rewrite M. cbn [bind].
  change (contains _ (ntfs_cluster data)) with
    (one_of (map (fun e => 2 ^ e) [8; 9; 10; 11; 12; 13; 14; 15; 16; 17; 18; 19; 20; 21]) (ntfs_cluster data)).
  destruct (one_of _ (ntfs_cluster data)) eqn:C; cbn [check bind andb]; [|reflexivity].
  assert (Cl : ntfs_cluster data <= 2 ^ 21) by (eapply one_of_le; [|exact C]; vm_compute; reflexivity).
  reads Hb. rewrite !entry_size_ok by (assumption || (vm_compute; discriminate)).
  change (if field data 64 4 <=? 127 then field data 64 4 * ntfs_cluster data else 2 ^ (256 - field data 64 4)) with (ntfs_entry data 64).
  change (if field data 68 4 <=? 127 then field data 68 4 * ntfs_cluster data else 2 ^ (256 - field data 68 4)) with (ntfs_entry data 68).
  clear M. generalize (eq_refl (ntfs_entry data 64)) (eq_refl (ntfs_entry data 68)).
  destruct (1 <=? field data 64 4), (field data 64 4 <=? 255); cbn [andb bind]; try reflexivity. intros _ _.
  destruct (42 <=? ntfs_entry data 64), (ntfs_entry data 64 <=? 65535); cbn [andb bind]; try reflexivity. reads Hb.
  destruct (1 <=? field data 68 4), (field data 68 4 <=? 255); cbn [andb bind]; try reflexivity.
  change (2 ^ 24) with 16777216.
  destruct (32 <=? ntfs_entry data 68), (ntfs_entry data 68 <=? 16777216); cbn [andb bind]; try reflexivity. reads Hb.
  assert (P1 : 1 <= field data 11 2) by (apply (one_of_pos [256; 512; 1024; 2048; 4096]); [reflexivity|assumption]).
  unfold div_chk. destruct (N.eqb_spec (field data 11 2) 0); [lia|]. cbn [bind].
  replace (field data 40 8 <=? 18446744073709551615 / field data 11 2) with (field data 40 8 * field data 11 2 <? 2 ^ 64).
  - destruct (_ <? _); reflexivity.
  - apply bool_eq. rewrite N.ltb_lt, N.leb_le. split; intros Q.
    + apply N.div_le_lower_bound; [assumption|]. rewrite N.mul_comm. change (2 ^ 64) with 18446744073709551616 in Q. lia.
    + pose proof (N.mul_div_le 18446744073709551615 (field data 11 2) n). change (2 ^ 64) with 18446744073709551616.
      assert (field data 40 8 * field data 11 2 <= field data 11 2 * (18446744073709551615 / field data 11 2)) by (rewrite N.mul_comm; apply N.mul_le_mono_l, Q). lia.
Qed.

(** ** ext superblock *)
Lemma i32_at data o : buffer data -> o + 4 <= len data -> i32_le data o = Ok (signed32 (field data o 4)).
Proof.
  intros Hb H. unfold i32_le, bytes_to_int_le. rewrite (u_le_fits 4 data o H (proj2 Hb)). reflexivity.
Qed.
Lemma crc32c_bound data : crc32c data < 2 ^ 32.
Proof.
  unfold crc32c, crc32_reflected, complement32. apply lxor_bound; [|reflexivity].
  apply feed_lsb_bound; [reflexivity|]. vm_compute. reflexivity.
Qed.
Definition not_22 (data : list N) : Prop := field data 24 4 <> 22.
Lemma stored_or (s c : N) : negb (negb (s =? 0) && negb (s =? c)) = (s =? 0) || (s =? c).
Proof. now destruct (s =? 0), (s =? c). Qed.
Lemma if_ok {A} (b : bool) (x y : A) : (if b then Ok x else Ok y) = Ok (if b then x else y).
Proof. now destruct b. Qed.
Lemma ext_superblock_ok' : decodes_if not_22 ext_superblock_read ext_superblock_ok ext_superblock_of.
Proof.
  intros data Hb G. unfold ext_superblock_read, ext_superblock_ok. size_is Hb 1024. reads Hb. signature. chk. reads Hb.
  chk. reads Hb. change 0x80 with (2 ^ 7). rewrite land_flag, negb_involutive.
  rewrite lor_high by (apply (field_lt data Hb _ 4)). rewrite if_ok. cbn [bind].
  change (if flag (field data 96 4) 7 then field data 4 4 + 2 ^ 32 * field data 336 4 else field data 4 4) with (ext_blocks data).
  replace (negb (ext_blocks data =? 0)) with (1 <=? ext_blocks data)
    by (apply bool_eq; rewrite negb_true_iff, N.eqb_neq, N.leb_le; lia).
  chk. reads Hb. chk. apply N.leb_le in E2. unfold not_22 in G.
  assert (S : shl_chk 32 1024 (field data 24 4) = Ok (1024 * 2 ^ field data 24 4)).
  { unfold shl_chk. destruct (N.ltb_spec (field data 24 4) 32); [|lia]. rewrite N.shiftl_mul_pow2. f_equal. apply N.mod_small.
    change 1024 with (2 ^ 10). rewrite <- N.pow_add_r. apply N.pow_lt_mono_r; lia. }
  rewrite S. cbn [bind]. reads Hb.
  replace (negb (field data 32 4 =? 0)) with (1 <=? field data 32 4)
    by (apply bool_eq; rewrite negb_true_iff, N.eqb_neq, N.leb_le; lia).
  chk. reads Hb. change 8 with (2 ^ 3) at 1. rewrite land_flag.
  replace (negb (negb (flag (field data 96 4) 3) && (field data 40 4 =? 0)))
    with (flag (field data 96 4) 3 || (1 <=? field data 40 4)).
  2:{ destruct (flag _ 3); cbn [negb andb orb]; [reflexivity|]. apply bool_eq. rewrite negb_true_iff, N.eqb_neq, N.leb_le. lia. }
  chk. rewrite !(i32_at data) by room. cbn [bind]. reads Hb. chk. apply N.ltb_lt in E5. rewrite shl1 by lia. cbn [bind]. reads Hb.
  change 0x2000 with (2 ^ 13). rewrite land_flag, negb_involutive.
  assert (B624 : sub_chk 4294967295 (field data 624 4) = Ok (2 ^ 32 - 1 - field data 624 4)).
  { unfold sub_chk. pose proof (field_lt data Hb 624 4) as B. change (2 ^ (8 * 4)) with 4294967296 in B.
    destruct (N.leb_spec (field data 624 4) 4294967295); [reflexivity|lia]. }
  rewrite B624. cbn [bind]. rewrite if_ok. cbn [bind].
  change 0x400 with (2 ^ 10). rewrite land_flag, negb_involutive.
  destruct (flag (field data 100 4) 10); cbn [negb orb bind].
  - destruct (byte data 373 =? 1); cbn [check bind andb]; [|reflexivity]. reads Hb.
    rewrite crc32c_read by (reflexivity || (constructor; [apply wf_bytes_at, Hb|constructor])). cbn [bind concat].
    rewrite app_nil_r. change (crc32_reflected 2197175160 0 (bytes_at data 0 (1020 - 0))) with (crc32c (bytes_at data 0 1020)).
    pose proof (crc32c_bound (bytes_at data 0 1020)) as B. unfold sub_chk.
    destruct (N.leb_spec (crc32c (bytes_at data 0 1020)) 4294967295); [|change (2 ^ 32) with 4294967296 in B; lia]. cbn [bind].
    rewrite stored_or. change (2 ^ 32 - 1) with 4294967295.
    destruct ((field data 1020 4 =? 0) || (field data 1020 4 =? 4294967295 - crc32c (bytes_at data 0 1020))); cbn [check bind]; [|reflexivity].
    rewrite !string_zero. reflexivity.
  - rewrite !string_zero. reflexivity.
Qed.

(** ** FAT *)
Lemma without_spaces_snoc a l : without_spaces (l ++ [a]) = if a =? 0x20 then without_spaces l else l ++ [a].
Proof.
  induction l as [|b l IH]; cbn [app without_spaces]; [destruct (a =? 32); reflexivity|]. rewrite IH.
  destruct (a =? 32); [reflexivity|]. destruct l; reflexivity.
Qed.
Lemma leading_without l : match leading_spaces (rev l) with
  | Some n => (n < length l)%nat /\ without_spaces l = firstn (length l - n) l /\ without_spaces l <> []
  | None => without_spaces l = [] end.
Proof.
  induction l as [|a l IH] using rev_ind; [reflexivity|]. rewrite rev_app_distr. cbn [rev app leading_spaces].
  rewrite without_spaces_snoc, app_length. cbn [length]. destruct (N.eqb_spec a 32).
  - destruct (leading_spaces (rev l)) as [n|]; cbn [option_map]; [|exact IH]. destruct IH as (I1 & I2 & I3).
    split; [lia|]. split; [|exact I3]. replace (length l + 1 - S n)%nat with (length l - n)%nat by lia.
    rewrite firstn_app. replace (length l - n - length l)%nat with O by lia. cbn [firstn]. now rewrite app_nil_r.
  - split; [lia|]. split; [|now destruct l]. symmetry. apply firstn_all2. rewrite app_length. cbn [length]. lia.
Qed.
Lemma trim_ok l : trim_spaces l = unpadded l.
Proof.
  unfold trim_spaces, unpadded. pose proof (leading_without l) as L. destruct (leading_spaces (rev l)).
  - destruct L as (_ & L & Ne). rewrite <- L. destruct (without_spaces l); congruence.
  - now rewrite L.
Qed.
Lemma fat12_boot_ok' : decodes fat12_boot_read fat_common_ok fat12_boot_of.
Proof.
  intros data Hb _. unfold fat12_boot_read, fat_common_ok, fat12_boot_of. size_ge Hb 512. reads Hb. signature. chk. reads Hb.
  change (contains ?l ?v) with (one_of l v). chk. reads Hb. change (contains ?l ?v) with (one_of l v). 
  destruct (one_of _ (byte data 13)) eqn:E1; cbn [check bind]; [|reflexivity]. reads Hb.
  destruct (byte data 38 =? 41); reads Hb; cbn [bind]; rewrite ?trim_ok; destruct (field data 32 4 =? 0); reflexivity.
Qed.
Lemma fat32_boot_ok' : decodes fat32_boot_read fat32_boot_ok fat32_boot_of.
Proof.
  intros data Hb _. unfold fat32_boot_read, fat32_boot_ok, fat_common_ok, fat32_boot_of. size_ge Hb 512. reads Hb. signature. chk. reads Hb.
  change (contains ?l ?v) with (one_of l v). chk. reads Hb. change (contains ?l ?v) with (one_of l v). 
  chk. reads Hb. chk. reads Hb. chk. reads Hb. chk. reads Hb.
  destruct (2 <=? field data 44 4); cbn [check bind]; [|reflexivity]. reads Hb.
  destruct (byte data 66 =? 41); reads Hb; cbn [bind]; rewrite ?trim_ok; reflexivity.
Qed.
Lemma le_value_zero l : le_value l = 0 -> l = repeat 0 (length l).
Proof.
  induction l as [|a l IH]; [reflexivity|]. cbn [le_value length repeat]. intros H. assert (a = 0 /\ le_value l = 0) as [-> E] by lia.
  f_equal. apply IH, E.
Qed.
Lemma has_zeros data o n : o + N.of_nat n <= len data -> same (bytes_at data o (N.of_nat n)) (repeat 0 n) = (field data o (N.of_nat n) =? 0).
Proof.
  intros H. unfold same, field. assert (L : length (bytes_at data o (N.of_nat n)) = n).
  { pose proof (len_bytes_at data o (N.of_nat n)). unfold len in *. lia. }
  destruct (list_eq_dec _ _ _) as [E|E].
  - rewrite E. symmetry. apply N.eqb_eq. clear. induction n; [reflexivity|]. cbn [repeat le_value]. rewrite IHn. reflexivity.
  - symmetry. apply N.eqb_neq. intros Z. apply E. rewrite (le_value_zero _ Z), L. reflexivity.
Qed.
Lemma field_split data o n m : o + n + m <= len data -> field data o (n + m) = field data o n + 256 ^ n * field data (o + n) m.
Proof.
  intros H. unfold field. rewrite bytes_at_split, le_value_app. f_equal. f_equal. f_equal. rewrite len_bytes_at. lia.
Qed.
Lemma fat_boot_ok' : decodes_if (fun d => len d = 512) fat_boot_read fat_boot_ok fat_boot_of.
Proof.
  intros data Hb G. unfold fat_boot_read, fat_boot_ok, fat_boot_of. reads Hb.
  assert (Q : same (bytes_at data 17 (21 - 17)) [0; 0; 0; 0] && same (bytes_at data 22 (24 - 22)) [0; 0] = is_fat32 data).
  { change (21 - 17) with (N.of_nat 4). change [0; 0; 0; 0] with (repeat 0 4). rewrite (has_zeros data 17 4) by lia.
    change (24 - 22) with (N.of_nat 2). change [0; 0] with (repeat 0 2). rewrite (has_zeros data 22 2) by lia.
    unfold is_fat32. change (N.of_nat 4) with (2 + 2). change (N.of_nat 2) with 2. rewrite field_split by lia. change (17 + 2) with 19. change (256 ^ 2) with 65536.
    f_equal. apply bool_eq. rewrite andb_true_iff, !N.eqb_eq. lia. }
  rewrite Q. destruct (is_fat32 data); [apply fat32_boot_ok'|apply fat12_boot_ok']; trivial.
Qed.
Lemma lower_ok (b : bool) l : lower_name b l = (if b then lowered else fun l => l) l.
Proof.
  unfold lower_name. destruct b; [reflexivity|]. cbn [andb]. apply map_id.
Qed.
Lemma label_flags v : v < 256 -> (N.land v 0x58 =? 0x08) = flag v 3 && negb (flag v 4) && negb (flag v 6).
Proof.
  intros H. assert (A : forallb (fun v => Bool.eqb (N.land v 0x58 =? 0x08) (flag v 3 && negb (flag v 4) && negb (flag v 6))) (seqN 0 256) = true) by (vm_compute; reflexivity).
  rewrite forallb_forall in A. apply eqb_prop, A, in_seqN. lia.
Qed.
Lemma fat_short_entry_ok' : decodes fat_short_entry_read (fun d => 32 <=? len d) fat_short_entry_of.
Proof.
  intros data Hb _. unfold fat_short_entry_read. size_ge Hb 32. reads Hb.
  change (N.land (byte data 12) 0x08) with (N.land (byte data 12) (2 ^ 3)). change (N.land (byte data 12) 0x10) with (N.land (byte data 12) (2 ^ 4)). rewrite !land_flag, !negb_involutive, label_flags by (apply (byte_lt data Hb)).
  rewrite !trim_ok, !lower_ok. unfold fat_short_entry_of, fat_name. cbn [one_of existsb]. rewrite orb_false_r.
  rewrite <- negb_orb. destruct ((byte data 8 =? 0) || (byte data 8 =? 32)); cbn [negb].
  - cbn [bind]. reads Hb. rewrite !app_nil_r. reflexivity.
  - reads Hb. destruct (flag (byte data 11) 3 && negb (flag (byte data 11) 4) && negb (flag (byte data 11) 6)); cbn [negb]; reflexivity.
Qed.

Lemma zero_free_app a b : len (up_to_zero a) = len a -> up_to_zero a = a /\ up_to_zero (a ++ b) = a ++ up_to_zero b.
Proof.
  induction a as [|x a IH]; [split; reflexivity|]. cbn [up_to_zero app]. destruct (x =? 0); rewrite ?len_nil, ?len_cons; intros H; [lia|].
  destruct IH as [I1 I2]; [lia|]. now rewrite I1, I2.
Qed.
Lemma zero_app a b : len (up_to_zero a) <> len a -> up_to_zero (a ++ b) = up_to_zero a /\ (fat_padding (a ++ b) = true -> Forall (eq 0xffff) b).
Proof.
  induction a as [|x a IH]; [intros H; now exfalso|]. cbn [up_to_zero app fat_padding]. destruct (x =? 0); rewrite ?len_nil, ?len_cons; intros H.
  - split; [reflexivity|]. rewrite forallb_app, andb_true_iff. intros [_ F]. apply Forall_forall. intros y Hy.
    rewrite forallb_forall in F. now apply N.eqb_eq, F.
  - destruct IH as [I1 I2]; [lia|]. now rewrite I1.
Qed.
Lemma len_up l : len (up_to_zero l) <= len l.
Proof. induction l as [|a l IH]; [reflexivity|]. cbn [up_to_zero]. destruct (a =? 0); rewrite ?len_nil, ?len_cons; lia. Qed.
Lemma len_pairs l : forall n, length l = (2 * n)%nat -> len (pairs_le l) = N.of_nat n.
Proof.
  intros n. revert l. induction n as [|n IH]; intros l H.
  - destruct l; [reflexivity|discriminate].
  - destruct l as [|a [|b l]]; cbn [length] in H; try lia. cbn [pairs_le]. rewrite len_cons, IH by lia. lia.
Qed.
Lemma len_pairs_at data o n : o + 2 * n <= len data -> len (pairs_le (bytes_at data o (2 * n))) = n.
Proof.
  intros H. rewrite (len_pairs _ (N.to_nat n)); [lia|]. pose proof (len_bytes_at data o (2 * n)). unfold len in *. lia.
Qed.
Lemma text_at data o n elements : buffer data -> o + 2 * n <= len data ->
  ucs2_read_data_le elements (bytes_at data o (2 * n)) = Ok (elements ++ up_to_zero (pairs_le (bytes_at data o (2 * n)))).
Proof.
  intros Hb H. assert (L : len (bytes_at data o (2 * n)) = 2 * n) by (rewrite len_bytes_at; lia). apply text_read.
  - rewrite L. eapply N.le_lt_trans; [|exact (proj2 Hb)]. lia.
  - rewrite L, N.even_mul. reflexivity.
Qed.
Lemma ffff_bytes data o n : buffer data -> o + 2 * n <= len data -> 1 <= n ->
  Forall (eq 0xffff) (pairs_le (bytes_at data o (2 * n))) -> same (bytes_at data o 2) [0xff; 0xff] = true.
Proof.
  intros Hb H Hn F. replace (2 * n) with (2 + (2 * n - 2)) in F by lia. rewrite bytes_at_split in F.
  assert (L : len (bytes_at data o 2) = 2) by (rewrite len_bytes_at; lia).
  assert (W : wf_bytes (bytes_at data o 2)) by (apply wf_bytes_at, Hb).
  destruct (bytes_at data o 2) as [|a [|b [|c l]]]; rewrite ?len_cons, ?len_nil in L; try lia. cbn [app pairs_le] in F.
  apply Forall_cons_iff in F. destruct F as [F _]. apply Forall_cons_iff in W. destruct W as [Wa W]. apply Forall_cons_iff in W.
  destruct W as [Wb _]. unfold byte_ok in *. assert (a = 255 /\ b = 255) as [-> ->] by lia. reflexivity.
Qed.
Lemma fat_long_entry_ok' : decodes_if (fun d => fat_padding (fat_units d) = true) fat_long_entry_read (fun d => 32 <=? len d) fat_long_entry_of.
Proof.
  intros data Hb G. unfold fat_long_entry_read, fat_long_entry_of. size_ge Hb 32. reads Hb. unfold fat_units in *.
  change (bytes_at data 1 (11 - 1)) with (bytes_at data 1 (2 * 5)). rewrite (text_at data 1 5) by (trivial; lia). cbn [bind app].
  change 10 with (2 * 5) in *. change 12 with (2 * 6) in *. change 4 with (2 * 2) in *.
  pose proof (len_pairs_at data 1 5 ltac:(lia)) as L1. pose proof (len_pairs_at data 14 6 ltac:(lia)) as L2.
  pose proof (len_pairs_at data 28 2 ltac:(lia)) as L3.
  pose proof (ffff_bytes data 14 6 Hb ltac:(lia) ltac:(lia)) as F2. pose proof (ffff_bytes data 28 2 Hb ltac:(lia) ltac:(lia)) as F3.
  pose proof (text_at data 14 6) as R2. pose proof (text_at data 28 2) as R3. specialize (R2 (up_to_zero (pairs_le (bytes_at data 1 (2 * 5)))) Hb ltac:(lia)).
  change (16 - 14) with 2. change (30 - 28) with 2. change (26 - 14) with (2 * 6). change (32 - 28) with (2 * 2). rewrite R2.
  clear R2. set (A := pairs_le (bytes_at data 1 (2 * 5))) in *. set (B := pairs_le (bytes_at data 14 (2 * 6))) in *.
  set (C := pairs_le (bytes_at data 28 (2 * 2))) in *. clearbody A B C.
  destruct (N.eqb_spec (len (up_to_zero A)) 5) as [E|E]; cbn [orb].
  - destruct (zero_free_app A (B ++ C)) as [Z1 Z2]; [lia|]. rewrite Z2. cbn [bind]. rewrite R3 by (trivial; lia). clear R3. rewrite Z1.
    rewrite len_app, L1. destruct (N.eqb_spec (5 + len (up_to_zero B)) 11) as [E'|E']; cbn [orb].
    + destruct (zero_free_app B C) as [Y1 Y2]; [lia|]. cbn [bind]. rewrite Y2, Y1, app_assoc. reflexivity.
    + destruct (zero_app B C) as [Y1 Y2]; [lia|]. rewrite Y1. rewrite F3; [reflexivity|]. apply Y2.
      clear - G E L1. revert G E L1. change (fat_padding (A ++ B ++ C) = true -> len (up_to_zero A) = 5 -> len A = 5 -> fat_padding (B ++ C) = true).
      intros G E L. rewrite <- L in E. clear L. revert G E. induction A as [|a A IH]; [trivial|]. cbn [app fat_padding up_to_zero].
      destruct (a =? 0); rewrite ?len_nil, ?len_cons; [intros; lia|]. intros G E. apply IH; [exact G|lia].
  - destruct (zero_app A (B ++ C)) as [Z1 Z2]; [lia|]. rewrite Z1. specialize (Z2 G). apply Forall_app in Z2. destruct Z2 as [Z2 Z3].
    rewrite (F2 Z2), (F3 Z3). cbn [negb bind]. pose proof (len_up A).
    destruct (N.eqb_spec (len (up_to_zero A)) 11); [lia|]. cbn [orb bind]. reflexivity.
Qed.
(** No panic, whatever the padding. *)
Lemma fat_long_entry_answers : answers fat_long_entry_read.
Proof.
  intros data Hb. unfold fat_long_entry_read. destruct (N.leb_spec 32 (len data)); cbn [check bind]; [|discriminate]. reads Hb.
  change (11 - 1) with (2 * 5). rewrite (text_at data 1 5) by (trivial; lia). cbn [bind].
  change (26 - 14) with (2 * 6). change (32 - 28) with (2 * 2).
  match goal with |- context [if ?b then ucs2_read_data_le _ _ else _] => destruct b end; rewrite ?(text_at data 14 6) by (trivial; lia); cbn [bind];
  match goal with |- context [if ?b then ucs2_read_data_le _ _ else _] => destruct b end; rewrite ?(text_at data 28 2) by (trivial; lia); cbn [bind]; discriminate.
Qed.

(** ** VHDX *)
Lemma vhdx_file_header_ok' : decodes vhdx_file_header_read vhdx_file_header_ok (fun _ => tt).
Proof.
  intros data Hb _. unfold vhdx_file_header_read, vhdx_file_header_ok. size_is Hb 65536. reads Hb. signature.
  destruct (has _ _ _); reflexivity.
Qed.
Lemma vhdx_checksum_read data size : buffer data -> len data = size -> 16 <= size ->
  (a <- slice data 0 4 ;; b <- slice data 8 size ;; crc32c_of 0 [a; [0; 0; 0; 0]; b]) =
    Ok (crc32c (bytes_at data 0 4 ++ [0; 0; 0; 0] ++ skipn 8 data)).
Proof.
  intros Hb L H. rewrite slice_at by lia. cbn [bind]. subst size. rewrite slice_rest by lia. cbn [bind].
  rewrite crc32c_read; [|reflexivity|].
  - cbn [concat]. rewrite app_nil_r. reflexivity.
  - repeat constructor; try (apply wf_bytes_at, Hb). apply wf_bytes_skipn, Hb.
Qed.
Lemma vhdx_image_header_ok' : decodes vhdx_image_header_read vhdx_image_header_ok vhdx_image_header_of.
Proof.
  intros data Hb _. unfold vhdx_image_header_read, vhdx_image_header_ok, vhdx_image_header_of. size_is Hb 4096.
  pose proof (vhdx_checksum_read data 4096 Hb e ltac:(lia)) as C. reads Hb. signature. chk. reads Hb.
  change (48 - 32) with 16. rewrite uuid_at by room. cbn [bind]. reads Hb.
  rewrite !slice_at in C by lia. cbn [bind] in C. rewrite C. cbn [bind]. rewrite stored_or.
  change ((field data 4 4 =? 0) || _) with (vhdx_checksum_ok data). destruct (vhdx_checksum_ok data); reflexivity.
Qed.
Lemma vhdx_region_header_ok' : decodes vhdx_region_header_read vhdx_region_header_ok (fun d => (field d 4 4, field d 8 4)).
Proof.
  intros data Hb _. unfold vhdx_region_header_read, vhdx_region_header_ok. size_ge Hb 16. reads Hb. signature. chk. reads Hb.
  destruct (field data 8 4 <=? 2047); reflexivity.
Qed.
Lemma vhdx_region_entry_ok' : decodes vhdx_region_entry_read (fun d => len d =? 32) vhdx_region_entry_of.
Proof.
  intros data Hb _. unfold vhdx_region_entry_read, vhdx_region_entry_of. size_is Hb 32. reads Hb. change (16 - 0) with 16. rewrite uuid_at by room. cbn [bind]. reads Hb.
  change (N.land (field data 28 4) 1) with (N.land (field data 28 4) (2 ^ 0)). rewrite land_flag, negb_involutive. reflexivity.
Qed.
Lemma vhdx_metadata_header_ok' : decodes vhdx_metadata_header_read vhdx_metadata_header_ok (fun d => field d 10 2).
Proof.
  intros data Hb _. unfold vhdx_metadata_header_read, vhdx_metadata_header_ok. size_ge Hb 32. reads Hb. signature. chk. reflexivity.
Qed.
Lemma vhdx_metadata_entry_ok' : decodes vhdx_metadata_entry_read vhdx_metadata_entry_ok vhdx_metadata_entry_of.
Proof.
  intros data Hb _. unfold vhdx_metadata_entry_read, vhdx_metadata_entry_ok, vhdx_metadata_entry_of. size_is Hb 32. reads Hb.
  change (16 - 0) with 16. rewrite uuid_at by room. cbn [bind]. reads Hb. destruct (65536 <=? field data 16 4); reflexivity.
Qed.
Lemma vhdx_locator_header_ok' : decodes vhdx_locator_header_read vhdx_locator_header_ok (fun d => field d 18 2).
Proof.
  intros data Hb _. unfold vhdx_locator_header_read, vhdx_locator_header_ok. size_ge Hb 20. reads Hb. signature. chk. reflexivity.
Qed.
Lemma vhdx_locator_entry_ok' : decodes vhdx_locator_entry_read (fun d => len d =? 12) vhdx_locator_entry_of.
Proof. intros data Hb _. unfold vhdx_locator_entry_read. size_is Hb 12. reads Hb. reflexivity. Qed.

Lemma seqN_map n : forall a, seqN (a + 1) n = map (fun i => i + 1) (seqN a n).
Proof. induction n as [|n IH]; intros a; [reflexivity|]. cbn [seqN map]. now rewrite IH. Qed.
Lemma pieces_cons data o size n : pieces data o size (N.of_nat (S n)) = bytes_at data o size :: pieces data (o + size) size (N.of_nat n).
Proof.
  unfold pieces. rewrite !Nat2N.id. change (seqN 0 (S n)) with (0 :: seqN (0 + 1) n). rewrite seqN_map. cbn [map].
  f_equal; [f_equal; lia|]. rewrite map_map. apply map_ext. intros i. f_equal. lia.
Qed.
Lemma vhdx_entries_ok {A} (read : list N -> res A) ok value : decodes read ok value ->
  forall data, buffer data -> forall n o, o + 32 * N.of_nat n <= len data ->
  vhdx_entries read data n o = if forallb ok (pieces data o 32 (N.of_nat n)) then Ok (map value (pieces data o 32 (N.of_nat n))) else Err.
Proof.
  intros D data Hb. induction n as [|n IH]; intros o H; [reflexivity|]. rewrite pieces_cons. cbn [vhdx_entries forallb map].
  rewrite slice_at by lia. cbn [bind]. replace (o + 32 - o) with 32 by lia.
  rewrite (D _ (buffer_part _ _ _ Hb) I). destruct (ok (bytes_at data o 32)); cbn [bind andb]; [|reflexivity].
  rewrite IH by lia. destruct (forallb _ _); reflexivity.
Qed.
Lemma vhdx_region_table_ok' : decodes_if (fun d => len d = 65536) vhdx_region_table_read vhdx_region_table_ok vhdx_region_table_of.
Proof.
  intros data Hb L. unfold vhdx_region_table_read, vhdx_region_table_ok, vhdx_region_table_of.
  rewrite (vhdx_region_header_ok' data Hb I). destruct (vhdx_region_header_ok data) eqn:E; cbn [bind andb]; [|reflexivity].
  pose proof (vhdx_checksum_read data 65536 Hb L ltac:(lia)) as C.
  rewrite !slice_at in C by lia. rewrite !slice_at by lia. cbn [bind] in C |- *. rewrite C. cbn [bind]. rewrite stored_or.
  change ((field data 4 4 =? 0) || _) with (vhdx_checksum_ok data). destruct (vhdx_checksum_ok data); cbn [check bind]; [|reflexivity].
  assert (B : field data 8 4 <= 2047) by (unfold vhdx_region_header_ok in E; rewrite !andb_true_iff in E; apply N.leb_le, E).
  rewrite (vhdx_entries_ok _ _ _ vhdx_region_entry_ok' data Hb) by lia. rewrite N2Nat.id.
  replace (forallb _ _) with true; [reflexivity|]. symmetry. apply forallb_forall. intros x Hx. unfold pieces in Hx. apply in_map_iff in Hx.
  destruct Hx as (i & <- & Hi). apply in_seqN in Hi. apply N.eqb_eq. rewrite len_bytes_at. lia.
Qed.
Lemma vhdx_metadata_table_ok' : decodes_if (fun d => len d = 65536 /\ field d 10 2 <= 2047) vhdx_metadata_table_read vhdx_metadata_table_ok vhdx_metadata_table_of.
Proof.
  intros data Hb [L B]. unfold vhdx_metadata_table_read, vhdx_metadata_table_ok, vhdx_metadata_table_of.
  rewrite (vhdx_metadata_header_ok' data Hb I). destruct (vhdx_metadata_header_ok data) eqn:E; cbn [bind andb]; [|reflexivity].
  rewrite (vhdx_entries_ok _ _ _ vhdx_metadata_entry_ok' data Hb) by lia. rewrite N2Nat.id. reflexivity.
Qed.
Lemma vhdx_locator_ok' : decodes_if vhdx_locator_even vhdx_locator_read vhdx_locator_ok vhdx_locator_of.
Proof.
  intros data Hb G. unfold vhdx_locator_read, vhdx_locator_ok, vhdx_locator_of, vhdx_locator_even in *.
  rewrite (vhdx_locator_header_ok' data Hb I). destruct (vhdx_locator_header_ok data) eqn:E; cbn [bind andb]; [|reflexivity]. clear E.
  rewrite <- (N2Nat.id (field data 18 2)) in G |- *. rewrite Nat2N.id. revert G. generalize 20 at 1 2 3 4 as o. generalize (N.to_nat (field data 18 2)) as n.
  induction n as [|n IH]; intros o G; [reflexivity|]. rewrite pieces_cons in *. cbn [vhdx_locator_entries forallb map].
  apply Forall_cons_iff in G. destruct G as [[G1 G2] G]. specialize (IH _ G).
  assert (P : vhdx_locator_entry_ok data (bytes_at data o 12) = true -> o + 12 <= len data).
  { unfold vhdx_locator_entry_ok. rewrite !andb_true_iff, N.eqb_eq, len_bytes_at. lia. }
  destruct (N.leb_spec (o + 12) (len data)) as [L|L]; cbn [check bind].
  2:{ destruct (vhdx_locator_entry_ok _ _); [lia|reflexivity]. }
  rewrite slice_at by lia. cbn [bind]. replace (o + 12 - o) with 12 by lia.
  rewrite (vhdx_locator_entry_ok' _ (buffer_part _ _ _ Hb) I). rewrite len_bytes_at. replace (N.min 12 (len data - o)) with 12 by lia.
  change (12 =? 12) with true. cbn [bind]. set (e := bytes_at data o 12) in *. unfold vhdx_locator_entry_ok, vhdx_locator_text.
  assert (Le : len e = 12) by (unfold e; rewrite len_bytes_at; lia). rewrite Le. change (12 =? 12) with true. cbn [andb].
  cbn [vhdx_locator_entry_of vl_key_offset vl_value_offset vl_key_size vl_value_size]. clearbody e.
  destruct (N.ltb_spec (field e 0 4) 20); cbn [orb negb check bind].
  { destruct (N.leb_spec 20 (field e 0 4)); [lia|reflexivity]. }
  destruct (N.leb_spec 20 (field e 0 4)); [|lia]. cbn [andb].
  destruct (N.leb_spec (len data) (field e 0 4)); cbn [orb negb check bind].
  { destruct (N.ltb_spec (field e 0 4) (len data)); [lia|reflexivity]. }
  destruct (N.ltb_spec (field e 0 4) (len data)); [|lia]. cbn [andb]. unfold sub_chk.
  destruct (N.leb_spec (field e 0 4) (len data)); [|lia]. cbn [bind].
  destruct (N.leb_spec (field e 8 2) (len data - field e 0 4)); cbn [check bind].
  2:{ destruct (N.leb_spec (field e 0 4 + field e 8 2) (len data)); [lia|reflexivity]. }
  destruct (N.leb_spec (field e 0 4 + field e 8 2) (len data)); [|lia]. cbn [andb].
  destruct (N.ltb_spec (field e 4 4) 20); cbn [orb negb check bind].
  { destruct (N.leb_spec 20 (field e 4 4)); [lia|reflexivity]. }
  destruct (N.leb_spec 20 (field e 4 4)); [|lia]. cbn [andb].
  destruct (N.leb_spec (len data) (field e 4 4)); cbn [orb negb check bind].
  { destruct (N.ltb_spec (field e 4 4) (len data)); [lia|reflexivity]. }
  destruct (N.ltb_spec (field e 4 4) (len data)); [|lia]. cbn [andb].
  destruct (N.leb_spec (field e 4 4) (len data)); [|lia]. cbn [bind].
  destruct (N.leb_spec (field e 10 2) (len data - field e 4 4)); cbn [check bind].
  2:{ destruct (N.leb_spec (field e 4 4 + field e 10 2) (len data)); [lia|reflexivity]. }
  destruct (N.leb_spec (field e 4 4 + field e 10 2) (len data)); [|lia]. cbn [andb].
  assert (T : forall a k, a + k <= len data -> N.even k = true ->
    (d <- slice data a (a + k) ;; ucs2_read_data_le [] d) = Ok (text16 data a k)).
  { clear - Hb. intros a k Hk He. rewrite slice_at by lia. cbn [bind]. replace (a + k - a) with k by lia.
    assert (Lk : len (bytes_at data a k) = k) by (rewrite len_bytes_at; lia).
    rewrite text_read; [reflexivity| |now rewrite Lk]. rewrite Lk. eapply N.le_lt_trans; [|exact (proj2 Hb)]. lia. }
  pose proof (T (field e 0 4) (field e 8 2) ltac:(assumption) G1) as T1. pose proof (T (field e 4 4) (field e 10 2) ltac:(assumption) G2) as T2.
  rewrite slice_at in T1 |- * by lia. cbn [bind] in T1 |- *. rewrite T1. cbn [bind].
  rewrite slice_at in T2 |- * by lia. cbn [bind] in T2 |- *. rewrite T2. cbn [bind]. rewrite IH. destruct (forallb _ _); reflexivity.
Qed.
