From Verif Require Import Base BaseLemmas Bytes_model Lz_model Lz_spec Huffman_spec Bzip2_spec Bzip2_proofs Deflate_spec Deflate_proofs.
From Verif Require Import Lz_proofs Lzvn_proofs P_C07 Lzfse_model Lzfse_spec Lzfse_proofs Lzfse2_proofs Lzfse3_proofs.
Ltac Zify.zify_post_hook ::= idtac.

Lemma at_app {A} (c : list A) o a r : Lz_proofs.At c o (a ++ r) -> Lz_proofs.At c (o + len a) r.
Proof.
  intros H. apply (at_advance c o _ (len a)) in H; [| rewrite len_app; lia].
  unfold len in *. rewrite Nat2N.id, skipn_app, Nat.sub_diag, skipn_all2 in H by lia. exact H.
Qed.
Lemma at_slice_app {A} (c : list A) o a r : Lz_proofs.At c o (a ++ r) -> slice c o (o + len a) = Ok a.
Proof.
  intros H. rewrite (at_slice c o (a ++ r) (len a)) by (auto; rewrite len_app; lia).
  unfold len. rewrite Nat2N.id, firstn_len_app. reflexivity.
Qed.
Lemma at_firstn {A} (c : list A) o a r : Lz_proofs.At c o (a ++ r) -> firstn (N.to_nat (o + len a)) c = firstn (N.to_nat o) c ++ a.
Proof.
  intros [H E]. rewrite <- (firstn_skipn (N.to_nat o) c) at 1. rewrite E.
  assert (L : length (firstn (N.to_nat o) c) = N.to_nat o) by (rewrite firstn_length; unfold len in H; lia).
  rewrite firstn_app, L, firstn_all2 by lia. f_equal. unfold len.
  replace (N.to_nat (o + N.of_nat (length a)) - N.to_nat o)%nat with (length a) by lia. apply firstn_len_app.
Qed.
Lemma le_at_ok n v c o r : Lz_proofs.At c o (le_bytes n v ++ r) -> v < 256 ^ N.of_nat n -> le_at (N.of_nat n) c o = Ok v.
Proof.
  intros H Hv. unfold le_at. pose proof (at_slice_app _ _ _ _ H) as E. unfold len in E. rewrite le_bytes_length in E.
  rewrite E. cbn [bind]. rewrite le_value_le_bytes, N.mod_small by exact Hv. reflexivity.
Qed.
Lemma le_at8 v c o r : Lz_proofs.At c o (le_bytes 8 v ++ r) -> v < 2 ^ 64 -> le_at 8 c o = Ok v.
Proof. intros H Hv. apply (le_at_ok 8 v c o r H). exact Hv. Qed.
Lemma le_at4 v c o r : Lz_proofs.At c o (le_bytes 4 v ++ r) -> v < 2 ^ 32 -> le_at 4 c o = Ok v.
Proof. intros H Hv. apply (le_at_ok 4 v c o r H). exact Hv. Qed.
Lemma le_at_bytes a c o r : Lz_proofs.At c o (a ++ r) -> le_at (len a) c o = Ok (le_value a).
Proof. intros H. unfold le_at. rewrite (at_slice_app _ _ _ _ H). reflexivity. Qed.
Lemma len_le_bytes n v : len (le_bytes n v) = N.of_nat n.
Proof. unfold len. now rewrite le_bytes_length. Qed.

Lemma bit_field_mid v lo s x n hi : v = lo + 2 ^ s * (x + 2 ^ n * hi) -> lo < 2 ^ s -> x < 2 ^ n -> bit_field v s n = x.
Proof.
  intros -> Hl Hx. unfold bit_field. rewrite N.land_ones, N.shiftr_div_pow2.
  rewrite (N.mul_comm (2 ^ s)), N.div_add, (N.div_small lo), N.add_0_l by (try exact Hl; apply N.pow_nonzero; lia).
  rewrite (N.mul_comm (2 ^ n)), N.mod_add, N.mod_small by (try exact Hx; apply N.pow_nonzero; lia). reflexivity.
Qed.

(** ** The header of a block *)
Definition decoder_of (b : fse_block) : lzfse_decoder :=
  mk_decoder (len (b_literals b)) (len (b_triples b)) (len (b_literal_data b)) (len (b_triple_data b)) (b_states b)
    (b_l_state b) (b_m_state b) (b_d_state b)
    (Z.of_N (7 - b_literal_padding b) - 7) (Z.of_N (7 - b_triple_padding b) - 7).

Lemma table_size b : fse_block_valid b -> 1 <= len (b_table b) <= 631.
Proof.
  intros (HL & HT & _ & (rest & E & Hr) & _).
  assert (L : len (bits_of (b_table b)) = len (flat_map frequency_bits (b_l b ++ b_m b ++ b_d b ++ b_u b)) + len rest) by (rewrite E, len_app; reflexivity).
  rewrite len_bits_of in L.
  assert (F : Forall (fun f => f < 1048) (b_l b ++ b_m b ++ b_d b ++ b_u b)).
  { assert (G : forall l m, total l <= m -> m <= 1024 -> Forall (fun f => f < 1048) l).
    { induction l as [| x l IH]; intros m H1 H2; [constructor |]. change (total (x :: l)) with (x + total l) in H1.
      constructor; [lia | apply (IH m); lia]. }
    rewrite !Forall_app. repeat split; eapply G; try apply HT; lia. }
  assert (B : forall l, Forall (fun f => f < 1048) l -> 2 * N.of_nat (length l) <= len (flat_map frequency_bits l) <= 14 * N.of_nat (length l)).
  { induction 1 as [| f l Hf _ IH]; [cbn; lia |]. cbn [flat_map length]. rewrite len_app.
    pose proof (code_size_range f Hf) as R. unfold code_size in R. lia. }
  specialize (B _ F). rewrite !app_length in B. unfold len in *. lia.
Qed.
Lemma frequencies_small b : fse_block_valid b -> Forall (fun f => f < 1048) (b_l b ++ b_m b ++ b_d b ++ b_u b).
Proof.
  intros (HL & HT & _).
  assert (G : forall l m, total l <= m -> m <= 1024 -> Forall (fun f => f < 1048) l).
  { induction l as [| x l IH]; intros m H1 H2; [constructor |]. change (total (x :: l)) with (x + total l) in H1.
    constructor; [lia | apply (IH m); lia]. }
  rewrite !Forall_app. repeat split; eapply G; try apply HT; lia.
Qed.

Lemma list4 (l : list N) : length l = 4%nat -> l = [nth 0 l 0; nth 1 l 0; nth 2 l 0; nth 3 l 0].
Proof. destruct l as [| a [| b [| c [| d [| e l]]]]]; intros H; try discriminate H. reflexivity. Qed.

Lemma header_ok b : fse_block_valid b -> len (fse_fields b) = 24 /\ read_v2_header (fse_fields b) = Ok (32 + len (b_table b), decoder_of b).
Proof.
  intros HV. pose proof (table_size b HV) as HT.
  destruct HV as (_ & _ & _ & _ & H1 & _ & H2 & (S4 & SF & SL & SM & SD) & (P1 & P2) & (_ & _ & D1 & D2) & _).
  assert (L24 : len (fse_fields b) = 24) by (unfold fse_fields; rewrite !len_app, !len_le_bytes; reflexivity).
  split; [exact L24 |]. unfold read_v2_header, check. rewrite L24. change (24 <=? 24) with true. cbn [bind].
  rewrite (list4 _ S4) in SF. 
  set (s0 := nth 0 (b_states b) 0) in *. set (s1 := nth 1 (b_states b) 0) in *. set (s2 := nth 2 (b_states b) 0) in *. set (s3 := nth 3 (b_states b) 0) in *.
  assert (SB : s0 < 1024 /\ s1 < 1024 /\ s2 < 1024 /\ s3 < 1024).
  { inversion SF as [| ? ? Q0 F1]; subst. inversion F1 as [| ? ? Q1 F2]; subst. inversion F2 as [| ? ? Q2 F3]; subst. inversion F3; subst. auto. }
  destruct SB as (B0 & B1 & B2 & B3).
  set (nl := len (b_literals b)) in *. set (ld := len (b_literal_data b)) in *. set (nt := len (b_triples b)) in *.
  set (td := len (b_triple_data b)) in *. set (p1 := 7 - b_literal_padding b). set (p2 := 7 - b_triple_padding b).
  assert (Q1 : p1 <= 7) by lia. assert (Q2 : p2 <= 7) by lia.
  set (v1 := nl + 2 ^ 20 * ld + 2 ^ 40 * nt + 2 ^ 60 * p1).
  set (v2 := s0 + 2 ^ 10 * s1 + 2 ^ 20 * s2 + 2 ^ 30 * s3 + 2 ^ 40 * td + 2 ^ 60 * p2).
  set (v3 := 32 + len (b_table b) + 2 ^ 32 * b_l_state b + 2 ^ 42 * b_m_state b + 2 ^ 52 * b_d_state b).
  assert (EF : fse_fields b = le_bytes 8 v1 ++ le_bytes 8 v2 ++ le_bytes 8 v3) by reflexivity.
  change (2 ^ 20) with 1048576 in *. change (2 ^ 40) with 1099511627776 in *. change (2 ^ 60) with 1152921504606846976 in *.
  change (2 ^ 10) with 1024 in *. change (2 ^ 30) with 1073741824 in *. change (2 ^ 32) with 4294967296 in *.
  change (2 ^ 42) with 4398046511104 in *. change (2 ^ 52) with 4503599627370496 in *.
  assert (P64 : 2 ^ 64 = 18446744073709551616) by reflexivity.
  assert (A0 : Lz_proofs.At (fse_fields b) 0 (le_bytes 8 v1 ++ le_bytes 8 v2 ++ le_bytes 8 v3)) by (rewrite <- EF; apply at_start).
  rewrite (le_at8 v1 _ _ _ A0) by (rewrite P64; unfold v1; lia). cbn [bind].
  apply at_app in A0 as A1. rewrite len_le_bytes in A1.
  change (0 + N.of_nat 8) with 8 in A1.
  rewrite (le_at8 v2 _ _ _ A1) by (rewrite P64; unfold v2; lia). cbn [bind].
  apply at_app in A1 as A2. rewrite len_le_bytes in A2. change (8 + N.of_nat 8) with 16 in A2. rewrite <- (app_nil_r (le_bytes 8 v3)) in A2.
  rewrite (le_at8 v3 _ _ _ A2) by (rewrite P64; unfold v3; lia). cbn [bind].
  assert (F3 : bit_field v3 0 32 = 32 + len (b_table b)).
  { apply bit_field_mid with 0 (b_l_state b + 1024 * b_m_state b + 1048576 * b_d_state b); change (2 ^ 0) with 1; change (2 ^ 32) with 4294967296; [unfold v3; lia | lia | lia]. }
  rewrite F3. replace ((32 <=? 32 + len (b_table b)) && (32 + len (b_table b) <=? 720)) with true
    by (symmetry; apply andb_true_intro; split; apply N.leb_le; lia).
  cbn [bind]. do 2 f_equal. unfold decoder_of. fold nl nt ld td p1 p2. rewrite (list4 _ S4). fold s0 s1 s2 s3.
  assert (T20 : 2 ^ 20 = 1048576) by reflexivity. assert (T10 : 2 ^ 10 = 1024) by reflexivity.
  f_equal.
  - apply bit_field_mid with 0 (ld + 1048576 * nt + 1099511627776 * p1); rewrite ?T20; change (2 ^ 0) with 1; [unfold v1; lia | lia | lia].
  - apply bit_field_mid with (nl + 1048576 * ld) p1; rewrite ?T20; change (2 ^ 40) with 1099511627776; [unfold v1; lia | lia | lia].
  - apply bit_field_mid with nl (nt + 1048576 * p1); rewrite ?T20; [unfold v1; lia | lia | lia].
  - apply bit_field_mid with (s0 + 1024 * s1 + 1048576 * s2 + 1073741824 * s3) p2; rewrite ?T20; change (2 ^ 40) with 1099511627776; [unfold v2; lia | lia | lia].
  - f_equal; [| f_equal; [| f_equal; [| f_equal]]].
    + apply bit_field_mid with 0 (s1 + 1024 * s2 + 1048576 * s3 + 1073741824 * td + 1125899906842624 * p2); rewrite ?T10; change (2 ^ 0) with 1; [unfold v2; lia | lia | lia].
    + apply bit_field_mid with s0 (s2 + 1024 * s3 + 1048576 * td + 1099511627776 * p2); rewrite ?T10; [unfold v2; lia | lia | lia].
    + apply bit_field_mid with (s0 + 1024 * s1) (s3 + 1024 * td + 1073741824 * p2); rewrite ?T10, ?T20; [unfold v2; lia | lia | lia].
    + apply bit_field_mid with (s0 + 1024 * s1 + 1048576 * s2) (td + 1048576 * p2); rewrite ?T10; change (2 ^ 30) with 1073741824; [unfold v2; lia | lia | lia].
  - apply bit_field_mid with (32 + len (b_table b)) (b_m_state b + 1024 * b_d_state b); rewrite ?T10; change (2 ^ 32) with 4294967296; [unfold v3; lia | lia | lia].
  - apply bit_field_mid with (32 + len (b_table b) + 4294967296 * b_l_state b) (b_d_state b); rewrite ?T10; change (2 ^ 42) with 4398046511104; [unfold v3; lia | lia | lia].
  - apply bit_field_mid with (32 + len (b_table b) + 4294967296 * b_l_state b + 4398046511104 * b_m_state b) 0; rewrite ?T10; change (2 ^ 52) with 4503599627370496; [unfold v3; lia | lia | lia].
  - f_equal. f_equal. apply bit_field_mid with (nl + 1048576 * ld + 1099511627776 * nt) 0; change (2 ^ 60) with 1152921504606846976; change (2 ^ 3) with 8; [unfold v1; lia | lia | lia].
  - f_equal. f_equal. apply bit_field_mid with (s0 + 1024 * s1 + 1048576 * s2 + 1073741824 * s3 + 1099511627776 * td) 0; change (2 ^ 60) with 1152921504606846976; change (2 ^ 3) with 8; [unfold v2; lia | lia | lia].
Qed.

Lemma read_v2_ok c co b fs tail : wf_bytes c -> fse_block_valid b -> 8 <= len (b_literal_data b) + len (b_triple_data b) ->
  Lz_proofs.At c co (fse_fields b ++ b_table b ++ b_literal_data b ++ b_triple_data b ++ tail) ->
  read_block_v2 c co fs = Ok (co + 24 + len (b_table b), decoder_of b, b_l b ++ b_m b ++ b_d b ++ b_u b).
Proof.
  intros Hwf HV H8 HA. pose proof (table_size b HV) as HT. destruct (header_ok b HV) as [L24 HH].
  pose proof (at_len _ _ _ HA) as HL. rewrite !len_app, L24 in HL.
  pose proof HV as (HLs & _ & Htw & (rest & EB & Hrest) & _).
  unfold read_block_v2. unfold check at 1. destruct (N.leb_spec (co + 24) (len c)); [| lia]. cbn [bind].
  pose proof (at_slice_app _ _ _ _ HA) as ES. rewrite L24 in ES. rewrite ES. cbn [bind]. rewrite HH. cbn [bind].
  unfold sub_chk at 1. destruct (N.leb_spec co (len c)); [| lia]. cbn [bind].
  unfold check at 1. destruct (N.leb_spec (32 + len (b_table b)) (len c - co)); [| lia]. cbn [bind].
  destruct (N.ltb_spec 32 (32 + len (b_table b))); [| lia].
  apply at_app in HA as A1. rewrite L24 in A1. apply at_app in A1 as A2.
  replace (32 + len (b_table b) - 32) with (len (b_table b)) by lia.
  replace 360%nat with (length (b_l b ++ b_m b ++ b_d b ++ b_u b)) by (rewrite !app_length; lia).
  rewrite (read_frequencies_ok c _ _ Hwf A2 (b_l b ++ b_m b ++ b_d b ++ b_u b) (co + 24) 0 0 (b_table b) rest); [reflexivity | ..].
  - apply frequencies_small; exact HV.
  - apply A1.
  - lia.
  - lia.
  - reflexivity.
  - lia.
  - rewrite <- EB, bits_value_bytes by exact Htw. rewrite N.pow_0_r. lia.
  - rewrite <- EB, len_bits_of. lia.
  - unfold len. lia.
  - intros E. apply (f_equal (@length N)) in E. rewrite !app_length in E. cbn [length] in E. lia.
Qed.

(** ** The contents of a block *)
Lemma backwards_app a b : backwards (a ++ b) = backwards b ++ backwards a.
Proof. unfold backwards, bytes_bits. rewrite rev_app_distr. apply flat_map_app. Qed.

Lemma slices4 (a b c d : list N) : length a = 20%nat -> length b = 20%nat -> length c = 64%nat -> length d = 256%nat ->
  slice (a ++ b ++ c ++ d) 0 20 = Ok a /\ slice (a ++ b ++ c ++ d) 20 40 = Ok b /\
  slice (a ++ b ++ c ++ d) 40 104 = Ok c /\ slice (a ++ b ++ c ++ d) 104 360 = Ok d.
Proof.
  intros La Lb Lc Ld.
  assert (A0 : Lz_proofs.At (a ++ b ++ c ++ d) 0 (a ++ b ++ c ++ d)) by apply at_start.
  apply at_app in A0 as A1. apply at_app in A1 as A2. apply at_app in A2 as A3.
  pose proof (at_slice_app _ _ _ _ A0) as S0. pose proof (at_slice_app _ _ _ _ A1) as S1. pose proof (at_slice_app _ _ _ _ A2) as S2.
  rewrite <- (app_nil_r d) in A3 at 2. pose proof (at_slice_app _ _ _ _ A3) as S3.
  unfold len in *. rewrite La, Lb, Lc, Ld in *. repeat split; assumption.
Qed.

Lemma decompress_block_ok c co b out rest after tail : wf_bytes c -> fse_block_valid b ->
  Lz_proofs.At c co (b_literal_data b ++ b_triple_data b ++ tail) ->
  triples_meaning out 0 (b_literals b) (b_triples b) = Some after ->
  len after <= len out + len rest -> len out + len rest < 2 ^ 31 ->
  decompress_block c co (decoder_of b) (b_l b ++ b_m b ++ b_d b ++ b_u b) (out ++ rest) (len out) =
  Ok (co + len (b_literal_data b) + len (b_triple_data b), after ++ skipn (length after - length out) rest, len after).
Proof.
  intros Hwf HV HA HM Hle Hlt.
  destruct HV as ((L1 & L2 & L3 & L4) & (T1 & T2 & T3 & T4) & _ & _ & H40 & Hm4 & _ & (S4 & _) & (P1 & P2) & _ & (pad1 & w1 & r1 & B1 & Q1 & R1) & (pad2 & w2 & r2 & B2 & Q2 & R2)).
  destruct (slices4 _ _ _ _ L1 L2 L3 L4) as (E1 & E2 & E3 & E4).
  unfold decompress_block. rewrite E1. cbn [bind].
  rewrite (build_value_table_ok 6 (b_l b)) by (try lia; try exact T1; rewrite ?L1; reflexivity). cbn [bind]. rewrite E2. cbn [bind].
  rewrite (build_value_table_ok 6 (b_m b)) by (try lia; try exact T2; rewrite ?L2; reflexivity). cbn [bind]. rewrite E3. cbn [bind].
  rewrite (build_value_table_ok 8 (b_d b)) by (try lia; try exact T3; rewrite ?L3; reflexivity). cbn [bind]. rewrite E4. cbn [bind].
  rewrite (build_table_ok 10 ltac:(lia) (b_u b)) by (change (2 ^ Z.of_N 10)%Z with 1024%Z; lia). cbn [bind].
  pose proof (at_len _ _ _ HA) as HL. rewrite !len_app in HL.
  unfold sub_chk at 1. destruct (N.leb_spec co (len c)); [| lia]. cbn [bind decoder_of literals_size lmd_size].
  unfold check at 1. destruct (N.leb_spec (len (b_literal_data b)) (len c - co)); [| lia]. cbn [bind].
  apply at_app in HA as A1.
  rewrite (read_literals_ok c (b_u b) (decoder_of b) (co + len (b_literal_data b)) pad1 w1 (r1 ++ backwards (firstn (N.to_nat co) c)) (b_literals b)); auto; try lia.
  2:{ rewrite (at_firstn _ _ _ _ HA), backwards_app, B1, <- !app_assoc. reflexivity. }
  2:{ cbn [decoder_of literal_bits]. rewrite Q1. reflexivity. }
  cbn [bind]. unfold sub_chk at 1. destruct (N.leb_spec (co + len (b_literal_data b)) (len c)); [| lia]. cbn [bind].
  unfold check at 1. destruct (N.leb_spec (len (b_triple_data b)) (len c - (co + len (b_literal_data b)))); [| lia]. cbn [bind].
  unfold read_lmd. cbn [decoder_of lmd_bits]. rewrite padding_ok by exact P2. cbn [bind].
  set (e := co + len (b_literal_data b) + len (b_triple_data b)).
  pose proof (FAt_start c e ltac:(unfold e; lia)) as F0. unfold e in F0. rewrite (at_firstn _ _ _ _ A1), backwards_app, B2, <- !app_assoc in F0. fold e in F0.
  destruct (skip_padding c _ pad2 _ Hwf ltac:(lia) F0) as (v & st & Ev & F1). rewrite Q2 in Ev. rewrite Ev. cbn [bind].
  cbn [decoder_of number_of_lmd l_state m_state d_state]. replace (N.to_nat (len (b_triples b))) with (length (b_triples b)) by (unfold len; lia).
  change (2 ^ 6) with 64. change (2 ^ 8) with 256.
  rewrite (lmd_loop_ok c (b_l b) (b_m b) (b_d b) _ (b_literals b) Hwf T1 T2 T3 H40 (b_triples b) _ _ _ w2 st 0 0 out rest after R2 F1 ltac:(lia) HM Hle Hlt).
  reflexivity.
Qed.

(** ** A round *)
Lemma block_grows out b after : block_meaning out b = Some after -> exists w, after = out ++ w.
Proof.
  destruct b as [l | ts | b]; cbn [block_meaning]; intros H.
  - injection H as <-. eauto.
  - destruct (lzvn_meaning [] 0 ts) as [l |]; [| discriminate]. injection H as <-. eauto.
  - eapply triples_grow; eauto.
Qed.
Lemma block_wf size b : block_valid b -> wf_bytes (block_bytes size b).
Proof.
  assert (M : forall x, x < 256 -> wf_bytes [98; 118; 120; x]).
  { intros x Hx. repeat first [apply wf_bytes_cons; split | apply Forall_nil]; lia. }
  destruct b as [l | ts | b]; cbn [block_valid block_bytes]; intros H.
  - rewrite !wf_bytes_app. split; [apply M; lia |]. split; [apply le_bytes_wf | exact H].
  - destruct H as [H _]. rewrite !wf_bytes_app. split; [apply M; lia |]. split; [apply le_bytes_wf |]. split; [apply le_bytes_wf |].
    unfold lzvn_encode. rewrite wf_bytes_app. split; [now apply encode_tokens_wf |].
    apply wf_bytesb_iff. reflexivity.
  - destruct H as (_ & _ & Ht & _ & _ & _ & _ & _ & _ & (H1 & H2 & _) & _).
    rewrite !wf_bytes_app. split; [apply M; lia |]. split; [apply le_bytes_wf |]. split; [| auto].
    unfold fse_fields. rewrite !wf_bytes_app. repeat split; apply le_bytes_wf.
Qed.
Lemma block_long size b : 8 <= len (block_bytes size b).
Proof. destruct b; cbn [block_bytes]; rewrite !len_app, ?len_le_bytes; change (N.of_nat 4) with 4;
  match goal with |- context [len [?a; ?b; ?c; ?d]] => change (len [a; b; c; d]) with 4 end; lia. Qed.

Definition next_frequencies (b : lzfse_block) (fs : list N) : list N :=
  match b with Fse b => b_l b ++ b_m b ++ b_d b ++ b_u b | _ => fs end.

Lemma round_full c co buf uo fs : len buf <= uo -> lzfse_round c (mk_lzfse co buf uo fs) = Ok (inl (mk_lzfse co buf uo fs)).
Proof.
  intros H. unfold lzfse_round. cbn [z_co z_buf z_uo]. destruct (co <? len c); cbn [negb]; [| reflexivity].
  destruct (N.leb_spec (len buf) uo); [reflexivity | lia].
Qed.

Lemma round_block c co b out rest after fs tail : wf_bytes c -> block_valid b -> block_with_data b -> block_meaning out b = Some after ->
  len after - len out < 2 ^ 32 -> Lz_proofs.At c co (block_bytes (len after - len out) b ++ tail) ->
  0 < len rest -> len after <= len out + len rest -> len out + len rest < 2 ^ 31 ->
  lzfse_round c (mk_lzfse co (out ++ rest) (len out) fs) =
  Ok (inr (mk_lzfse (co + len (block_bytes (len after - len out) b)) (after ++ skipn (length after - length out) rest) (len after) (next_frequencies b fs))).
Proof.
  intros Hwf Hv H8 HM H32 HA Hr Hle Hlt. destruct (block_grows _ _ _ HM) as (w & EW).
  assert (Ew : len after - len out = len w) by (rewrite EW, len_app; lia). rewrite Ew in *.
  assert (Ea : len after = len out + len w) by (rewrite EW, len_app; reflexivity).
  pose proof (at_len _ _ _ HA) as HL. rewrite len_app in HL. pose proof (block_long (len w) b) as HB.
  unfold lzfse_round. cbn [z_co z_buf z_uo z_frequencies]. rewrite len_app.
  destruct (N.ltb_spec co (len c)); [| lia]. cbn [negb]. destruct (N.leb_spec (len out + len rest) (len out)); [lia |].
  unfold check at 1. destruct (N.leb_spec 4 (len c - co)); [| lia]. cbn [bind].
  assert (Lw : skipn (length after - length out) rest = skipn (length w) rest) by (rewrite EW, app_length; f_equal; lia).
  rewrite Lw.
  destruct b as [l | ts | b]; cbn [block_valid block_with_data block_bytes block_meaning next_frequencies] in *; rewrite <- !app_assoc in HA.
  - injection HM as HM. assert (w = l) by (rewrite EW in HM; now apply app_inv_head in HM). subst w.
    pose proof (le_at_bytes [98; 118; 120; 45] c co _ HA) as EM. change (len [98; 118; 120; 45]) with 4 in EM. rewrite EM. cbn [bind].
    apply at_app in HA as A1. change (len [98; 118; 120; 45]) with 4 in A1.
    change (le_value [98; 118; 120; 45]) with marker_uncompressed. change (marker_uncompressed =? marker_end) with false.
    change (marker_uncompressed =? marker_uncompressed) with true. cbn [orb check bind].
    unfold sub_chk at 1. destruct (N.leb_spec (co + 4) (len c)); [| lia]. cbn [bind].
    unfold check at 1. destruct (N.leb_spec 4 (len c - (co + 4))); [| lia]. cbn [bind].
    rewrite (le_at4 (len l) c _ _ A1 H32). cbn [bind].
    apply at_app in A1 as A2. rewrite len_le_bytes in A2. change (N.of_nat 4) with 4 in A2.
    unfold sub_chk at 1. destruct (N.leb_spec (len out) (len out + len rest)); [| lia]. cbn [bind].
    unfold check at 1. destruct (N.leb_spec (len l) (len out + len rest - len out)); [| lia]. cbn [bind].
    rewrite !len_app, len_le_bytes in HL. change (len [98; 118; 120; 45]) with 4 in *. change (N.of_nat 4) with 4 in *.
    unfold sub_chk at 1. destruct (N.leb_spec (co + 4 + 4) (len c)); [| lia]. cbn [bind].
    unfold check at 1. destruct (N.leb_spec (len l) (len c - (co + 4 + 4))); [| lia]. cbn [bind].
    rewrite (at_slice_app _ _ _ _ A2). cbn [bind]. rewrite write_end by lia. cbn [bind].
    rewrite !len_app, len_le_bytes. change (len [98; 118; 120; 45]) with 4. change (N.of_nat 4) with 4.
    rewrite EW, app_assoc. do 3 f_equal; rewrite ?len_app; lia.
  - destruct Hv as [Hv Hs]. destruct (lzvn_meaning [] 0 ts) as [l |] eqn:EL; [| discriminate]. injection HM as HM.
    assert (w = l) by (rewrite EW in HM; now apply app_inv_head in HM). subst w.
    pose proof (le_at_bytes [98; 118; 120; 110] c co _ HA) as EM. change (len [98; 118; 120; 110]) with 4 in EM. rewrite EM. cbn [bind].
    apply at_app in HA as A1. change (len [98; 118; 120; 110]) with 4 in A1.
    change (le_value [98; 118; 120; 110]) with marker_lzvn. change (marker_lzvn =? marker_end) with false.
    change (marker_lzvn =? marker_uncompressed) with false. change (marker_lzvn =? marker_v1) with false. change (marker_lzvn =? marker_v2) with false.
    change (marker_lzvn =? marker_lzvn) with true. cbn [orb check bind].
    unfold sub_chk at 1. destruct (N.leb_spec (co + 4) (len c)); [| lia]. cbn [bind].
    unfold check at 1. destruct (N.leb_spec 4 (len c - (co + 4))); [| lia]. cbn [bind].
    rewrite (le_at4 (len l) c _ _ A1 H32). cbn [bind].
    apply at_app in A1 as A2. rewrite len_le_bytes in A2. change (N.of_nat 4) with 4 in A2.
    unfold sub_chk at 1. destruct (N.leb_spec (len out) (len out + len rest)); [| lia]. cbn [bind].
    unfold check at 1. destruct (N.leb_spec (len l) (len out + len rest - len out)); [| lia]. cbn [bind].
    rewrite !len_app, !len_le_bytes in HL. change (len [98; 118; 120; 110]) with 4 in *. change (N.of_nat 4) with 4 in *.
    unfold sub_chk at 1. destruct (N.leb_spec (co + 4 + 4) (len c)); [| lia]. cbn [bind].
    unfold check at 1. destruct (N.leb_spec 4 (len c - (co + 4 + 4))); [| lia]. cbn [bind].
    rewrite (le_at4 _ c _ _ A2 Hs). cbn [bind]. apply at_app in A2 as A3. rewrite len_le_bytes in A3. change (N.of_nat 4) with 4 in A3.
    unfold sub_chk at 1. destruct (N.leb_spec (co + 4 + 4 + 4) (len c)); [| lia]. cbn [bind].
    unfold check at 1. destruct (N.leb_spec (len (lzvn_encode ts)) (len c - (co + 4 + 4 + 4))); [| lia]. cbn [bind].
    rewrite (at_slice_app _ _ _ _ A3). cbn [bind].
    assert (AB : Lz_proofs.At (out ++ rest) (len out) rest).
    { split; [rewrite len_app; lia |]. unfold len. rewrite Nat2N.id. rewrite <- (Nat.add_0_r (length out)). rewrite skipn_len_app. reflexivity. }
    rewrite (at_slice _ _ _ (len l) AB) by lia. cbn [bind].
    set (room := firstn (N.to_nat (len l)) rest).
    assert (LR : length room = length l) by (unfold room, len in *; rewrite firstn_length; lia).
    pose proof (C07_valid_encodings_decode ts l room [] Hv (Forall_nil _) EL) as HD. rewrite app_nil_r in HD.
    rewrite HD by (unfold len in *; lia). cbn [bind]. rewrite skipn_all2 by lia. rewrite app_nil_r, write_end by lia. cbn [bind].
    rewrite !len_app, !len_le_bytes. change (len [98; 118; 120; 110]) with 4. change (N.of_nat 4) with 4.
    rewrite EW, app_assoc. do 3 f_equal; rewrite ?len_app; lia.
  - pose proof (le_at_bytes [98; 118; 120; 50] c co _ HA) as EM. change (len [98; 118; 120; 50]) with 4 in EM. rewrite EM. cbn [bind].
    apply at_app in HA as A1. change (len [98; 118; 120; 50]) with 4 in A1.
    change (le_value [98; 118; 120; 50]) with marker_v2. change (marker_v2 =? marker_end) with false.
    change (marker_v2 =? marker_uncompressed) with false. change (marker_v2 =? marker_v1) with false. change (marker_v2 =? marker_v2) with true.
    change (marker_v2 =? marker_lzvn) with false. cbn [orb check bind].
    unfold sub_chk at 1. destruct (N.leb_spec (co + 4) (len c)); [| lia]. cbn [bind].
    unfold check at 1. destruct (N.leb_spec 4 (len c - (co + 4))); [| lia]. cbn [bind].
    rewrite (le_at4 (len w) c _ _ A1 H32). cbn [bind].
    apply at_app in A1 as A2. rewrite len_le_bytes in A2. change (N.of_nat 4) with 4 in A2.
    unfold sub_chk at 1. destruct (N.leb_spec (len out) (len out + len rest)); [| lia]. cbn [bind].
    unfold check at 1. destruct (N.leb_spec (len w) (len out + len rest - len out)); [| lia]. cbn [bind].
    destruct (header_ok b Hv) as [L24 _].
    rewrite (read_v2_ok c _ b fs tail Hwf Hv H8) by exact A2. cbn [bind].
    apply at_app in A2 as A3. rewrite L24 in A3. apply at_app in A3 as A4.
    rewrite (decompress_block_ok c _ b out rest after tail Hwf Hv A4 HM Hle Hlt). cbn [bind]. rewrite Lw.
    do 3 f_equal. rewrite !len_app, len_le_bytes, L24. change (len [98; 118; 120; 50]) with 4. change (N.of_nat 4) with 4. lia.
Qed.

Lemma stream_grows P out bytes content : lzfse_stream P out bytes content -> exists w, content = out ++ w.
Proof.
  induction 1 as [out | out b after bytes content Hv H8 HM _ _ (w & ->)]; [exists []; now rewrite app_nil_r |].
  destruct (block_grows _ _ _ HM) as (w' & ->). eexists. now rewrite <- app_assoc.
Qed.
Lemma stream_wf P out bytes content : lzfse_stream P out bytes content -> wf_bytes bytes.
Proof.
  induction 1 as [out | out b after bytes content Hv H8 HM _ _ IH]; [apply wf_bytesb_iff; reflexivity |].
  apply wf_bytes_app. split; [now apply block_wf | exact IH].
Qed.
Lemma stream_long P out bytes content : lzfse_stream P out bytes content -> 4 <= len bytes.
Proof.
  destruct 1 as [out | out b after bytes content Hv H8 HM _ _]; [reflexivity |].
  rewrite len_app. pose proof (block_long (len after - len out) b). lia.
Qed.

Lemma stream_ok c tail : wf_bytes c -> forall out bytes content, lzfse_stream block_with_data out bytes content ->
  forall fuel co rest fs, Lz_proofs.At c co (bytes ++ tail) -> (length bytes < fuel)%nat ->
  len content <= len out + len rest -> len out + len rest < 2 ^ 31 ->
  lzfse_loop fuel c (mk_lzfse co (out ++ rest) (len out) fs) =
  Ok (content ++ skipn (length content - length out) rest, len content).
Proof.
  intros Hwf. induction 1 as [out | out b after bytes content Hv H8 HM H32 HS IH]; intros fuel co rest fs HA Hf Hle Hlt.
  - destruct fuel as [| fuel]; [lia |]. cbn [lzfse_loop]. rewrite Nat.sub_diag. cbn [skipn].
    destruct (N.eq_dec (len rest) 0) as [E0 | E0].
    + rewrite round_full by (rewrite len_app; lia). reflexivity.
    + unfold lzfse_round. cbn [z_co z_buf z_uo]. pose proof (at_len _ _ _ HA) as HL. rewrite len_app in HL.
      change (len [98; 118; 120; 36]) with 4 in HL. destruct (N.ltb_spec co (len c)); [| lia]. cbn [negb]. rewrite len_app.
      destruct (N.leb_spec (len out + len rest) (len out)); [lia |].
      unfold check at 1. destruct (N.leb_spec 4 (len c - co)); [| lia]. cbn [bind].
      pose proof (le_at_bytes [98; 118; 120; 36] c co _ HA) as EM. change (len [98; 118; 120; 36]) with 4 in EM. rewrite EM. reflexivity.
  - destruct fuel as [| fuel]; [lia |]. cbn [lzfse_loop].
    destruct (stream_grows _ _ _ _ HS) as (w2 & E2). destruct (block_grows _ _ _ HM) as (w1 & E1).
    assert (LC : len content = len out + len w1 + len w2) by (rewrite E2, E1, !len_app; reflexivity).
    assert (LA : len after = len out + len w1) by (rewrite E1, len_app; reflexivity).
    destruct (N.eq_dec (len rest) 0) as [E0 | E0].
    + rewrite round_full by (rewrite len_app; lia). cbn [bind z_buf z_uo].
      assert (w1 = []) by (apply length_zero_iff_nil; unfold len in *; lia). assert (w2 = []) by (apply length_zero_iff_nil; unfold len in *; lia).
      assert (rest = []) by (apply length_zero_iff_nil; unfold len in *; lia). subst. rewrite !app_nil_r, skipn_nil, app_nil_r. reflexivity.
    + rewrite <- app_assoc in HA. pose proof (block_long (len after - len out) b) as HB.
      rewrite (round_block c co b out rest after fs (bytes ++ tail)) by (auto; lia). cbn [bind].
      apply at_app in HA. rewrite app_length in Hf.
      rewrite (IH fuel _ _ _ HA).
      * do 3 f_equal. rewrite skipn_skipn. f_equal. unfold len in *. lia.
      * change (8 <= N.of_nat (length (block_bytes (len after - len out) b))) in HB. lia.
      * rewrite len_skipn. unfold len in *. lia.
      * rewrite len_skipn. unfold len in *. lia.
Qed.
