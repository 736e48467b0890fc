From Verif Require Import Base BaseLemmas Bytes_model Lz_model Lz_spec Huffman_spec Bzip2_spec Deflate_spec.
From Verif Require Import Lz_proofs P_C07 Lzfse_model Lzfse_spec Lzfse_proofs Lzfse2_proofs Lzfse3_proofs Lzfse4_proofs Lzfse5_proofs.
Ltac Zify.zify_post_hook ::= idtac.

(** * C56: LZFSE decompression *)

(** Whatever stream a compressor writes, of stored blocks, blocks with LZVN and blocks of version 2, in
    any order, with any frequencies, states and padding, the decoder restores its content. What is in the
    buffer after the content stays. Bytes after the end of the stream do not matter. Missing: blocks of
    version 1, blocks of version 2 with less than eight bytes of data, buffers of 2 GiB and more. *)
Theorem C56_content_partial :
  forall bytes content trailing buffer fuel,
  lzfse_stream block_with_data [] bytes content -> wf_bytes trailing ->
  len content <= len buffer -> len buffer < 2 ^ 31 -> (length bytes < fuel)%nat ->
  lzfse_decompress fuel (bytes ++ trailing) buffer = Ok (content ++ skipn (length content) buffer, len content).
Proof.
  intros bytes content trailing buffer fuel HS Hw Hl Hb Hf. unfold lzfse_decompress, lzfse_start.
  assert (W : wf_bytes (bytes ++ trailing)) by (apply wf_bytes_app; split; [eapply stream_wf; exact HS | exact Hw]).
  pose proof (stream_ok (bytes ++ trailing) trailing W [] bytes content HS fuel 0 buffer (repeat 0 360)
                (at_start _) Hf ltac:(rewrite len_nil; lia) ltac:(rewrite len_nil; lia)) as H.
  cbn [app length] in H. rewrite Nat.sub_0_r in H. exact H.
Qed.
Print Assumptions C56_content_partial.

(** For any data in which no block of version 1 starts and in which the table of frequencies of a block has
    all its frequencies, the decoder ends without a panic; it never writes beyond the buffer. *)
Theorem C56_total_partial :
  forall data buffer fuel, wf_bytes data -> (forall i, ~ marker_at data i 0x31) -> tables_complete data ->
  (length data < fuel)%nat ->
  lzfse_decompress fuel data buffer = Err \/
  exists result size, lzfse_decompress fuel data buffer = Ok (result, size) /\
    length result = length buffer /\ size <= len buffer.
Proof.
  intros data buffer fuel Hw H1 HT Hf.
  assert (G : good_state (len buffer) (lzfse_start buffer)).
  { unfold good_state, lzfse_start. cbn [z_buf z_uo z_frequencies]. repeat split; try lia.
    unfold small. apply Forall_forall. intros x Hx. apply repeat_spec in Hx. lia. }
  pose proof (loop_post data (len buffer) Hw H1 HT fuel (lzfse_start buffer) G) as P.
  unfold lzfse_start in P at 1. cbn [z_co] in P. specialize (P ltac:(unfold len; lia)).
  unfold lzfse_decompress. destruct (lzfse_loop fuel data (lzfse_start buffer)) as [[r n] | |]; cbn in P; [right | left | easy]; auto.
  exists r, n. split; [reflexivity |]. unfold len in *. lia.
Qed.
Print Assumptions C56_total_partial.

(** ** Cases that meet the hypotheses *)
Ltac splits := repeat match goal with |- _ /\ _ => split end.
Ltac easy_goal := solve [vm_compute; reflexivity | vm_compute; intros; discriminate | vm_compute; lia
  | repeat (apply Forall_cons; [vm_compute; reflexivity |]); apply Forall_nil].
Ltac step_goal := splits; easy_goal.
Definition sparse (n : nat) (l : list (N * N)) : list N :=
  map (fun i => fold_right (fun '(j, f) a => if j =? i then f else a) 0 l) (seqN 0 n).

(** Two triples, four literals. *)
Definition block1 : fse_block := {|
  b_l := sparse 20 [(1, 16); (3, 48)]; b_m := sparse 20 [(5, 32); (16, 32)]; b_d := sparse 64 [(1, 128); (2, 100); (4, 28)]; b_u := sparse 256 [(97, 700); (98, 300); (99, 24)];
  b_table := [28; 242; 24; 0; 0; 0; 0; 0; 240; 8; 0; 0; 192; 35; 0; 240; 104; 60; 19; 60; 1; 0; 0; 0; 0; 0; 0; 0; 0; 0; 0; 0; 0; 0; 0; 0; 0; 0; 0; 0; 0; 0; 0; 0; 0; 0; 0; 0; 0; 0; 0; 0; 0; 0; 0; 0; 0; 0; 0; 0; 79; 234; 83; 244; 0; 0; 0; 0; 0; 0; 0; 0; 0; 0; 0; 0; 0; 0; 0; 0; 0; 0; 0; 0; 0; 0; 0; 0; 0; 0; 0; 0; 0; 0; 0; 0; 0; 0; 0; 0; 0; 0; 0; 0; 0];
  b_literals := [97; 98; 97; 99]; b_triples := [(3, 5, 2); (1, 20, 1)];
  b_states := [329; 881; 401; 1017]; b_l_state := 33; b_m_state := 31; b_d_state := 206;
  b_literal_padding := 3; b_triple_padding := 5;
  b_literal_data := [0; 0; 0; 0; 227]; b_triple_data := [0; 0; 0; 0; 160; 1] |}.
Lemma block1_valid : fse_block_valid block1.
Proof.
  unfold fse_block_valid. splits; try easy_goal.
  - exists [false; false; false; false; false; false]. split; [vm_compute; reflexivity | vm_compute; lia].
  - exists [true; true; true], ([] ++ [false; false] ++ [] ++ [false; true; true; false; false] ++ []), [false; false; false; false; false; false; false; false; false; false; false; false; false; false; false; false; false; false; false; false; false; false; false; false; false; false; false; false; false; false]. splits; [easy_goal | easy_goal |].
    eapply literal_next with (x := 5); [exists 700, 0%nat; step_goal |].
    eapply literal_next with (x := 900); [exists 300, 2%nat; step_goal |].
    eapply literal_next with (x := 77); [exists 700, 0%nat; step_goal |].
    eapply literal_next with (x := 300); [exists 24, 5%nat; step_goal |].
    apply literal_end.
  - exists [false; false; false; false; false], ([] ++ [false] ++ [false] ++ [true; true] ++ [false; true; false; false] ++ [false] ++ []), [false; false; false; false; false; false; false; false; false; false; false; false; false; false; false; false; false; false; false; false; false; false; false; false; false; false; false; false; false; false; false; false; false; false]. splits; [easy_goal | easy_goal |].
    eapply triple_next with (xl := 1) (xm := 62) (xd := 100).
    { exists 3, [], 0, 0. splits; [exists 48, 0%nat; step_goal | easy_goal ..]. }
    { exists 5, [false], 0, 0. splits; [exists 32, 1%nat; step_goal | easy_goal ..]. }
    { exists 2, [false], 0, 0. splits; [exists 100, 1%nat; step_goal | easy_goal ..]. }
    eapply triple_next with (xl := 7) (xm := 60) (xd := 200).
    { exists 1, [true; true], 0, 0. splits; [exists 16, 2%nat; step_goal | easy_goal ..]. }
    { exists 16, [false], 3, 4. splits; [exists 32, 1%nat; step_goal | easy_goal ..]. }
    { exists 1, [false], 0, 0. splits; [exists 128, 1%nat; step_goal | easy_goal ..]. }
    apply triple_end.
Qed.

(** A stream with a stored block, an LZVN block and a block with triples that refers to them. *)
Definition C56_tokens : list lzvn_token := [VSmall [1; 2] 2 4].
Definition C56_text : list N := [120; 121; 1; 2; 1; 2; 1; 2] ++ [97; 98; 97; 98; 97; 98; 97; 98] ++ repeat 99 21.
Definition C56_bytes : list N :=
  block_bytes 2 (Stored [120; 121]) ++ block_bytes 6 (Lzvn C56_tokens) ++ block_bytes 29 (Fse block1) ++ [0x62; 0x76; 0x78; 0x24].
Lemma C56_tokens_valid : block_valid (Lzvn C56_tokens).
Proof.
  split; [| easy_goal]. apply Forall_cons; [| apply Forall_nil]. cbn. splits; try easy_goal; apply wf_bytesb_iff; reflexivity.
Qed.
Example C56_stream_example : lzfse_stream block_with_data [] C56_bytes C56_text /\ len C56_text = 37.
Proof.
  split; [| reflexivity]. unfold C56_bytes.
  apply (stream_block block_with_data [] (Stored [120; 121]) [120; 121]); try easy_goal; try exact I.
  apply (stream_block block_with_data [120; 121] (Lzvn C56_tokens) [120; 121; 1; 2; 1; 2; 1; 2]); 
    try exact C56_tokens_valid; try easy_goal; try exact I.
  apply (stream_block block_with_data [120; 121; 1; 2; 1; 2; 1; 2] (Fse block1) C56_text); try exact block1_valid; try easy_goal.
  apply stream_end.
Qed.
Example C56_content_example :
  lzfse_decompress 400 (C56_bytes ++ [1; 2; 3]) (repeat 0 40) = Ok (C56_text ++ [0; 0; 0], 37).
Proof.
  rewrite (C56_content_partial C56_bytes C56_text [1; 2; 3] (repeat 0 40) 400).
  - reflexivity.
  - apply C56_stream_example.
  - apply wf_bytesb_iff; reflexivity.
  - easy_goal.
  - easy_goal.
  - apply Nat.ltb_lt. vm_compute. reflexivity.
Qed.

Fixpoint same (a b : list N) : bool :=
  match a, b with [], [] => true | x :: a, y :: b => (x =? y) && same a b | _, _ => false end.
Lemma same_refl a : same a a = true.
Proof. induction a as [| x a IH]; [reflexivity |]. cbn. now rewrite N.eqb_refl, IH. Qed.
Lemma marker_positions data x P : forallb (fun i => negb (same (firstn 4 (skipn i data)) [0x62; 0x76; 0x78; x]) || P i) (seq 0 (length data)) = true ->
  forall i, marker_at data i x -> P i = true.
Proof.
  intros H i HM. unfold marker_at in HM. rewrite forallb_forall in H.
  assert (L : (i < length data)%nat).
  { destruct (Nat.lt_ge_cases i (length data)) as [L | L]; [exact L |]. rewrite skipn_all2 in HM by exact L. discriminate HM. }
  specialize (H i ltac:(apply in_seq; lia)). rewrite HM, same_refl in H. exact H.
Qed.
Example C56_total_example :
  wf_bytes C56_bytes /\ (forall i, ~ marker_at C56_bytes i 0x31) /\ tables_complete C56_bytes.
Proof.
  splits; [apply wf_bytesb_iff; vm_compute; reflexivity | |].
  - intros i H. apply (marker_positions C56_bytes 0x31 (fun _ => false)) in H; [discriminate H | vm_compute; reflexivity].
  - intros i h HM Eh H32 HL. apply (marker_positions C56_bytes 0x32 (fun i => Nat.eqb i 34)) in HM; [| vm_compute; reflexivity].
    apply Nat.eqb_eq in HM. subst i. vm_compute in Eh. subst h.
    exists (b_l block1 ++ b_m block1 ++ b_d block1 ++ b_u block1), (skipn (length (flat_map frequency_bits (b_l block1 ++ b_m block1 ++ b_d block1 ++ b_u block1))) (bits_of (b_table block1))).
    splits; try (vm_compute; reflexivity). vm_compute. repeat (apply Forall_cons; [reflexivity |]). apply Forall_nil.
Qed.

(** ** What does not hold *)
(** A panic: a block that says that its table takes one byte. *)
Definition C56_short_data : list N := [0x62; 0x76; 0x78; 0x32] ++ repeat 0 20 ++ [33] ++ repeat 0 16.
Theorem C56_no_panic_refuted :
  exists data, wf_bytes data /\ (forall fuel buffer, 0 < len buffer -> lzfse_decompress (S fuel) data buffer = Panic) /\
    (forall buffer, 0 < len buffer -> lzfse_round data (lzfse_start buffer) = Panic).
Proof.
  assert (R : forall buffer, 0 < len buffer -> lzfse_round C56_short_data (lzfse_start buffer) = Panic).
  { intros buffer H. unfold lzfse_round, lzfse_start. cbn [z_co z_buf z_uo z_frequencies].
    assert (P : read_block_v2 C56_short_data (0 + 4 + 4) (repeat 0 360) = Panic) by (vm_compute; reflexivity).
    destruct (N.leb_spec (len buffer) 0); [lia |].
    change (0 <? len C56_short_data) with true. change (le_at 4 C56_short_data 0) with (Ok marker_v2).
    change (le_at 4 C56_short_data (0 + 4)) with (Ok 0). change (4 <=? len C56_short_data - 0) with true.
    change (sub_chk (len C56_short_data) (0 + 4)) with (Ok 37). unfold sub_chk, check.
    destruct (N.leb_spec 0 (len buffer)) as [L0 | L0]; [| lia].
    change (4 <=? 37) with true. cbn [negb bind]. rewrite P, N.sub_0_r. apply N.leb_le in L0. rewrite L0. reflexivity. }
  exists C56_short_data. splits; [apply wf_bytesb_iff; reflexivity | | exact R].
  intros fuel buffer H. unfold lzfse_decompress. cbn [lzfse_loop]. rewrite R by exact H. reflexivity.
Qed.
Print Assumptions C56_no_panic_refuted.

(** A loop without end: two blocks of version 1. The second one, at offset 762, leads to itself. *)
Definition C56_loop_data : list N := [0x62; 0x76; 0x78; 0x31] ++ repeat 0 758 ++ [0x62; 0x76; 0x78; 0x31] ++ repeat 0 766.
Theorem C56_ends_refuted :
  exists data state, wf_bytes data /\ lzfse_round data (lzfse_start [0]) = Ok (inr state) /\
    lzfse_round data state = Ok (inr state).
Proof.
  exists C56_loop_data, (mk_lzfse 762 [0] 0 (repeat 0 360)). splits; [apply wf_bytesb_iff; reflexivity | vm_compute; reflexivity ..].
Qed.
Print Assumptions C56_ends_refuted.

(** What a block leaves of what was in the buffer is part of the result: the first distance is zero. *)
Definition C56_zero_data : list N :=
  [0x62; 0x76; 0x78; 0x32] ++ le_bytes 4 1 ++ le_bytes 8 (2 ^ 40 + 2 ^ 60 * 7) ++ le_bytes 8 (2 ^ 60 * 7) ++ le_bytes 8 (32 + 96) ++
  [143; 2; 0; 0; 0; 0; 192; 163; 0; 0; 0; 0; 0; 143; 14; 0; 0; 0; 0; 0; 0; 0; 0; 0; 0; 0; 0; 0; 0; 0; 0; 0; 0; 0; 0; 0; 0; 0; 0; 0; 0; 0; 0; 0; 0; 0; 0; 0; 0; 0; 0; 0; 0; 0; 192; 163; 15; 0; 0; 0; 0; 0; 0; 0; 0; 0; 0; 0; 0; 0; 0; 0; 0; 0; 0; 0; 0; 0; 0; 0; 0; 0; 0; 0; 0; 0; 0; 0; 0; 0; 0; 0; 0; 0; 0; 0] ++ repeat 0 8.
Theorem C56_deterministic_refuted :
  exists data buffer1 buffer2 result1 result2 size, wf_bytes data /\ len buffer1 = len buffer2 /\
    lzfse_decompress 3 data buffer1 = Ok (result1, size) /\ lzfse_decompress 3 data buffer2 = Ok (result2, size) /\
    firstn (N.to_nat size) result1 <> firstn (N.to_nat size) result2.
Proof.
  exists C56_zero_data, [7], [8], [7], [8], 1. splits; [apply wf_bytesb_iff; reflexivity | reflexivity | vm_compute; reflexivity .. |].
  cbn. discriminate.
Qed.
Print Assumptions C56_deterministic_refuted.

(** The same for a block with LZVN that holds less than its header says. *)
Theorem C56_lzvn_deterministic_refuted :
  exists data buffer1 buffer2 result1 result2 size, wf_bytes data /\ len buffer1 = len buffer2 /\
    lzfse_decompress 3 data buffer1 = Ok (result1, size) /\ lzfse_decompress 3 data buffer2 = Ok (result2, size) /\
    firstn (N.to_nat size) result1 <> firstn (N.to_nat size) result2.
Proof.
  exists ([0x62; 0x76; 0x78; 0x6e] ++ le_bytes 4 2 ++ le_bytes 4 8 ++ lzvn_encode []), [7; 7], [8; 8], [7; 7], [8; 8], 2.
  splits; [apply wf_bytesb_iff; reflexivity | reflexivity | vm_compute; reflexivity .. |].
  cbn. discriminate.
Qed.
Print Assumptions C56_lzvn_deterministic_refuted.

(** A stream that ends with a block of version 2 with one byte of data is refused. *)
Definition block2 : fse_block := {|
  b_l := sparse 20 [(0, 32); (1, 32)]; b_m := sparse 20 [(9, 64)]; b_d := sparse 64 [(1, 256)]; b_u := sparse 256 [(97, 1024)];
  b_table := [143; 192; 35; 0; 0; 0; 0; 0; 0; 0; 60; 10; 0; 0; 192; 163; 3; 0; 0; 0; 0; 0; 0; 0; 0; 0; 0; 0; 0; 0; 0; 0; 0; 0; 0; 0; 0; 0; 0; 0; 0; 0; 0; 0; 0; 0; 0; 0; 0; 0; 0; 0; 0; 0; 0; 0; 60; 250; 0; 0; 0; 0; 0; 0; 0; 0; 0; 0; 0; 0; 0; 0; 0; 0; 0; 0; 0; 0; 0; 0; 0; 0; 0; 0; 0; 0; 0; 0; 0; 0; 0; 0; 0; 0; 0; 0; 0; 0];
  b_literals := [97; 97; 97; 97]; b_triples := [(1, 9, 1); (1, 9, 1)];
  b_states := [5; 900; 77; 300]; b_l_state := 48; b_m_state := 0; b_d_state := 0;
  b_literal_padding := 0; b_triple_padding := 6;
  b_literal_data := []; b_triple_data := [0] |}.
Lemma block2_valid : fse_block_valid block2.
Proof.
  unfold fse_block_valid. splits; try easy_goal.
  - exists [false; false; false; false]. split; [vm_compute; reflexivity | vm_compute; lia].
  - exists [], ([] ++ [] ++ [] ++ [] ++ []), []. splits; [easy_goal | easy_goal |].
    eapply literal_next with (x := 5); [exists 1024, 0%nat; step_goal |].
    eapply literal_next with (x := 900); [exists 1024, 0%nat; step_goal |].
    eapply literal_next with (x := 77); [exists 1024, 0%nat; step_goal |].
    eapply literal_next with (x := 300); [exists 1024, 0%nat; step_goal |].
    apply literal_end.
  - exists [false; false; false; false; false; false], ([false] ++ [] ++ [] ++ [false] ++ [] ++ [] ++ []), []. splits; [easy_goal | easy_goal |].
    eapply triple_next with (xl := 32) (xm := 0) (xd := 0).
    { exists 1, [false], 0, 0. splits; [exists 32, 1%nat; step_goal | easy_goal ..]. }
    { exists 9, [], 0, 0. splits; [exists 64, 0%nat; step_goal | easy_goal ..]. }
    { exists 1, [], 0, 0. splits; [exists 256, 0%nat; step_goal | easy_goal ..]. }
    eapply triple_next with (xl := 0) (xm := 0) (xd := 0).
    { exists 1, [false], 0, 0. splits; [exists 32, 1%nat; step_goal | easy_goal ..]. }
    { exists 9, [], 0, 0. splits; [exists 64, 0%nat; step_goal | easy_goal ..]. }
    { exists 1, [], 0, 0. splits; [exists 256, 0%nat; step_goal | easy_goal ..]. }
    apply triple_end.
Qed.

Definition C56_little_bytes : list N := block_bytes 20 (Fse block2) ++ [0x62; 0x76; 0x78; 0x24].
Theorem C56_little_data_refuted :
  exists bytes content, lzfse_stream any_block [] bytes content /\ len content = 20 /\
    lzfse_decompress 3 bytes (repeat 0 20) = Err.
Proof.
  exists C56_little_bytes, (repeat 97 20). splits; [| reflexivity | vm_compute; reflexivity].
  apply (stream_block any_block [] (Fse block2) (repeat 97 20)); try exact block2_valid; try easy_goal; try exact I.
  apply stream_end.
Qed.
Print Assumptions C56_little_data_refuted.
