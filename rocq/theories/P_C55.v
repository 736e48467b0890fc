(** * C55: decompressing LZX gives back what was compressed

    The streams are those of [Lzx_spec]; the content is what was compressed, before the targets
    of calls were made absolute ([prepared]). *)
From Verif Require Import Base BaseLemmas Lz_spec Huffman_spec Huffman_model Lzx_spec Lzx_model.
From Verif Require Import Lzx_proofs Lzx2_proofs Lzx3_proofs Lzx4_proofs Lzx5_proofs.
Ltac Zify.zify_post_hook ::= idtac.

(** [data] starts with the bits of the blocks; [r] are those after them. *)
Definition lzx_encodes (data : list N) (bs : list (bool * lzx_block_of)) (r : list bool) (content : list N) : Prop :=
  wf_bytes data /\ word_bits data = blocks_bits first_context bs ++ r /\
  blocks_valid 0 first_context bs /\ blocks_meaning bs = prepared content.

(** Contents of at least 6 bytes come back, whatever was in the buffer, and the bytes of the
    buffer after it are left. The buffer has the size of the content, or it is larger and the
    stream ends with the last block. Not covered: the streams that [blocks_taken] excludes,
    which the refutations below are about. *)
Theorem C55_content_partial :
  forall content bs data r buffer,
  wf_bytes content -> 6 <= len content < 2 ^ 31 ->
  lzx_encodes data bs r content -> blocks_taken 0 first_context bs ->
  (len buffer = len content \/
   (len content <= len buffer /\ (length r < 16)%nat /\ N.even (len data) = true /\
    forall before short padding q l, bs = before ++ [(short, Uncompressed padding q l)] -> N.odd (len l) = false)) ->
  lzx_decompress data buffer = Ok (content ++ skipn (length content) buffer, len content).
Proof.
  intros content bs data r buffer Wc Hc (Hwf & Hbits & Hv & Hm) Ht Hb.
  assert (Hlen : length (blocks_meaning bs) = length content).
  { rewrite Hm. unfold prepared. now apply absolute_length with (n := length content). }
  unfold blocks_meaning in Hm, Hlen. change (fold_left _ bs first_context) with (context_of first_context bs) in Hm, Hlen.
  destruct (lzx_blocks_rt data r Hwf bs (S (8 * length data)) first_context buffer (mk_lzx 0 0 0) 0 Hv Ht) as (s' & E).
  - repeat split; unfold first_context, old_main, old_sizes; rewrite ?repeat_length; auto;
      apply Forall_forall; intros y Hy; apply repeat_spec in Hy; subst; lia.
  - split; [repeat split; cbn [x_offset x_count x_bits]; lia |]. split; [| reflexivity].
    unfold left_bits. cbn [x_offset x_count x_bits]. exact Hbits.
  - rewrite Hbits. reflexivity.
  - change (output first_context) with (@nil N). unfold len in *. rewrite Hlen. cbn [length]. lia.
  - pose proof (word_bits_length data) as W. rewrite Hbits, len_app in W.
    assert (len data / 2 <= len data / 1) by (apply N.div_le_compat_l; lia).
    pose proof (N.mul_div_le (len data) 2 ltac:(lia)). rewrite N.div_1_r in *. unfold len in *. lia.
  - destruct Hb as [Hb | (Hb1 & Hb2 & Hb3 & Hb4)].
    + left. change (output first_context) with (@nil N). unfold len in *. rewrite Hlen. cbn [length]. lia.
    + right. split; [unfold len; lia |]. split; [exact Hb3 |]. intros (bs' & sh & pd & q & l & Eb & Ho).
      rewrite (Hb4 _ _ _ _ _ Eb) in Ho. discriminate Ho.
  - unfold lzx_decompress. unfold state_of in E. change (output first_context) with (@nil N) in E. change (len (@nil N)) with 0 in E.
    cbn [app] in E. cbn [length] in E. rewrite Nat.sub_0_r in E.
    change (rl (distances first_context)) with [1; 1; 1] in E. change (old_main first_context) with (repeat 0 496) in E.
    change (old_sizes first_context) with (repeat 0 249) in E. rewrite E. cbn [bind lx_buffer lx_offset].
    assert (L : len (output (context_of first_context bs)) = len content) by (unfold len; now rewrite Hlen).
    rewrite L, Hlen, Hm. unfold adjust_calls.
    destruct (N.ltb_spec (len content) 6); [lia |]. destruct (N.ltb_spec (2 ^ 31 - 1) (len content)); [lia |]. cbn [orb negb check bind].
    unfold prepared. pose proof (adjust_rt (len content) (skipn (length content) buffer) ltac:(lia) ltac:(lia)
      (length content) content [] (S (N.to_nat (len content))) (le_n _) ltac:(unfold len; lia) Wc eq_refl) as A.
    cbn [app] in A. change (len (@nil N)) with 0 in A. rewrite A. reflexivity.
Qed.
Print Assumptions C55_content_partial.

(** Any bytes: no panic and no endless loop; an error or bytes that depend on the data and on
    the size of the buffer only, written at its start. *)
Theorem C55_total :
  forall data n, wf_bytes data ->
  (forall buffer, length buffer = n -> lzx_decompress data buffer = Err) \/
  exists content, (length content <= n)%nat /\ wf_bytes content /\
    forall buffer, length buffer = n ->
      lzx_decompress data buffer = Ok (content ++ skipn (length content) buffer, len content).
Proof.
  intros data n Hwf. destruct (decompress_any data n Hwf) as [H | (c & A & B & _ & C)]; [now left | right; eauto].
Qed.
Print Assumptions C55_total.

(** ** A stream *)
(** Three blocks: one with codes, one with codes that change those and with aligned offsets, and one of
    an odd number of uncompressed bytes. A call is among the literals. *)
Fixpoint pack (fuel : nat) (bits : list bool) : list N :=
  match fuel, bits with
  | O, _ | _, [] => []
  | S f, _ =>
      let v := fold_left (fun a (b : bool) => 2 * a + N.b2n b) (firstn 16 (bits ++ repeat false 16)) 0 in
      v mod 256 :: v / 256 :: pack f (skipn 16 bits)
  end.
Definition lengths_with (n : nat) (ls : list (N * N)) : list N :=
  map (fun s => match find (fun p => fst p =? s) ls with Some p => snd p | None => 0 end) (seqN 0 n).
Definition pre1 := Eval vm_compute in lengths_with 20 [(0, 3); (14, 2); (15, 2); (17, 3); (18, 2)].
Definition codes1 := mk_block_codes
  (mk_part pre1 [IDelta 3; IManyZeros 51; IManyZeros 45; IDelta 2; IDelta 3; IManyZeros 51; IManyZeros 51; IManyZeros 31; IDelta 3; IManyZeros 23])
  (mk_part pre1 [IDelta 0; IDelta 2; IManyZeros 37; IDelta 3; IManyZeros 51; IManyZeros 51; IManyZeros 51; IManyZeros 47])
  (mk_part pre1 [IDelta 0; IDelta 2; IManyZeros 51; IManyZeros 51; IManyZeros 51; IManyZeros 51; IManyZeros 39; IZeros 4])
  None.
Definition block1 := Coded codes1
  [XLiteral 97; XLiteral 98; XMatch 4 0 10; XLiteral 232; XLiteral 98; XLiteral 0; XLiteral 0; XLiteral 0; XRecent 0 3].
Definition x1 := Eval vm_compute in context_after first_context block1.
Definition pre2 := Eval vm_compute in lengths_with 20 [(0, 1)].
Definition pre3 := Eval vm_compute in lengths_with 20 [(0, 2); (3, 2); (14, 2); (18, 2)].
Definition codes2 := mk_block_codes
  (mk_part pre2 (map IDelta (firstn 256 (old_main x1))))
  (mk_part pre3 [IDelta 0; IDelta 2; IManyZeros 37; IDelta 0; IManyZeros 25; IDelta 3; IManyZeros 51; IManyZeros 51; IManyZeros 51; IManyZeros 21])
  (mk_part pre2 (map IDelta (old_sizes x1)))
  (Some [1; 0; 0; 0; 0; 0; 0; 2]).
Definition block2 := Coded codes2 [XMatch 8 0 3; XLiteral 97].
Definition position2 := Eval vm_compute in len (block_bits false first_context block1).
Definition position3 := Eval vm_compute in position2 + len (block_bits false x1 block2).
Definition x2 := Eval vm_compute in context_after x1 block2.
Definition padding3 := Eval vm_compute in repeat false (N.to_nat (16 - (position3 + 20) mod 16)).
Definition block3 := Uncompressed padding3 (mk_recents 3 4 5) [1; 2; 3].
Definition C55_blocks := [(false, block1); (false, block2); (false, block3)].
Definition C55_data := Eval vm_compute in let b := blocks_bits first_context C55_blocks in pack (length b) b.
Definition C55_text : list N :=
  [97; 98; 97; 98; 97; 98; 97; 98; 97; 98; 97; 98; 232; 86; 0; 0; 0; 0; 0; 0; 97; 98; 97; 97; 1; 2; 3].

Lemma same_valid pre : coded pre 0 -> forall before, Forall (fun l => l <= 16) before ->
  instructions_valid pre before (map IDelta before).
Proof.
  intros Hc. induction before as [| l before IH]; intros F; [exact I |]. inversion F as [| ? ? Hl Fr]; subst.
  cbn [map instructions_valid hd instruction_valid instruction_lengths length skipn].
  assert (E : delta_symbol l l = 0) by (unfold delta_symbol; replace (l + 17 - l) with 17 by lia; reflexivity).
  rewrite E. auto.
Qed.
Lemma same_lengths before : flat_map instruction_lengths (map IDelta before) = before.
Proof. induction before as [| l r IH]; [reflexivity |]. cbn [map flat_map instruction_lengths app]. now rewrite IH. Qed.
Ltac easy_goal := first
  [ exact I
  | vm_compute; reflexivity
  | vm_compute; discriminate
  | intros H; vm_compute in H; discriminate H ].
Ltac splits := repeat match goal with |- _ /\ _ => split end.
Lemma small_lengths l : forallb (fun v => v <=? 16) l = true -> Forall (fun v => v <= 16) l.
Proof. rewrite forallb_forall, Forall_forall. intros H y Hy. apply N.leb_le. auto. Qed.
Lemma small16 l : forallb (fun v => v <? 16) l = true -> Forall (fun v => v < 16) l.
Proof. rewrite forallb_forall, Forall_forall. intros H y Hy. apply N.ltb_lt. auto. Qed.
Lemma small8 l : forallb (fun v => v <? 8) l = true -> Forall (fun v => v < 8) l.
Proof. rewrite forallb_forall, Forall_forall. intros H y Hy. apply N.ltb_lt. auto. Qed.
Ltac part_goal s := unfold part_valid; splits;
  [ reflexivity | apply small16; vm_compute; reflexivity | exists s; split; vm_compute; reflexivity
  | easy_goal | | vm_compute; reflexivity ].
Ltac instr_goal := cbn [instructions_valid size_instructions instruction_valid]; splits; try (split; vm_compute; reflexivity); try (vm_compute; reflexivity); try (vm_compute; discriminate); try exact I.
Ltac token_goal := cbn [tokens_valid]; unfold token_valid; cbn [slot_of uses_size_code size_of main_symbol aligned_code codes_of]; splits;
  try (vm_compute; reflexivity); try (vm_compute; discriminate); try (split; vm_compute; reflexivity);
  try (intros _; split; vm_compute; reflexivity); try (intros H; vm_compute in H; discriminate H); try exact I.

Lemma block1_valid : block_valid 0 false first_context block1.
Proof.
  unfold block_valid, block1. splits; try easy_goal.
  - unfold codes_valid, codes1. cbn [literal_part match_part size_part aligned_part].
    splits; try exact I; try easy_goal; [part_goal 0; instr_goal | part_goal 0; instr_goal | part_goal 0; instr_goal | exists 97; split; vm_compute; reflexivity].
  - token_goal.
Qed.
Lemma x1_after : context_after first_context block1 = x1. Proof. vm_compute. reflexivity. Qed.
Lemma block2_valid : block_valid position2 false x1 block2.
Proof.
  unfold block_valid, block2. splits; try easy_goal.
  - unfold codes_valid, codes2. cbn [literal_part match_part size_part aligned_part].
    splits; try exact I; try easy_goal.
    + part_goal 0. apply same_valid; [split; vm_compute; reflexivity | apply small_lengths; vm_compute; reflexivity].
    + part_goal 0; instr_goal.
    + part_goal 0. apply same_valid; [split; vm_compute; reflexivity | apply small_lengths; vm_compute; reflexivity].
    + exists 97; split; vm_compute; reflexivity.
    + apply small8. reflexivity.
    + exists 0; split; vm_compute; reflexivity.
  - token_goal.
Qed.
Lemma x2_after : context_after x1 block2 = x2. Proof. vm_compute. reflexivity. Qed.
Lemma block3_valid : block_valid position3 false x2 block3.
Proof.
  unfold block_valid, block3. splits; try easy_goal.
  - repeat constructor.
  - vm_compute. repeat constructor.
  - vm_compute. repeat constructor.
Qed.
Lemma position2_after : 0 + len (block_bits false first_context block1) = position2. Proof. vm_compute. reflexivity. Qed.
Lemma position3_after : position2 + len (block_bits false x1 block2) = position3. Proof. vm_compute. reflexivity. Qed.
Lemma wf_forallb l : forallb (fun v => v <? 256) l = true -> wf_bytes l.
Proof. unfold wf_bytes. rewrite forallb_forall, Forall_forall. intros H y Hy. apply N.ltb_lt. auto. Qed.

Example C55_example : lzx_encodes C55_data C55_blocks [] C55_text /\ blocks_taken 0 first_context C55_blocks /\
  lzx_decompress (C55_data ++ [9; 9; 9]) (repeat 7 27) = Ok (C55_text, 27).
Proof.
  split; [| split].
  - unfold lzx_encodes. splits.
    + apply wf_forallb. vm_compute. reflexivity.
    + vm_compute. reflexivity.
    + cbn [C55_blocks blocks_valid]. rewrite position2_after, x1_after, position3_after, x2_after.
      splits; [apply block1_valid | apply block2_valid | apply block3_valid | exact I].
    + vm_compute. reflexivity.
  - cbn [C55_blocks blocks_taken]. rewrite position2_after, x1_after, position3_after, x2_after. splits; try exact I.
    + exists 1. split; vm_compute; reflexivity.
    + exists 1. split; vm_compute; reflexivity.
    + vm_compute. repeat constructor.
    + left. reflexivity.
  - vm_compute. reflexivity.
Qed.

(** ** What is refused or misread *)
(** No output has fewer than six bytes: a content that short is an error, whatever the stream. *)
Theorem C55_short_refuted :
  (forall data buffer buffer' size, wf_bytes data -> lzx_decompress data buffer = Ok (buffer', size) -> 6 <= size) /\
  exists data bs r content, wf_bytes content /\ len content = 4 /\ lzx_encodes data bs r content /\
    blocks_taken 0 first_context bs.
Proof.
  split.
  - intros data buffer buffer' size Hwf E.
    destruct (decompress_any data (length buffer) Hwf) as [H | (c & _ & _ & Hc & H)]; rewrite (H buffer eq_refl) in E.
    + discriminate E.
    + injection E as _ <-. lia.
  - exists [0; 96; 0; 64; 1; 0; 0; 0; 1; 0; 0; 0; 1; 0; 0; 0; 5; 6; 7; 8],
      [(false, Uncompressed (repeat false 12) (mk_recents 1 1 1) [5; 6; 7; 8])], [], [5; 6; 7; 8].
    splits; try easy_goal; [apply wf_forallb; reflexivity | | ].
    + unfold lzx_encodes. splits; try easy_goal; [apply wf_forallb; reflexivity |].
      cbn [blocks_valid]. splits; try exact I. unfold block_valid. splits; try easy_goal; repeat constructor.
    + cbn [blocks_taken]. splits; try exact I; [vm_compute; repeat constructor | left; reflexivity].
Qed.
Print Assumptions C55_short_refuted.

(** A block that has no use for the code of sizes, and leaves it empty, is an error. *)
Definition codes4 := mk_block_codes (literal_part codes1)
  (mk_part pre1 [IDelta 0; IDelta 2; IManyZeros 37; IDelta 3; IManyZeros 51; IManyZeros 51; IManyZeros 51; IManyZeros 47])
  (mk_part pre1 [IManyZeros 51; IManyZeros 51; IManyZeros 51; IManyZeros 51; IManyZeros 45]) None.
Definition block4 := Coded codes4 [XLiteral 97; XLiteral 98; XLiteral 98; XRecent 0 3].
Definition C55_unsized_data := Eval vm_compute in
  let b := blocks_bits first_context [(false, block4)] in pack (length b) b.
Lemma block4_valid : block_valid 0 false first_context block4.
Proof.
  unfold block_valid, block4. splits; try easy_goal.
  - unfold codes_valid, codes4, codes1. cbn [literal_part match_part size_part aligned_part].
    splits; try exact I; try easy_goal; [part_goal 0; instr_goal | part_goal 0; instr_goal | part_goal 0; instr_goal | exists 97; split; vm_compute; reflexivity].
  - token_goal.
Qed.
Theorem C55_unused_size_code_refuted :
  exists data bs r content, wf_bytes content /\ len content = 6 /\ lzx_encodes data bs r content /\
    lzx_decompress data (repeat 0 6) = Err.
Proof.
  exists C55_unsized_data, [(false, block4)],
    (repeat false (length (word_bits C55_unsized_data) - length (blocks_bits first_context [(false, block4)]))), [97; 98; 98; 98; 98; 98].
  splits; try easy_goal; [apply wf_forallb; reflexivity |].
  unfold lzx_encodes. splits; try easy_goal; [apply wf_forallb; reflexivity |].
  cbn [blocks_valid]. split; [apply block4_valid | exact I].
Qed.
Print Assumptions C55_unused_size_code_refuted.

(** The byte that fills up an uncompressed block of an odd size is taken for part of the next block. *)
Definition odd_blocks :=
  [(false, Uncompressed (repeat false 12) (mk_recents 1 1 1) [1; 2; 3; 4; 5; 6; 7]);
   (false, Uncompressed (repeat false 12) (mk_recents 1 1 1) [8; 9])].
Definition C55_odd_data := Eval vm_compute in
  let b := blocks_bits first_context odd_blocks in pack (length b) b.
Theorem C55_odd_block_refuted :
  exists data bs r content, wf_bytes content /\ len content = 9 /\ lzx_encodes data bs r content /\
    lzx_decompress data (repeat 0 9) = Err.
Proof.
  exists C55_odd_data, odd_blocks, [], [1; 2; 3; 4; 5; 6; 7; 8; 9].
  splits; try easy_goal; [apply wf_forallb; reflexivity |].
  unfold lzx_encodes. splits; try easy_goal; [apply wf_forallb; reflexivity |].
  cbn [odd_blocks blocks_valid]. splits; try exact I; unfold block_valid; splits; try easy_goal; repeat constructor.
Qed.
Print Assumptions C55_odd_block_refuted.

(** When the header of an uncompressed block ends where a word does, 16 bits follow that are not
    skipped. *)
Definition block5 := Coded codes1
  [XLiteral 98; XLiteral 98; XMatch 4 0 10; XLiteral 232; XLiteral 98; XLiteral 0; XLiteral 0; XLiteral 0; XRecent 0 3].
Definition x5 := Eval vm_compute in context_after first_context block5.
Definition position5 := Eval vm_compute in len (block_bits false first_context block5).
Definition full_blocks := [(false, block5); (false, Uncompressed (repeat false 16) (mk_recents 1 1 1) [1; 2])].
Definition C55_full_data := Eval vm_compute in let b := blocks_bits first_context full_blocks in pack (length b) b.
Definition C55_full_text : list N := Eval vm_compute in
  map (fun i => if i =? 13 then 86 else nth (N.to_nat i) (blocks_meaning full_blocks) 0) (seqN 0 (length (blocks_meaning full_blocks))).
Lemma block5_valid : block_valid 0 false first_context block5.
Proof.
  unfold block_valid, block5. splits; try easy_goal.
  - apply block1_valid.
  - token_goal.
Qed.
Lemma x5_after : context_after first_context block5 = x5. Proof. vm_compute. reflexivity. Qed.
Lemma position5_after : 0 + len (block_bits false first_context block5) = position5. Proof. vm_compute. reflexivity. Qed.
Theorem C55_full_padding_refuted :
  exists data bs r content, wf_bytes content /\ len content = 22 /\ lzx_encodes data bs r content /\
    lzx_decompress data (repeat 0 22) <> Ok (content, 22).
Proof.
  exists C55_full_data, full_blocks, [], C55_full_text.
  splits; try easy_goal; [apply wf_forallb; reflexivity |].
  unfold lzx_encodes. splits; try easy_goal; [apply wf_forallb; reflexivity |].
  cbn [full_blocks blocks_valid]. rewrite position5_after, x5_after. splits; try exact I; [apply block5_valid |].
  unfold block_valid; splits; try easy_goal; repeat constructor.
Qed.
Print Assumptions C55_full_padding_refuted.
