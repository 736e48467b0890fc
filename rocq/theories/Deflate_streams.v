From Verif Require Import Base BaseLemmas Lz_model Lz_spec Lz_proofs Lzvn_proofs.
From Verif Require Import Huffman_model Huffman_spec Huffman_proofs Deflate_model Deflate_spec Deflate_proofs.

Ltac Zify.zify_post_hook ::= idtac.

(** ** Blocks *)
Lemma bits_lsb8_inj a b : a < 256 -> b < 256 -> bits_lsb 8 a = bits_lsb 8 b -> a = b.
Proof.
  intros Ha Hb E. rewrite <- (bits_value_lsb 8 a) by exact Ha. rewrite E. now apply bits_value_lsb.
Qed.
Lemma app_inj_len {A} (a b c d : list A) : length a = length c -> a ++ b = c ++ d -> a = c /\ b = d.
Proof.
  revert c. induction a as [| x a IH]; intros [| y c] L E; try discriminate L; [auto |].
  injection E as -> E. injection L as L. destruct (IH c L E) as [-> ->]. auto.
Qed.

Lemma bytes_of_bits l : wf_bytes l -> forall data r, wf_bytes data -> bits_of data = bits_of l ++ r ->
  exists data', data = l ++ data' /\ r = bits_of data'.
Proof.
  induction l as [| b l IH]; intros Hl data r Hd E; [exists data; auto |].
  apply wf_bytes_cons in Hl as [Hb Hl]. rewrite bits_of_cons in E.
  destruct data as [| x data]; [discriminate E |].
  apply wf_bytes_cons in Hd as [Hx Hd]. rewrite bits_of_cons, <- app_assoc in E.
  apply app_inj_len in E as [E1 E2]; [| now rewrite !bits_lsb_length].
  apply bits_lsb8_inj in E1; auto. subst x.
  destruct (IH Hl data r Hd E2) as (data' & -> & ->). exists data'. auto.
Qed.
Lemma slice_of_bits data pre l r q : wf_bytes data -> wf_bytes l -> bits_of data = pre ++ bits_of l ++ r ->
  len pre = 8 * q -> q + len l <= len data /\ slice data q (q + len l) = Ok l /\
    exists pre', bits_of data = pre' ++ r /\ len pre' = 8 * (q + len l).
Proof.
  intros Hd Hl E Hp.
  assert (Hq : q <= len data).
  { assert (H : len (bits_of data) = len pre + len (bits_of l ++ r)) by (rewrite E; apply len_app).
    rewrite len_bits_of in H. lia. }
  assert (Ed : data = firstn (N.to_nat q) data ++ skipn (N.to_nat q) data) by (symmetry; apply firstn_skipn).
  assert (Lf : len (firstn (N.to_nat q) data) = q) by (unfold len in *; rewrite firstn_length; lia).
  rewrite Ed, bits_of_app in E. apply app_inj_len in E as [E1 E2].
  2:{ apply Nat2N.inj. fold (len (bits_of (firstn (N.to_nat q) data))). fold (len pre). rewrite len_bits_of. lia. }
  destruct (bytes_of_bits l Hl _ r (wf_bytes_skipn (N.to_nat q) data Hd) E2) as (data' & Es & ->).
  assert (Ls : len (skipn (N.to_nat q) data) = len l + len data') by (rewrite Es; apply len_app).
  rewrite len_skipn in Ls.
  split; [lia |]. split.
  - rewrite slice_ok by lia. rewrite Es. f_equal. apply firstn_skipn_app. unfold len. lia.
  - exists (bits_of (firstn (N.to_nat q) data ++ l)). split.
    + rewrite <- bits_of_app. f_equal. rewrite <- app_assoc, <- Es. exact Ed.
    + rewrite len_bits_of, len_app, Lf. reflexivity.
Qed.

Lemma lxor_complement x : x <= 65535 -> N.lxor (65535 - x) 65535 = x.
Proof.
  intros H. change (N.lxor (65535 - x) 65535) with (N.lnot (65535 - x) 16).
  rewrite N.lnot_sub_low.
  - change (N.ones 16) with 65535. lia.
  - destruct (N.eq_dec (65535 - x) 0) as [-> | Hne]; [reflexivity |].
    apply N.log2_lt_pow2; [lia |]. change (2 ^ 16) with 65536. lia.
Qed.

Lemma St_le data s p r : St data s p r -> p + len r = 8 * len data.
Proof.
  intros [_ (pre & E & <-)]. rewrite <- len_bits_of, E, len_app. reflexivity.
Qed.

Lemma stored_rt data s p padding l r out rest : wf_bytes data -> len l <= 65535 -> wf_bytes l ->
  (length padding < 8)%nat -> (p + len padding) mod 8 = 0 -> len l <= len rest ->
  St data s p ((padding ++ bits_lsb 16 (len l) ++ bits_lsb 16 (65535 - len l) ++ bits_of l) ++ r) ->
  exists s', block_content data 0 (out ++ rest) (len out) s =
    Ok (out ++ l ++ skipn (length l) rest, len out + len l, s') /\
    St data s' (p + len (padding ++ bits_lsb 16 (len l) ++ bits_lsb 16 (65535 - len l) ++ bits_of l)) r.
Proof.
  intros Hwf Hl Hlw Hpad Hal Hroom Hst. unfold block_content. change (0 =? 0) with true. cbv iota zeta.
  rewrite <- !app_assoc in Hst.
  assert (Hnb : number_of_bits s = len padding).
  { destruct Hst as [[H8 (q & Hq & _)] _]. clear - Hpad Hal H8 Hq. unfold len in *.
    Ltac Zify.zify_post_hook ::= Z.div_mod_to_equations. lia. }
  Ltac Zify.zify_post_hook ::= idtac.
  assert (H1 : exists s1, (if 0 <? N.land (number_of_bits s) 7 then skip_bits data (N.land (number_of_bits s) 7) s else Ok s) = Ok s1
     /\ St data s1 (p + len padding) (bits_lsb 16 (len l) ++ bits_lsb 16 (65535 - len l) ++ bits_of l ++ r)).
  { rewrite Hnb. replace (N.land (len padding) 7) with (len padding).
    2:{ change 7 with (N.ones 3). rewrite N.land_ones. symmetry. apply N.mod_small. unfold len. change (2 ^ 3) with 8. lia. }
    destruct Hst as [Hs (pre & Hpre & Hlp)].
    assert (Hst1 : exists pre', bits_of data = pre' ++ bits_lsb 16 (len l) ++ bits_lsb 16 (65535 - len l) ++ bits_of l ++ r
       /\ len pre' = p + len padding).
    { exists (pre ++ padding). rewrite <- app_assoc, len_app, Hlp. auto. }
    destruct (N.ltb_spec 0 (len padding)) as [H0 | H0].
    - destruct (skip_bits_ok data (len padding) s p Hwf ltac:(unfold len; lia) Hs) as (s1 & E1 & S1).
      exists s1. split; [exact E1 |]. split; auto.
    - exists s. split; [reflexivity |]. split; [| exact Hst1]. replace (p + len padding) with p by lia. exact Hs. }
  destruct H1 as (s1 & E1 & S1). rewrite E1. cbn [bind].
  set (b32 := bits_lsb 16 (len l) ++ bits_lsb 16 (65535 - len l)).
  assert (L32 : len b32 = 32) by reflexivity.
  rewrite app_assoc in S1. fold b32 in S1.
  destruct (St_bits data s1 _ b32 _ Hwf ltac:(rewrite L32; lia) S1) as (s2 & E2 & S2).
  rewrite L32 in E2, S2. rewrite E2. cbn [bind].
  assert (V : bits_value b32 = len l + 65536 * (65535 - len l)).
  { unfold b32. rewrite bits_value_app, !bits_value_lsb by (change (2 ^ N.of_nat 16) with 65536; lia).
    change (len (bits_lsb 16 (len l))) with 16. reflexivity. }
  rewrite V.
  assert (V1 : N.land (len l + 65536 * (65535 - len l)) 65535 = len l).
  { change 65535 with (N.ones 16) at 2. rewrite N.land_ones. change (2 ^ 16) with 65536. clear - Hl.
    rewrite N.mul_comm, N.mod_add by lia. apply N.mod_small. lia. }
  assert (V2 : N.shiftr (len l + 65536 * (65535 - len l)) 16 = 65535 - len l).
  { rewrite N.shiftr_div_pow2. change (2 ^ 16) with 65536. clear - Hl.
    rewrite N.mul_comm, N.div_add by lia. rewrite N.div_small by lia. lia. }
  rewrite V1, V2, lxor_complement, N.eqb_refl by exact Hl. cbn [check bind].
  assert (Lb : len (padding ++ bits_lsb 16 (len l) ++ bits_lsb 16 (65535 - len l) ++ bits_of l) =
     len padding + 32 + 8 * len l).
  { rewrite !len_app, len_bits_of. change (len (bits_lsb 16 (len l))) with 16.
    change (len (bits_lsb 16 (65535 - len l))) with 16. lia. }
  rewrite Lb.
  destruct (N.ltb_spec 0 (len l)) as [H0 | H0].
  - destruct S2 as [[H8 (q & Hq & Ho & _)] (pre & Hpre & Hlp)].
    assert (Hp8 : p + len padding + 32 = 8 * ((p + len padding) / 8 + 4)).
    { pose proof (N.div_mod (p + len padding) 8 ltac:(lia)) as D. rewrite Hal in D. lia. }
    assert (Hn0 : number_of_bits s2 = 0) by lia.
    assert (Hp8q : len pre = 8 * q) by lia.
    destruct (slice_of_bits data pre l r q Hwf Hlw Hpre Hp8q) as (Hend & Esl & pre' & Hpre' & Hlp').
    assert (Ho' : data_offset s2 = q) by (clear - Ho Hend; lia).
    unfold copy_bytes. rewrite Ho'.
    destruct (N.leb_spec (q + len l) (len data)); [| lia]. cbn [check bind].
    rewrite len_app. destruct (N.leb_spec (len out + len l) (len out + len rest)); [| lia]. cbn [check bind].
    rewrite Esl. cbn [bind]. rewrite write_end by exact Hroom. cbn [bind].
    eexists. split; [reflexivity |]. split.
    + replace (p + (len padding + 32 + 8 * len l)) with (8 * (q + len l)) by lia. apply SR_start. exact Hend.
    + exists pre'. split; [exact Hpre' |]. rewrite Hlp'. lia.
  - destruct l as [| x l]; [| rewrite len_cons in H0; lia].
    exists s2. cbn [app length skipn]. change (len (@nil N)) with 0 in *. rewrite N.add_0_r. split; [reflexivity |].
    rewrite N.mul_0_r, N.add_0_r, N.add_assoc. exact S2.
Qed.

Definition block_type_of (b : stream_block) : N :=
  match b with Stored _ _ => 0 | Fixed _ => 1 | Dynamic _ _ => 2 end.
Definition content_bits (b : stream_block) : list bool :=
  match b with
  | Stored padding l => padding ++ bits_lsb 16 (len l) ++ bits_lsb 16 (65535 - len l) ++ bits_of l
  | Fixed ts => tokens_bits fixed_literals fixed_distances ts
  | Dynamic h ts => header_bits h ++ tokens_bits (literal_lengths h) (distance_lengths h) ts
  end.
Lemma block_bits_split last b : block_bits last b = ([last] ++ bits_lsb 2 (block_type_of b)) ++ content_bits b.
Proof. destruct b; reflexivity. Qed.

Lemma block_meaning_app out b : exists w, block_meaning out b = out ++ w.
Proof. destruct b; cbn [block_meaning]; [eauto | apply tokens_meaning_app | apply tokens_meaning_app]. Qed.

Lemma block_content_rt data b r out rest s p : wf_bytes data -> has_distance_code b ->
  block_valid p out b -> len (block_meaning out b) <= len out + len rest ->
  St data s (p + 3) (content_bits b ++ r) ->
  exists s', block_content data (block_type_of b) (out ++ rest) (len out) s =
    Ok (block_meaning out b ++ skipn (length (block_meaning out b) - length out) rest,
        len (block_meaning out b), s') /\
    St data s' (p + 3 + len (content_bits b)) r.
Proof.
  intros Hwf Hd Hv Hl Hst. destruct b as [padding l | ts | h ts]; cbn [block_type_of content_bits block_meaning] in *.
  - destruct Hv as (H1 & H2 & H3 & H4). rewrite len_app in Hl.
    destruct (stored_rt data s _ padding l r out rest Hwf H1 H2 H3 H4 ltac:(lia) Hst) as (s' & E & S').
    exists s'. split; [| exact S']. rewrite E, <- app_assoc, len_app, app_length. replace (length out + length l - length out)%nat with (length l) by lia. reflexivity.
  - unfold block_content. change (1 =? 0) with false. change (1 =? 1) with true. cbv iota.
    destruct fixed_trees as (l & d & E & Tl & Td). rewrite E. cbn [bind].
    apply huffman_block_rt with (1 := Hwf) (2 := Tl) (3 := Td); auto.
    + split; [reflexivity | reflexivity].
    + unfold block_fuel. rewrite app_length. unfold len. lia.
  - destruct Hv as [Hh Hv]. unfold block_content. change (2 =? 0) with false. change (2 =? 1) with false.
    change (2 =? 2) with true. cbv iota. rewrite <- app_assoc in Hst.
    destruct (build_dynamic_rt data s _ h _ Hwf Hh Hd Hst) as (l & d & s1 & E & Tl & Td & S1).
    rewrite E. cbn [bind]. rewrite len_app, N.add_assoc.
    apply huffman_block_rt with (1 := Hwf) (2 := Tl) (3 := Td); auto.
    + destruct Hh as (_ & _ & _ & _ & _ & _ & _ & _ & _ & _ & _ & _ & _ & H). exact H.
    + unfold block_fuel. rewrite app_length. unfold len. lia.
Qed.

Lemma deflate_block_rt data b last r out rest s p : wf_bytes data -> has_distance_code b ->
  block_valid p out b -> len (block_meaning out b) <= len out + len rest ->
  St data s p (block_bits last b ++ r) ->
  exists s', deflate_block data (out ++ rest) (len out) s =
    Ok (block_meaning out b ++ skipn (length (block_meaning out b) - length out) rest,
        len (block_meaning out b), s', last) /\
    St data s' (p + len (block_bits last b)) r.
Proof.
  intros Hwf Hd Hv Hl Hst. rewrite block_bits_split, <- app_assoc in Hst. unfold deflate_block.
  set (b3 := [last] ++ bits_lsb 2 (block_type_of b)) in *.
  assert (L3 : len b3 = 3) by reflexivity.
  destruct (St_bits data s p b3 _ Hwf ltac:(rewrite L3; lia) Hst) as (s1 & E1 & S1).
  rewrite L3 in E1, S1. rewrite E1. cbn [bind].
  assert (V : N.land (bits_value b3) 1 = N.b2n last /\ N.shiftr (bits_value b3) 1 = block_type_of b).
  { unfold b3. destruct last, b; split; reflexivity. }
  destruct V as [V1 V2]. rewrite V1, V2.
  destruct (block_content_rt data b r out rest s1 p Hwf Hd Hv Hl S1) as (s2 & E2 & S2).
  rewrite E2. cbn [bind]. exists s2. split.
  - do 3 f_equal. destruct last; reflexivity.
  - rewrite block_bits_split. fold b3. rewrite len_app, L3, N.add_assoc. exact S2.
Qed.

Lemma block_bits_min last b out p : block_valid p out b -> 10 <= len (block_bits last b).
Proof.
  intros Hv. rewrite block_bits_split, len_app.
  change (len ([last] ++ bits_lsb 2 (block_type_of b))) with 3.
  destruct b as [padding l | ts | h ts]; cbn [content_bits].
  - rewrite !len_app. change (len (bits_lsb 16 (len l))) with 16. lia.
  - unfold tokens_bits. rewrite len_app. change (len (code_word fixed_literals 256)) with 7. lia.
  - unfold header_bits. rewrite !len_app.
    change (len (bits_lsb 5 (number_of_literals h - 257))) with 5.
    change (len (bits_lsb 5 (number_of_distances h - 1))) with 5. lia.
Qed.

Lemma more_data data s p bs r : St data s p (bs ++ r) -> 8 <= len bs -> data_offset s < len data.
Proof.
  intros Hst Hb. pose proof (St_le _ _ _ _ Hst) as L. rewrite len_app in L.
  destruct Hst as [[H8 (q & Hq & Ho & _)] _]. lia.
Qed.

Lemma blocks_cons b c bs : blocks_bits (b :: c :: bs) = block_bits false b ++ blocks_bits (c :: bs).
Proof. reflexivity. Qed.

Lemma blocks_meaning_app bs : forall out, exists w, fold_left block_meaning bs out = out ++ w.
Proof.
  induction bs as [| b bs IH]; intros out; cbn [fold_left]; [exists []; now rewrite app_nil_r |].
  destruct (block_meaning_app out b) as (w & ->). destruct (IH (out ++ w)) as (w' & ->).
  exists (w ++ w'). now rewrite app_assoc.
Qed.

Lemma deflate_loop_rt data r : wf_bytes data -> forall bs fuel out rest s p,
  Forall has_distance_code bs -> blocks_valid p out bs ->
  len (fold_left block_meaning bs out) <= len out + len rest ->
  8 * len data - p < N.of_nat fuel -> St data s p (blocks_bits bs ++ r) ->
  exists s', deflate_loop fuel data (out ++ rest) (len out) s =
    Ok (fold_left block_meaning bs out ++ skipn (length (fold_left block_meaning bs out) - length out) rest,
        len (fold_left block_meaning bs out), s') /\
    St data s' (p + len (blocks_bits bs)) r.
Proof.
  intros Hwf. induction bs as [| b bs IH]; intros fuel out rest s p Hd Hv Hl Hf Hst; [contradiction |].
  apply Forall_cons_iff in Hd as [Hdb Hd].
  destruct fuel as [| fuel]; [lia |]. cbn [deflate_loop].
  destruct bs as [| c bs].
  - cbn [blocks_bits blocks_valid fold_left] in *.
    pose proof (more_data _ _ _ _ _ Hst ltac:(pose proof (block_bits_min true b out p Hv); lia)) as Hm.
    destruct (N.ltb_spec (data_offset s) (len data)); [| lia].
    destruct (deflate_block_rt data b true r out rest s p Hwf Hdb Hv Hl Hst) as (s' & E & S').
    rewrite E. cbn [bind]. eauto.
  - rewrite blocks_cons in *. rewrite <- app_assoc in Hst.
    cbn [blocks_valid] in Hv. destruct Hv as [Hvb Hv].
    pose proof (more_data _ _ _ _ _ Hst ltac:(pose proof (block_bits_min false b out p Hvb); lia)) as Hm.
    destruct (N.ltb_spec (data_offset s) (len data)); [| lia].
    pose proof (St_le _ _ _ _ Hst) as Hle. rewrite !len_app in Hle.
    pose proof (block_bits_min false b out p Hvb) as Hmin.
    cbn [fold_left] in *. destruct (block_meaning_app out b) as (w & Ew).
    destruct (blocks_meaning_app (c :: bs) (block_meaning out b)) as (w' & Ew'). cbn [fold_left] in Ew'.
    assert (Hlb : len (block_meaning out b) <= len out + len rest).
    { rewrite Ew', len_app in Hl. lia. }
    destruct (deflate_block_rt data b false _ out rest s p Hwf Hdb Hvb Hlb Hst) as (s1 & E & S1).
    rewrite E. cbn [bind].
    assert (Hfuel : 8 * len data - (p + len (block_bits false b)) < N.of_nat fuel) by lia.
    assert (Hlen : len (fold_left block_meaning bs (block_meaning (block_meaning out b) c)) <=
       len (block_meaning out b) + len (skipn (length (block_meaning out b) - length out) rest)).
    { rewrite Ew' in Hl |- *. rewrite Ew in Hl |- *. rewrite !len_app in *.
      rewrite len_skipn, app_length. clear - Hl. unfold len in *. lia. }
    destruct (IH fuel (block_meaning out b) _ s1 _ Hd Hv Hlen Hfuel S1) as (s' & E' & S').
    cbn [fold_left] in E'. rewrite E'. exists s'. split.
    + do 4 f_equal. rewrite skipn_skipn. f_equal. rewrite Ew', Ew, !app_length. lia.
    + rewrite len_app, N.add_assoc. exact S'.
Qed.

(** The position matters only up to whole bytes. *)
Lemma block_valid_shift b out p k : block_valid (8 * k + p) out b <-> block_valid p out b.
Proof.
  destruct b; cbn [block_valid]; try reflexivity.
  replace ((8 * k + p + 3 + len padding) mod 8) with ((p + 3 + len padding) mod 8); [reflexivity |].
  replace (8 * k + p + 3 + len padding) with (p + 3 + len padding + k * 8) by lia.
  now rewrite N.mod_add by lia.
Qed.
Lemma blocks_valid_shift k : forall bs out p, blocks_valid (8 * k + p) out bs <-> blocks_valid p out bs.
Proof.
  induction bs as [| b bs IH]; intros out p; [reflexivity |]. cbn [blocks_valid]. destruct bs as [| c bs].
  - apply block_valid_shift.
  - rewrite block_valid_shift, <- N.add_assoc, IH. reflexivity.
Qed.

Lemma decompress_bitstream_rt data start bs r buf : wf_bytes data -> start <= len data ->
  bits_of (skipn (N.to_nat start) data) = blocks_bits bs ++ r ->
  blocks_valid 0 [] bs -> Forall has_distance_code bs -> len (blocks_meaning bs) <= len buf ->
  exists s', decompress_bitstream data start buf =
    Ok (blocks_meaning bs ++ skipn (length (blocks_meaning bs)) buf, len (blocks_meaning bs), s') /\
    St data s' (8 * start + len (blocks_bits bs)) r.
Proof.
  intros Hwf Hs Hb Hv Hd Hl. unfold decompress_bitstream, blocks_meaning in *.
  destruct (deflate_loop_rt data r Hwf bs (S (8 * length data)) [] buf (mk_bits start 0 0) (8 * start) Hd) as (s' & E & S').
  - replace (8 * start) with (8 * start + 0) by lia. now apply blocks_valid_shift.
  - change (len (@nil N)) with 0. lia.
  - unfold len. lia.
  - split; [now apply SR_start |]. exists (bits_of (firstn (N.to_nat start) data)).
    rewrite <- Hb, <- bits_of_app, firstn_skipn, len_bits_of. split; [reflexivity |].
    unfold len in *. rewrite firstn_length. lia.
  - exists s'. change (len (@nil N)) with 0 in E. cbn [app length] in E. rewrite Nat.sub_0_r in E. auto.
Qed.

Lemma decompress_bitstream_safe data start n : wf_bytes data -> start <= len data ->
  outcome data [] n (8 * start) (fun buf => decompress_bitstream data start buf).
Proof.
  intros Hwf Hs. apply (deflate_loop_safe data Hwf (S (8 * length data)) [] n (mk_bits start 0 0)).
  - now apply SR_start.
  - unfold len. lia.
Qed.
