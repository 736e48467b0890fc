From Verif Require Import Base BaseLemmas Lz_model Lz_spec Lz_proofs Lzvn_proofs.
From Verif Require Import Huffman_model Huffman_spec Huffman_proofs Bzip2_proofs Bytes_model.
From Verif Require Import P_C09 Lzx_model Lzx_spec Lzx_proofs.
Ltac Zify.zify_post_hook ::= idtac.

(** ** Coded blocks *)
Definition cx_ok (x : lzx_context) : Prop :=
  length (old_main x) = 496%nat /\ Forall (fun l => l <= 16) (old_main x) /\
  length (old_sizes x) = 249%nat /\ Forall (fun l => l <= 16) (old_sizes x).
Definition state_of (x : lzx_context) (rest : list N) (s : lzx_stream) : lzx_state :=
  mk_lzx_state (output x ++ rest) (len (output x)) (rl (distances x)) (old_main x) (old_sizes x) s.
Definition room_after (x : lzx_context) (b : lzx_block_of) (rest : list N) : list N :=
  skipn (N.to_nat (block_size x b)) rest.

Lemma part_small pre : forall is before, instructions_valid pre before is ->
  Forall (fun l => l <= 16) (flat_map instruction_lengths is).
Proof.
  assert (R : forall v n, v <= 16 -> Forall (fun l => l <= 16) (repeat v n)).
  { intros v n H. apply Forall_forall. intros y Hy. apply repeat_spec in Hy. now subst. }
  induction is as [| i is IH]; intros before H; [constructor |]. cbn [instructions_valid flat_map] in *.
  destruct H as [Hi H]. apply Forall_app. split; [| eauto].
  destruct i; cbn [instruction_valid instruction_lengths] in *; [constructor; [tauto | constructor] | apply R; lia .. |].
  apply R. tauto.
Qed.
Lemma output_grows x b : exists w, output (context_after x b) = output x ++ w /\ len w = block_size x b.
Proof.
  assert (E : exists w, output (context_after x b) = output x ++ w).
  { destruct b; cbn [context_after output]; [apply tokens_grow | eauto]. }
  destruct E as (w & E). exists w. split; [exact E |]. unfold block_size. rewrite E, len_app. lia.
Qed.

Lemma codes_after x h ts : cx_ok x -> codes_valid x h -> cx_ok (context_after x (Coded h ts)).
Proof.
  intros (C1 & C2 & C3 & C4) (V1 & V2 & V3 & _). unfold cx_ok. cbn [context_after old_main old_sizes codes_of main_code size_code].
  destruct V1 as (_ & _ & _ & _ & I1 & L1). destruct V2 as (_ & _ & _ & _ & I2 & L2). destruct V3 as (_ & _ & _ & _ & I3 & L3).
  rewrite app_length, L1, L2, L3, firstn_length, skipn_length, C1, C3. repeat split.
  - apply Forall_app. split; eapply part_small; eassumption.
  - eapply part_small; eassumption.
Qed.

Lemma coded_rt data x h ts rest s0 s r : wf_bytes data -> cx_ok x -> codes_valid x h ->
  (exists y, coded (size_code (codes_of h)) y) -> tokens_valid (codes_of h) (distances x) (output x) ts ->
  block_size x (Coded h ts) <= len rest ->
  Rt data s (codes_bits x h ++ flat_map (token_bits (codes_of h)) ts ++ r) ->
  exists s', lzx_coded_block data (block_kind (Coded h ts)) (block_size x (Coded h ts)) (state_of x rest s0) s =
    Ok (state_of (context_after x (Coded h ts)) (room_after x (Coded h ts) rest) s') /\ Rt data s' r.
Proof.
  intros Hwf Hx Hc Hy Hv Hroom Hst. pose proof (codes_after x h ts Hx Hc) as Hx'.
  destruct Hx as (C1 & C2 & C3 & C4). destruct Hc as (V1 & V2 & V3 & Vc & Vo & Vs & Va).
  unfold lzx_coded_block. unfold codes_bits in Hst. rewrite <- !app_assoc in Hst.
  assert (Hal : exists at_ s1, (if block_kind (Coded h ts) =? 2 then
       '(code_sizes, s) <- read_values 8 data 3 s ;;
       tree <- huffman_build (huffman_new 256 16) code_sizes ;;
       Ok (Some tree, s)
     else Ok (None, s)) = Ok (at_, s1) /\ aligned_tree (aligned_code (codes_of h)) at_ /\
     Rt data s1 (part_bits (firstn 256 (old_main x)) (literal_part h) ++
       part_bits (skipn 256 (old_main x)) (match_part h) ++ part_bits (old_sizes x) (size_part h) ++
       flat_map (token_bits (codes_of h)) ts ++ r)).
  { cbn [block_kind codes_of aligned_code]. destruct (aligned_part h) as [a |].
    - change (2 =? 2) with true. cbv iota. destruct Va as (L8 & F8 & Ca & Oa).
      destruct (read_values_rt data 3 _ Hwf ltac:(lia) a s F8 Hst) as (s1 & E1 & S1).
      rewrite L8 in E1. change (N.of_nat 3) with 3 in E1. rewrite E1. cbn [bind].
      destruct (build_rt 256 16 a) as (t & Et & Tt); auto; try lia.
      { unfold len. rewrite L8. lia. }
      { eapply Forall_impl; [| exact F8]. cbv beta. intros. change (2 ^ N.of_nat 3) with 8 in *. lia. }
      rewrite Et. cbn [bind]. exists (Some t), s1. cbn [aligned_tree]. auto.
    - exists None, s. cbn [aligned_tree]. auto. }
  destruct Hal as (at_ & s1 & -> & Ha & S1). cbn [bind]. unfold state_of. cbn [lx_literals lx_matches lx_buffer lx_offset lx_recent].
  assert (L496 : len (old_main x) = 496) by (unfold len; rewrite C1; reflexivity).
  rewrite slice_ok by lia. cbn [bind].
  change (skipn (N.to_nat 0) (old_main x)) with (old_main x). change (N.to_nat (256 - 0)) with 256%nat.
  destruct (code_sizes_rt data (firstn 256 (old_main x)) (literal_part h) s1 _ Hwf V1 (Forall_first _ _ _ C2) S1) as (s2 & E2 & S2).
  replace (len (firstn 256 (old_main x))) with 256 in E2 by (unfold len; rewrite firstn_length, C1; reflexivity).
  rewrite E2. cbn [bind]. rewrite slice_ok by lia. cbn [bind].
  change (N.to_nat (496 - 256)) with 240%nat. change (N.to_nat 256) with 256%nat.
  rewrite (firstn_all2 (skipn 256 (old_main x))) by (rewrite skipn_length, C1; lia).
  destruct (code_sizes_rt data (skipn 256 (old_main x)) (match_part h) s2 _ Hwf V2 (Forall_skip _ _ _ C2) S2) as (s3 & E3 & S3).
  replace (len (skipn 256 (old_main x))) with 240 in E3 by (unfold len; rewrite skipn_length, C1; reflexivity).
  rewrite E3. cbn [bind].
  destruct Hx' as (C1' & C2' & C3' & C4'). cbn [context_after old_main old_sizes codes_of main_code size_code] in C1', C2', C3', C4'.
  cbn [codes_of main_code size_code aligned_code] in Vc, Vo, Vs, Hy, Ha.
  destruct (build_rt 496 16 (part_lengths (literal_part h) ++ part_lengths (match_part h))) as (tl & Etl & Ttl); auto; try lia.
  { unfold len. rewrite C1'. lia. }
  rewrite Etl. cbn [bind].
  destruct (code_sizes_rt data (old_sizes x) (size_part h) s3 _ Hwf V3 C4 S3) as (s4 & E4 & S4).
  replace (len (old_sizes x)) with 249 in E4 by (unfold len; rewrite C3; reflexivity).
  rewrite E4. cbn [bind].
  destruct (build_rt 249 16 (part_lengths (size_part h))) as (tm & Etm & Ttm); auto; try lia.
  { unfold len. rewrite C3'. lia. }
  rewrite Etm. cbn [bind].
  destruct (output_grows x (Coded h ts)) as (w & Ew & Lw). cbn [context_after output] in Ew.
  assert (Hend : len (output x) + block_size x (Coded h ts) = len (tokens_meaning (distances x) (output x) ts)).
  { rewrite Ew, len_app, Lw. reflexivity. }
  rewrite Hend.
  destruct (huffman_block_rt data (codes_of h) tl tm at_ r Hwf Ttl Ttm Ha ts
    (lzx_fuel (output x ++ rest) (len (output x))) (distances x) (output x) rest s4 Hv) as (s5 & E5 & S5); auto.
  { rewrite <- Hend. lia. }
  { unfold lzx_fuel. rewrite app_length. unfold len. lia. }
  rewrite E5. cbn [bind]. exists s5. split; [| exact S5].
  unfold state_of, room_after. cbn [context_after output distances old_main old_sizes codes_of main_code size_code].
  rewrite <- Lw. rewrite Ew at 2. rewrite app_length. replace (length (output x) + length w - length (output x))%nat with (N.to_nat (len w)) by (unfold len; lia). reflexivity.
Qed.

(** ** Uncompressed blocks *)
Lemma word_bits_length l : len (word_bits l) = 16 * (len l / 2).
Proof.
  assert (H : forall n l, (length l <= n)%nat -> len (word_bits l) = 16 * (len l / 2)).
  { induction n as [| n IH]; intros [| a [| b m]] Hl; try reflexivity; cbn [length] in Hl; [lia |].
    cbn [word_bits]. rewrite len_app, IH by lia. rewrite !len_cons.
    replace (len m + 1 + 1) with (len m + 1 * 2) by lia. rewrite N.div_add by lia.
    replace (len (bits_msb 16 (a + 256 * b))) with 16 by (unfold len; rewrite bits_msb_length; reflexivity). lia. }
  apply (H (length l)). lia.
Qed.
Lemma bytes_of_words : forall l d r, N.even (len l) = true -> wf_bytes l -> wf_bytes d -> word_bits d = word_bits l ++ r ->
  exists d', d = l ++ d' /\ word_bits d' = r.
Proof.
  assert (H : forall n l d r, (length l <= n)%nat -> N.even (len l) = true -> wf_bytes l -> wf_bytes d ->
    word_bits d = word_bits l ++ r -> exists d', d = l ++ d' /\ word_bits d' = r).
  { induction n as [| n IH]; intros [| a [| b l]] d r Hn He Hl Hd E; cbn [length] in Hn; try lia;
      try (exists d; split; [reflexivity | exact E]); [discriminate He |].
    destruct d as [| a' [| b' d]]; try discriminate E. cbn [word_bits] in E. rewrite <- app_assoc in E.
    apply app_inj_length in E as [E1 E2]; [| now rewrite !bits_msb_length].
    apply wf_bytes_cons in Hl as [Ha Hl]. apply wf_bytes_cons in Hl as [Hb Hl].
    apply wf_bytes_cons in Hd as [Ha' Hd]. apply wf_bytes_cons in Hd as [Hb' Hd].
    apply bits_msb_inj in E1; [| change (2 ^ N.of_nat 16) with 65536; lia ..].
    assert (a' = a /\ b' = b) as [-> ->].
    { assert (Q : forall u v, u < 256 -> (u + 256 * v) mod 256 = u).
      { intros u v Hu. rewrite N.mul_comm, N.mod_add by lia. now apply N.mod_small. }
      assert (a' = a) by (rewrite <- (Q a' b' Ha'), E1; now apply Q). split; [assumption | lia]. }
    destruct (IH l d r ltac:(lia)) as (d' & -> & Er); auto.
    - rewrite !len_cons, !N.even_add in He. change (N.even 1) with false in He. now destruct (N.even (len l)).
    - exists d'. auto. }
  intros l d r. apply (H (length l)). lia.
Qed.
Lemma slice_prefix {A} (data : list A) o a b : skipn (N.to_nat o) data = a ++ b -> o <= len data ->
  o + len a <= len data /\ slice data o (o + len a) = Ok a /\ skipn (N.to_nat (o + len a)) data = b.
Proof.
  intros E Ho. assert (L : len (skipn (N.to_nat o) data) = len a + len b) by (rewrite E; apply len_app).
  rewrite len_skipn in L. split; [lia |]. split.
  - rewrite slice_ok by lia. rewrite E. f_equal. replace (N.to_nat (o + len a - o)) with (length a) by (unfold len; lia).
    rewrite firstn_app, firstn_all, Nat.sub_diag. cbn [firstn]. apply app_nil_r.
  - replace (N.to_nat (o + len a)) with (length a + N.to_nat o)%nat by (unfold len; lia).
    rewrite <- skipn_skipn, E. rewrite skipn_app, skipn_all, Nat.sub_diag. reflexivity.
Qed.
Lemma fill_even l : N.even (len (l ++ fill l)) = true.
Proof.
  rewrite len_app, N.even_add. unfold fill. rewrite <- (N.negb_even (len l)).
  destruct (N.even (len l)) eqn:E; cbn [negb len]; rewrite ?E; reflexivity.
Qed.

Lemma uncompressed_rt data x padding q l rest s0 s r : wf_bytes data -> cx_ok x ->
  wf_bytes l -> 1 <= len l -> x_count s = len padding ->
  1 <= recent0 q < 2 ^ 32 -> 1 <= recent1 q < 2 ^ 32 -> 1 <= recent2 q < 2 ^ 32 ->
  len l <= len rest ->
  Rt data s (padding ++ word_bits (recents_bytes q ++ l ++ fill l) ++ r) ->
  exists s', lzx_uncompressed_block data (len l) (state_of x rest s0) s =
    Ok (state_of (context_after x (Uncompressed padding q l)) (skipn (length l) rest) s') /\ inv data s' /\
    (N.odd (len l) = false -> Rt data s' r).
Proof.
  intros Hwf Hx Hl Hl1 Hcnt Hq0 Hq1 Hq2 Hroom ((I1 & I2 & I3) & Hleft & Hev).
  unfold left_bits in Hleft. apply app_inj_length in Hleft as [_ Hw].
  2:{ rewrite bits_msb_length, Hcnt. unfold len. lia. }
  assert (L12 : len (recents_bytes q) = 12) by reflexivity.
  assert (Wq : wf_bytes (recents_bytes q)) by (unfold recents_bytes; rewrite !wf_bytes_app; auto using le_bytes_wf).
  apply bytes_of_words in Hw as (d & Ed & Er).
  2:{ rewrite len_app, N.even_add, L12, fill_even. reflexivity. }
  2:{ apply wf_bytes_app. split; [exact Wq |]. apply wf_bytes_app. split; [exact Hl |].
      unfold fill. destruct (N.odd (len l)); repeat constructor. }
  2:{ apply wf_bytes_skipn. exact Hwf. }
  set (o := x_offset s) in *.
  unfold recents_bytes in Ed. rewrite <- !app_assoc in Ed.
  destruct (slice_prefix _ _ _ _ Ed I1) as (P0 & S0 & K0). change (len (le_bytes 4 (recent0 q))) with 4 in *.
  destruct (slice_prefix _ _ _ _ K0 ltac:(lia)) as (P1 & S1 & K1). change (len (le_bytes 4 (recent1 q))) with 4 in *.
  destruct (slice_prefix _ _ _ _ K1 ltac:(lia)) as (P2 & S2 & K2). change (len (le_bytes 4 (recent2 q))) with 4 in *.
  replace (o + 4 + 4) with (o + 8) in * by lia. replace (o + 8 + 4) with (o + 12) in * by lia.
  destruct (slice_prefix _ _ _ _ K2 ltac:(lia)) as (P3 & S3 & K3).
  unfold lzx_uncompressed_block. fold o. unfold sub_chk at 1. destruct (N.leb_spec o (len data)); [| lia]. cbn [bind].
  destruct (N.leb_spec 12 (len data - o)); [| lia]. cbn [check bind].
  unfold u32_le_at. rewrite S0. replace (o + 4 + 4) with (o + 8) by lia. replace (o + 8 + 4) with (o + 12) by lia.
  rewrite S1, S2. cbn [bind].
  rewrite !le_value_le_bytes. change (256 ^ N.of_nat 4) with (2 ^ 32). rewrite !N.mod_small by lia.
  destruct (N.eqb_spec (recent0 q) 0); [lia |]. destruct (N.eqb_spec (recent1 q) 0); [lia |].
  destruct (N.eqb_spec (recent2 q) 0); [lia |]. cbn [negb check bind x_offset].
  unfold sub_chk. destruct (N.leb_spec (o + 12) (len data)); [| lia]. cbn [bind].
  rewrite N.min_l by lia.
  unfold x_copy_bytes. cbn [x_offset]. destruct (N.leb_spec (o + 12 + len l) (len data)); [| lia]. cbn [check bind].
  unfold state_of. cbn [lx_buffer lx_offset lx_literals lx_matches]. rewrite len_app.
  destruct (N.leb_spec (len (output x) + len l) (len (output x) + len rest)); [| lia]. cbn [check bind].
  rewrite S3. cbn [bind]. rewrite write_end by exact Hroom. cbn [bind].
  eexists. split; [| split].
  - cbn [context_after output distances old_main old_sizes]. rewrite len_app, <- app_assoc. reflexivity.
  - repeat split; cbn [x_offset x_count x_bits]; try lia.
  - intros Hodd. split; [| split].
    + repeat split; cbn [x_offset x_count x_bits]; try lia.
    + unfold left_bits. cbn [x_offset x_count x_bits N.to_nat bits_msb app].
      unfold fill in K3. rewrite Hodd in K3. cbn [app] in K3. rewrite K3. exact Er.
    + cbn [x_offset]. rewrite !N.even_add, Hev. rewrite <- N.negb_even in Hodd. destruct (N.even (len l)); [reflexivity | discriminate Hodd].
Qed.

(** ** All blocks *)
Definition context_of (x : lzx_context) (bs : list (bool * lzx_block_of)) : lzx_context :=
  fold_left (fun x b => context_after x (snd b)) bs x.
Lemma context_grows bs : forall x, exists w, output (context_of x bs) = output x ++ w.
Proof.
  induction bs as [| [sh b] bs IH]; intros x; [exists []; now rewrite app_nil_r |].
  unfold context_of. cbn [fold_left snd]. destruct (IH (context_after x b)) as (w & E). unfold context_of in E. rewrite E.
  destruct (output_grows x b) as (w' & -> & _). rewrite <- app_assoc. eauto.
Qed.
Lemma Rt_left data s r : Rt data s r -> len r = x_count s + 16 * ((len data - x_offset s) / 2).
Proof.
  intros ((I1 & I2 & I3) & <- & _). unfold left_bits. rewrite len_app, word_bits_length, len_skipn, N2Nat.id.
  unfold len at 1. rewrite bits_msb_length. lia.
Qed.
Lemma Rt_more data s r : Rt data s r -> 16 <= len r -> x_offset s < len data.
Proof.
  intros H Hr. pose proof (Rt_left _ _ _ H) as L. destruct H as ((I1 & I2 & I3) & _).
  destruct (N.lt_ge_cases (x_offset s) (len data)); [assumption |].
  replace (len data - x_offset s) with 0 in L by lia. change (0 / 2) with 0 in L. lia.
Qed.
Lemma header_rt data x sh b s r : wf_bytes data -> 1 <= block_size x b <= 65535 -> (sh = true -> block_size x b = 32768) ->
  Rt data s (header_bits sh x b ++ r) -> forall (k : N -> N -> lzx_stream -> res lzx_state), exists s',
  ('(block_type, s) <- x_get_value data 3 s ;;
   '(flag, s) <- x_get_value data 1 s ;;
   '(block_size, s) <- (if flag =? 0 then x_get_value data 16 s else Ok (32768, s)) ;;
   k block_type block_size s) = k (block_kind b) (block_size x b) s' /\ Rt data s' r.
Proof.
  intros Hwf Hs Hsh Hst k. unfold header_bits in Hst. rewrite <- app_assoc in Hst.
  assert (Hk : block_kind b < 2 ^ N.of_nat 3) by (destruct b; cbn [block_kind]; [destruct (aligned_part h) |]; reflexivity).
  destruct (Rt_value data s 3 (block_kind b) _ Hwf ltac:(lia) Hk Hst) as (s1 & E1 & S1).
  change (N.of_nat 3) with 3 in E1. rewrite E1. cbn [bind]. destruct sh.
  - destruct (Rt_value data s1 1 1 _ Hwf ltac:(lia) ltac:(reflexivity) S1) as (s2 & E2 & S2).
    change (N.of_nat 1) with 1 in E2. rewrite E2. cbn [bind]. change (1 =? 0) with false. cbv iota. cbn [bind].
    exists s2. rewrite Hsh by reflexivity. auto.
  - cbn [app] in S1. assert (S1' : Rt data s1 (bits_msb 1 0 ++ bits_msb 16 (block_size x b) ++ r)) by exact S1.
    destruct (Rt_value data s1 1 0 _ Hwf ltac:(lia) ltac:(reflexivity) S1') as (s2 & E2 & S2).
    change (N.of_nat 1) with 1 in E2. rewrite E2. cbn [bind]. change (0 =? 0) with true. cbv iota.
    destruct (Rt_value data s2 16 (block_size x b) r Hwf ltac:(lia)) as (s3 & E3 & S3); [change (2 ^ N.of_nat 16) with 65536; lia | exact S2 |].
    change (N.of_nat 16) with 16 in E3. rewrite E3. cbn [bind]. eauto.
Qed.
Lemma flat_map_length {A} (f : A -> list bool) n : (forall a, length (f a) = n) -> forall l, length (flat_map f l) = (length l * n)%nat.
Proof. intros H. induction l as [| a l IH]; [reflexivity |]. cbn [flat_map length]. rewrite app_length, IH, H. lia. Qed.
Lemma block_bits_long position sh x b : block_valid position sh x b -> 16 <= len (block_bits sh x b).
Proof.
  intros (_ & _ & H). unfold block_bits. rewrite len_app. destruct b as [h ts | padding q l].
  - destruct H as [(V & _) _]. destruct V as (L20 & _). unfold codes_bits, part_bits. rewrite !len_app.
    assert (len (flat_map (bits_msb 4) (pre_lengths (literal_part h))) = 80); [| lia].
    unfold len. rewrite (flat_map_length _ 4) by apply bits_msb_length. rewrite L20. reflexivity.
  - rewrite len_app, word_bits_length.
    assert (H1 : 12 / 2 <= len (recents_bytes q ++ l ++ fill l) / 2).
    { apply N.div_le_mono; [lia |]. rewrite len_app. change (len (recents_bytes q)) with 12. lia. }
    change (12 / 2) with 6 in H1. lia.
Qed.

(** An uncompressed block of an odd size at the end. *)
Definition ends_odd (bs : list (bool * lzx_block_of)) : Prop :=
  exists bs' sh padding q l, bs = bs' ++ [(sh, Uncompressed padding q l)] /\ N.odd (len l) = true.

Lemma lzx_blocks_rt data r : wf_bytes data -> forall bs fuel x rest s position,
  blocks_valid position x bs -> blocks_taken position x bs -> cx_ok x ->
  Rt data s (blocks_bits x bs ++ r) -> position + len (blocks_bits x bs ++ r) = len (word_bits data) ->
  len (output (context_of x bs)) <= len (output x) + len rest ->
  (length (blocks_bits x bs) < fuel)%nat ->
  (len (output (context_of x bs)) = len (output x) + len rest \/
   (len r < 16 /\ N.even (len data) = true /\ ~ ends_odd bs)) ->
  exists s', lzx_blocks fuel data (state_of x rest s) =
    Ok (state_of (context_of x bs) (skipn (length (output (context_of x bs)) - length (output x)) rest) s').
Proof.
  intros Hwf. induction bs as [| [sh b] bs IH]; intros fuel x rest s position Hv Ht Hx Hst Hp Hl Hf Hend.
  - destruct fuel; [lia |]. cbn [lzx_blocks context_of fold_left blocks_bits app] in *. rewrite Nat.sub_diag. cbn [skipn].
    cbn [state_of lx_stream lx_buffer lx_offset]. rewrite len_app. exists s.
    destruct (N.ltb_spec (x_offset s) (len data)) as [H | H]; [| reflexivity].
    destruct (N.leb_spec (len (output x) + len rest) (len (output x))) as [H2 | H2]; [reflexivity |].
    exfalso. destruct Hend as [He | (Hr & Hev & _)]; [lia |].
    pose proof (Rt_left _ _ _ Hst) as L. destruct Hst as ((I1 & I2 & I3) & _ & He).
    assert (H0 : (len data - x_offset s) / 2 = 0) by lia.
    apply N.div_small_iff in H0; [| lia].
    assert (H1 : len data = x_offset s + 1) by lia. rewrite H1, N.even_add, He in Hev. discriminate Hev.
  - destruct fuel as [| fuel]; [lia |]. cbn [blocks_valid blocks_taken blocks_bits] in *.
    destruct Hv as [Hb Hv]. destruct Ht as (Tb & Todd & Tt). rewrite <- app_assoc in Hst.
    pose proof (block_bits_long _ _ _ _ Hb) as Hlong.
    assert (Hmore : x_offset s < len data) by (eapply Rt_more; [exact Hst |]; rewrite len_app; lia).
    cbn [lzx_blocks]. cbn [state_of lx_stream lx_buffer lx_offset]. rewrite len_app.
    destruct (N.ltb_spec (x_offset s) (len data)) as [_ | ?]; [| lia].
    change (context_of x ((sh, b) :: bs)) with (context_of (context_after x b) bs) in *.
    destruct (output_grows x b) as (w & Ew & Lw). destruct (context_grows bs (context_after x b)) as (w2 & Ew2).
    set (final := output (context_of (context_after x b) bs)) in *.
    assert (Hfinal : len final = len (output x) + block_size x b + len w2) by (rewrite Ew2, Ew, !len_app, Lw; reflexivity).
    pose proof Hb as (Hsize & Hshort & Hkind).
    destruct (N.leb_spec (len (output x) + len rest) (len (output x))) as [? | _]; [lia |].
    unfold lzx_block. cbn [state_of lx_stream].
    unfold block_bits in Hst. rewrite <- app_assoc in Hst.
    match goal with |- exists s', (x0 <- ?m ;; _) = _ => 
      assert (Step : exists s1, m = Ok (state_of (context_after x b) (room_after x b rest) s1) /\ inv data s1 /\
        cx_ok (context_after x b) /\
        ((forall padding q l, b = Uncompressed padding q l -> N.odd (len l) = false) -> Rt data s1 (blocks_bits (context_after x b) bs ++ r))) end.
    { destruct (header_rt data x sh b s _ Hwf Hsize Hshort Hst (fun ty n s =>
        if (ty =? 1) || (ty =? 2) then lzx_coded_block data ty n (state_of x rest s) s
        else if ty =? 3 then lzx_uncompressed_block data n (state_of x rest s) s else Err)) as (s1 & E1 & S1).
      assert (Any : forall ty n s0 s', (if (ty =? 1) || (ty =? 2) then lzx_coded_block data ty n (state_of x rest s0) s'
        else if ty =? 3 then lzx_uncompressed_block data n (state_of x rest s0) s' else Err) =
        (if (ty =? 1) || (ty =? 2) then lzx_coded_block data ty n (state_of x rest s') s'
        else if ty =? 3 then lzx_uncompressed_block data n (state_of x rest s') s' else Err)) by reflexivity.
      match type of E1 with ?a = _ => match goal with |- exists s2, ?m = _ /\ _ =>
        replace m with a by reflexivity end end.
      rewrite E1. clear E1 Any.
      destruct b as [h ts | padding q l].
      - destruct Hkind as [Hcv Htv]. rewrite <- app_assoc in S1.
        destruct (coded_rt data x h ts rest s1 s1 _ Hwf Hx Hcv Tb Htv ltac:(lia) S1) as (s2 & E2 & S2).
        exists s2.
        assert (Hk : (block_kind (Coded h ts) =? 1) || (block_kind (Coded h ts) =? 2) = true).
        { cbn [block_kind]. destruct (aligned_part h); reflexivity. }
        rewrite Hk. split; [exact E2 |]. split; [apply S2 |]. split; [apply codes_after; assumption |]. auto.
      - destruct Hkind as (Hlw & Hpl & Hpm & Hq0 & Hq1 & Hq2). cbn [block_taken] in Tb.
        assert (Hbs : block_size x (Uncompressed padding q l) = len l).
        { unfold block_size. cbn [context_after output]. rewrite len_app. lia. }
        rewrite <- app_assoc in S1.
        assert (Hcnt : x_count s1 = len padding).
        { pose proof (Rt_left _ _ _ S1) as L. destruct S1 as ((_ & Hc & _) & _).
          rewrite word_bits_length in Hp. unfold block_bits in Hp. rewrite !len_app in Hp. rewrite !len_app in L.
          set (hd_ := len (header_bits sh x (Uncompressed padding q l))) in *.
          set (W := len (word_bits (recents_bytes q ++ l ++ fill l))) in *.
          set (R := len (blocks_bits (context_after x (Uncompressed padding q l)) bs)) in *.
          assert (Hpad : len padding < 16) by (unfold len; lia).
          apply N.mod_divide in Hpm; [| lia]. destruct Hpm as (k & Hk).
          clear - L Hp Hk Hc Hpad. set (A := (len data - x_offset s1) / 2) in *. set (B := len data / 2) in *. clearbody A B hd_ W R.
          assert (HH : x_count s1 + 16 * A + 16 * k = len padding + 16 * B) by lia.
          assert (HM : (x_count s1 + (A + k) * 16) mod 16 = (len padding + B * 16) mod 16) by (f_equal; lia).
          rewrite !N.mod_add, !N.mod_small in HM by lia. exact HM. }
        destruct (uncompressed_rt data x padding q l rest s1 s1 _ Hwf Hx Hlw ltac:(lia) Hcnt Hq0 Hq1 Hq2 ltac:(lia) S1) as (s2 & E2 & I2 & S2).
        exists s2. cbn [block_kind]. change ((3 =? 1) || (3 =? 2)) with false. change (3 =? 3) with true. cbv iota.
        rewrite Hbs, E2. split.
        { do 2 f_equal. unfold room_after. rewrite Hbs. unfold len. now rewrite Nat2N.id. }
        split; [exact I2 |]. split; [exact Hx |]. intros Hodd. apply S2. eapply Hodd. reflexivity. }
    destruct Step as (s1 & -> & I1 & Hx1 & S1). cbn [bind].
    assert (Lr : len (output (context_after x b)) + len (room_after x b rest) = len (output x) + len rest).
    { unfold room_after. rewrite len_skipn, N2Nat.id, Ew, len_app, Lw. lia. }
    assert (Hskip : skipn (length final - length (output (context_after x b))) (room_after x b rest) =
      skipn (length final - length (output x)) rest).
    { unfold room_after. rewrite skipn_skipn. f_equal. rewrite Ew, app_length. rewrite <- Lw. 
      apply (f_equal N.to_nat) in Hfinal. unfold len in *. lia. }
    destruct b as [h ts | padding q l]; [| destruct (N.odd (len l)) eqn:Eo].
    + destruct (IH fuel (context_after x (Coded h ts)) (room_after x (Coded h ts) rest) s1 _ Hv Tt Hx1) as (s2 & E2).
      * apply S1. discriminate.
      * rewrite <- N.add_assoc, <- len_app, app_assoc. exact Hp.
      * fold final. lia.
      * rewrite app_length in Hf. unfold len in Hlong. lia.
      * destruct Hend as [He | (He1 & He2 & He3)]; [left; fold final; lia | right]. repeat split; auto.
        intros (bs' & sh' & pd & q & l & -> & Ho). apply He3. exists ((sh, Coded h ts) :: bs'), sh', pd, q, l. auto.
      * exists s2. rewrite E2. fold final. now rewrite Hskip.
    + destruct Todd as [-> | ?]; [| discriminate].
      destruct Hend as [He | (_ & _ & He3)].
      2:{ exfalso. apply He3. exists [], sh, padding, q, l. auto. }
      destruct fuel as [| fuel]; [rewrite app_length in Hf; unfold len in Hlong; lia |].
      cbn [lzx_blocks state_of lx_stream lx_buffer lx_offset]. exists s1.
      unfold final in *. cbn [context_of fold_left] in *. rewrite Nat.sub_diag in Hskip. cbn [skipn] in Hskip. rewrite <- Hskip.
      destruct (x_offset s1 <? len data); [| reflexivity]. rewrite len_app.
      match goal with |- (if ?a <=? ?b then _ else _) = _ => destruct (N.leb_spec a b); [reflexivity | lia] end.
    + destruct (IH fuel (context_after x (Uncompressed padding q l)) (room_after x (Uncompressed padding q l) rest) s1 _ Hv Tt Hx1) as (s2 & E2).
      * apply S1. intros ? ? ? H. injection H as <- <- <-. exact Eo.
      * rewrite <- N.add_assoc, <- len_app, app_assoc. exact Hp.
      * fold final. lia.
      * rewrite app_length in Hf. unfold len in Hlong. lia.
      * destruct Hend as [He | (He1 & He2 & He3)]; [left; fold final; lia | right]. repeat split; auto.
        intros (bs' & sh' & pd & q' & l' & -> & Ho). apply He3. exists ((sh, Uncompressed padding q l) :: bs'), sh', pd, q', l'. auto.
      * exists s2. rewrite E2. fold final. now rewrite Hskip.
Qed.
