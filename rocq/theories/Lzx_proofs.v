From Verif Require Import Base BaseLemmas Lz_model Lz_spec Lz_proofs Lzvn_proofs.
From Verif Require Import Huffman_model Huffman_spec Huffman_proofs Bzip2_proofs Bytes_model.
From Verif Require Import P_C09 Lzx_model Lzx_spec.
Ltac Zify.zify_post_hook ::= idtac.

(** ** The bits that are left *)
Definition inv (data : list N) (s : lzx_stream) : Prop :=
  x_offset s <= len data /\ x_count s < 16 /\ x_bits s < 2 ^ x_count s.
Definition left_bits (data : list N) (s : lzx_stream) : list bool :=
  bits_msb (N.to_nat (x_count s)) (x_bits s) ++ word_bits (skipn (N.to_nat (x_offset s)) data).

Lemma skipn_cons_nth {A} (l : list A) : forall n d, (n < length l)%nat -> skipn n l = nth n l d :: skipn (S n) l.
Proof.
  induction l as [| x l IH]; intros [| n] d H; cbn [length] in H; try lia; [reflexivity |].
  cbn [skipn nth]. rewrite (IH n d) by lia. reflexivity.
Qed.
Lemma word_bits_skip data o : wf_bytes data -> o + 2 <= len data ->
  exists w, u16_le_at data o = Ok w /\ w < 65536 /\
    word_bits (skipn (N.to_nat o) data) = bits_msb 16 w ++ word_bits (skipn (N.to_nat (o + 2)) data).
Proof.
  intros Hwf Ho.
  assert (Hs : skipn (N.to_nat o) data = nth (N.to_nat o) data 0 :: nth (N.to_nat (o + 1)) data 0 :: skipn (N.to_nat (o + 2)) data).
  { rewrite (skipn_cons_nth data (N.to_nat o) 0) by (unfold len in Ho; lia).
    rewrite (skipn_cons_nth data (S (N.to_nat o)) 0) by (unfold len in Ho; lia).
    replace (N.to_nat (o + 1)) with (S (N.to_nat o)) by lia. replace (N.to_nat (o + 2)) with (S (S (N.to_nat o))) by lia. reflexivity. }
  assert (B : forall i, i < len data -> nth (N.to_nat i) data 0 < 256).
  { intros i Hi. unfold wf_bytes in Hwf. rewrite Forall_forall in Hwf. apply Hwf, nth_In. unfold len in Hi. lia. }
  pose proof (B o ltac:(lia)) as B0. pose proof (B (o + 1) ltac:(lia)) as B1.
  unfold u16_le_at. rewrite (idx_ok data o 0), (idx_ok data (o + 1) 0) by lia. cbn [bind].
  eexists. split; [reflexivity |]. split; [lia |]. rewrite Hs. cbn [word_bits]. do 2 f_equal. lia.
Qed.
Lemma word_bits_short data o : len data < o + 2 -> word_bits (skipn (N.to_nat o) data) = [].
Proof.
  intros H. assert (L : (length (skipn (N.to_nat o) data) < 2)%nat) by (rewrite skipn_length; unfold len in H; lia).
  destruct (skipn (N.to_nat o) data) as [| a [| b r]]; [reflexivity | reflexivity | cbn [length] in L; lia].
Qed.

Definition fetch (data : list N) (n : N) (s : lzx_stream) : res lzx_stream :=
  if x_count s <? n then x_read_data 2 data n s else Ok s.

Lemma fetch_ok data n s : wf_bytes data -> inv data s -> n <= 16 ->
  exists s1 k, fetch data n s = Ok s1 /\ n <= x_count s1 < n + 16 /\ x_count s <= x_count s1 /\ x_count s1 < 32 /\ x_bits s1 < 2 ^ x_count s1 /\
    x_offset s <= x_offset s1 <= len data /\
    left_bits data s1 = left_bits data s ++ repeat false k /\
    (n <= len (left_bits data s) -> k = O) /\
    (x_offset s1 + 2 <= len data -> k = O) /\
    (k = O -> 8 * x_offset s1 = 8 * x_offset s + (x_count s1 - x_count s)) /\
    N.even (x_offset s1) = N.even (x_offset s).
Proof.
  intros Hwf (Ho & Hc & Hb) Hn. unfold fetch. destruct (N.ltb_spec (x_count s) n) as [H | H].
  2:{ exists s, O. cbn [repeat]. rewrite app_nil_r. repeat split; auto; lia. }
  cbn [x_read_data]. destruct (N.ltb_spec (x_count s) n); [| lia].
  assert (Hb16 : N.shiftl (x_bits s) 16 mod 2 ^ 32 = N.shiftl (x_bits s) 16).
  { rewrite N.shiftl_mul_pow2. apply N.mod_small. replace 32 with (16 + 16) by reflexivity. rewrite N.pow_add_r.
    apply N.mul_lt_mono_pos_r; [reflexivity |]. eapply N.lt_le_trans; [exact Hb |]. apply N.pow_le_mono_r; lia. }
  unfold shl_chk. change (16 <? 32) with true. cbv iota. rewrite Hb16. cbn [bind].
  unfold sub_chk at 1. destruct (N.leb_spec (x_offset s) (len data)); [| lia]. cbn [bind].
  destruct (N.leb_spec 2 (len data - x_offset s)) as [H2 | H2].
  - destruct (word_bits_skip data (x_offset s) Hwf ltac:(lia)) as (w & Ew & Hw & Es). rewrite Ew. cbn [bind x_read_data x_count].
    destruct (N.ltb_spec (x_count s + 16) n); [lia |].
    eexists _, O. split; [reflexivity |]. cbn [x_count x_bits x_offset repeat]. rewrite app_nil_r.
    rewrite lor_add by exact Hw.
    assert (HH : x_bits s * 2 ^ 16 + w < 2 ^ (x_count s + 16)).
    { rewrite N.pow_add_r. change (2 ^ 16) with 65536. clear - Hb Hw.
      set (p := 2 ^ x_count s) in *. clearbody p. nia. }
    repeat match goal with |- _ /\ _ => split end; try lia; auto.
    unfold left_bits. cbn [x_count x_bits x_offset]. rewrite Es, app_assoc. f_equal.
    replace (N.to_nat (x_count s + 16)) with (N.to_nat (x_count s) + 16)%nat by lia.
    change 16 with (N.of_nat 16) at 1. apply bits_msb_cat. exact Hw.
    rewrite N.even_add. change (N.even 2) with true. now destruct (N.even (x_offset s)).
  - cbn [bind x_read_data x_count]. destruct (N.ltb_spec (x_count s + 16) n); [lia |].
    eexists _, 16%nat. split; [reflexivity |]. cbn [x_count x_bits x_offset].
    assert (HH : N.shiftl (x_bits s) 16 < 2 ^ (x_count s + 16)).
    { rewrite N.shiftl_mul_pow2, N.pow_add_r. change (2 ^ 16) with 65536. clear - Hb.
      set (p := 2 ^ x_count s) in *. clearbody p. nia. }
    assert (E0 : word_bits (skipn (N.to_nat (x_offset s)) data) = []) by (apply word_bits_short; lia).
    repeat match goal with |- _ /\ _ => split end; try lia; auto.
    + unfold left_bits. cbn [x_count x_bits x_offset]. rewrite E0, !app_nil_r.
      replace (N.to_nat (x_count s + 16)) with (N.to_nat (x_count s) + 16)%nat by lia.
      rewrite N.shiftl_mul_pow2. change 16 with (N.of_nat 16) at 1. rewrite <- (N.add_0_r (x_bits s * _)).
      rewrite bits_msb_cat by reflexivity. reflexivity.
    + unfold left_bits. rewrite E0, app_nil_r. unfold len. rewrite bits_msb_length. lia.
Qed.

Lemma take_ok data n s : n <= x_count s -> x_count s < 32 -> x_bits s < 2 ^ x_count s ->
  exists v s', x_take n s = Ok (v, s') /\ v < 2 ^ n /\ left_bits data s = bits_msb (N.to_nat n) v ++ left_bits data s' /\
    x_offset s' = x_offset s /\ x_count s' = x_count s - n /\ x_bits s' < 2 ^ x_count s'.
Proof.
  intros Hn Hc Hb. unfold x_take. unfold sub_chk at 1. destruct (N.leb_spec n (x_count s)); [| lia]. cbn [bind].
  set (c := x_count s - n) in *.
  assert (Ec : x_count s = n + c) by lia.
  assert (Hv : x_bits s / 2 ^ c < 2 ^ n).
  { apply N.div_lt_upper_bound; [apply N.pow_nonzero; lia |]. rewrite <- N.pow_add_r. replace (c + n) with (x_count s) by lia. exact Hb. }
  assert (Hl : forall v b, v = x_bits s / 2 ^ c -> b = x_bits s mod 2 ^ c ->
    left_bits data s = bits_msb (N.to_nat n) v ++ left_bits data (mk_lzx (x_offset s) b c)).
  { intros v b -> ->. unfold left_bits. cbn [x_count x_bits x_offset]. rewrite app_assoc. f_equal.
    replace (N.to_nat (x_count s)) with (N.to_nat n + N.to_nat c)%nat by lia.
    rewrite bits_msb_app, N2Nat.id. f_equal. rewrite <- (bits_msb_mod (N.to_nat c)), N2Nat.id. reflexivity. }
  destruct (N.eqb_spec c 0) as [E0 | E0].
  - rewrite E0 in *. rewrite N.div_1_r in *.
    exists (x_bits s), (mk_lzx (x_offset s) 0 0). cbn [x_offset x_count x_bits].
    repeat split; auto; try lia; try (apply Hl; [reflexivity | now rewrite N.mod_1_r]); reflexivity.
  - unfold sub_chk. destruct (N.leb_spec c 32); [| lia]. cbn [bind]. unfold shr_chk.
    destruct (N.ltb_spec (32 - c) 32); [| lia]. cbn [bind]. destruct (N.ltb_spec c 32); [| lia]. cbn [bind].
    assert (Em : N.shiftr 4294967295 (32 - c) = N.ones c).
    { change 4294967295 with (N.ones 32). replace 32 with (c + (32 - c)) at 1 by lia.
      rewrite N.shiftr_div_pow2. rewrite N.ones_div_pow2 by lia. f_equal. lia. }
    rewrite Em, N.shiftr_div_pow2.
    eexists _, _. split; [reflexivity |]. split; [exact Hv |].
    split; [apply Hl; [reflexivity |]; apply N.land_ones |]. cbn [x_offset x_count x_bits].
    rewrite N.land_ones. repeat split. apply N.mod_lt, N.pow_nonzero. lia.
Qed.

(** The position in bits. *)
Definition place (s : lzx_stream) : Z := (8 * Z.of_N (x_offset s) - Z.of_N (x_count s))%Z.

Lemma get_ok data n s : wf_bytes data -> inv data s -> n <= 16 ->
  exists v s' k, x_get_value data n s = Ok (v, s') /\ inv data s' /\ v < 2 ^ n /\
    left_bits data s ++ repeat false k = bits_msb (N.to_nat n) v ++ left_bits data s' /\
    (n <= len (left_bits data s) -> k = O) /\ x_offset s <= x_offset s' /\
    (x_offset s' + 2 <= len data -> k = O) /\ (k = O -> place s' = place s + Z.of_N n)%Z /\
    N.even (x_offset s') = N.even (x_offset s).
Proof.
  intros Hwf Hi Hn. unfold x_get_value. cbn [x_get_loop].
  destruct (N.ltb_spec 0 n) as [H0 | H0].
  2:{ assert (n = 0) by lia. subst n. exists 0, s, O. cbn [repeat N.to_nat bits_msb app]. rewrite app_nil_r.
      repeat match goal with |- _ /\ _ => split end; auto; try lia; try reflexivity. }
  rewrite N.sub_0_r. destruct (N.ltb_spec 16 n); [lia |].
  destruct (fetch_ok data n s Hwf Hi Hn) as (s1 & k & E1 & H1 & Hge & H2 & H3 & H4 & H5 & H6 & H7 & H8 & H9).
  unfold fetch in E1. rewrite E1. cbn [bind].
  destruct (take_ok data n s1 ltac:(lia) H2 H3) as (v & s2 & E2 & V2 & L2 & O2 & C2 & B2).
  rewrite E2. cbn [bind]. change (0 <? 0) with false. cbv iota. cbn [bind]. rewrite N.lor_0_l, N.add_0_l.
  destruct (N.ltb_spec n n); [lia |].
  exists v, s2, k. repeat match goal with |- _ /\ _ => split end; auto; try lia.
  - repeat split; try rewrite O2; try rewrite C2; try rewrite C2 in B2; try lia; exact B2.
  - rewrite <- H5. exact L2.
  - intros Hk. specialize (H8 Hk). destruct Hi as (I1 & I2 & I3).
    unfold place. rewrite O2, C2. lia.
  - rewrite O2. exact H9.
Qed.

(** ** Reading what was written *)
Definition Rt (data : list N) (s : lzx_stream) (r : list bool) : Prop :=
  inv data s /\ left_bits data s = r /\ N.even (x_offset s) = true.

Lemma app_inj_length {A} (a b c d : list A) : length a = length c -> a ++ b = c ++ d -> a = c /\ b = d.
Proof.
  revert c. induction a as [| x a IH]; intros [| y c] L E; try discriminate L; [auto |].
  injection E as -> E. injection L as L. destruct (IH c L E) as [-> ->]. auto.
Qed.
Lemma Rt_value data s n v r : wf_bytes data -> (n <= 16)%nat -> v < 2 ^ N.of_nat n -> Rt data s (bits_msb n v ++ r) ->
  exists s', x_get_value data (N.of_nat n) s = Ok (v, s') /\ Rt data s' r.
Proof.
  intros Hwf Hn Hv (Hi & Hl & He).
  destruct (get_ok data (N.of_nat n) s Hwf Hi ltac:(lia)) as (v' & s' & k & E & I' & V' & L' & Hk & _ & _ & _ & Ev).
  rewrite Nat2N.id in L'.
  assert (k = O). { apply Hk. rewrite Hl, len_app. unfold len. rewrite bits_msb_length. lia. } subst k.
  cbn [repeat] in L'. rewrite app_nil_r, Hl in L'.
  apply app_inj_length in L' as [E1 E2]; [| now rewrite !bits_msb_length].
  apply bits_msb_inj in E1; [| exact Hv | exact V']. subst v'. exists s'. split; [exact E |]. split; [exact I' |]. split; congruence.
Qed.
Lemma Rt_yields data r : wf_bytes data -> forall bs s, Rt data s (bs ++ r) ->
  exists s', yields (x_get_value data 1) s bs s' /\ Rt data s' r.
Proof.
  intros Hwf. induction bs as [| b bs IH]; intros s H; [exists s; split; [constructor | exact H] |].
  assert (H1 : Rt data s (bits_msb 1 (N.b2n b) ++ bs ++ r)) by (destruct b; exact H).
  destruct (Rt_value data s 1 (N.b2n b) _ Hwf ltac:(lia) ltac:(destruct b; reflexivity) H1) as (s1 & E1 & S1).
  destruct (IH _ S1) as (s2 & Y & S2). exists s2. split; [econstructor; [exact E1 | exact Y] | exact S2].
Qed.
Lemma Rt_symbol data s cs largest t sym r : wf_bytes data -> tree_for cs largest t -> coded cs sym ->
  Rt data s (code_word cs sym ++ r) ->
  exists s', decode_symbol (x_get_value data 1) t s = Ok (sym, s') /\ Rt data s' r.
Proof.
  intros Hwf Ht Hc H. destruct (Rt_yields _ _ Hwf _ _ H) as (s' & Y & H').
  exists s'. split; [| exact H']. eapply decode_symbol_word; eauto.
Qed.
Lemma read_values_rt data n r : wf_bytes data -> (n <= 16)%nat -> forall l s,
  Forall (fun v => v < 2 ^ N.of_nat n) l -> Rt data s (flat_map (bits_msb n) l ++ r) ->
  exists s', read_values (length l) data (N.of_nat n) s = Ok (l, s') /\ Rt data s' r.
Proof.
  intros Hwf Hn. induction l as [| v l IH]; intros s Hf H; [exists s; auto |].
  apply Forall_cons_iff in Hf as [Hv Hf]. cbn [flat_map] in H. rewrite <- app_assoc in H.
  destruct (Rt_value _ _ _ _ _ Hwf Hn Hv H) as (s1 & E1 & S1).
  destruct (IH _ Hf S1) as (s2 & E2 & S2). exists s2. split; [| exact S2].
  cbn [length read_values]. rewrite E1. cbn [bind]. rewrite E2. reflexivity.
Qed.

(** ** Code sizes *)
Lemma delta_size_symbol b l : b <= 16 -> l <= 16 -> delta_size b (delta_symbol b l) = l /\ delta_symbol b l < 17.
Proof.
  intros Hb Hl. unfold delta_size, delta_symbol. split; [| apply N.mod_lt; lia].
  destruct (N.le_gt_cases l b) as [H | H].
  - replace (b + 17 - l) with (b - l + 1 * 17) by lia. rewrite N.mod_add, N.mod_small by lia.
    destruct (N.leb_spec (b - l) b); lia.
  - rewrite N.mod_small by lia. destruct (N.leb_spec (b + 17 - l) b); lia.
Qed.
Lemma repeat_size_rt v : forall n acc tl, (n <= length tl)%nat ->
  repeat_size n (acc ++ tl) (len acc) v = Ok (acc ++ repeat v n ++ skipn n tl).
Proof.
  induction n as [| n IH]; intros acc tl H; cbn [repeat_size repeat app skipn]; [reflexivity |].
  destruct tl as [| x tl]; [cbn in H; lia |]. rewrite Lz_proofs.upd_end. cbn [bind].
  change (acc ++ v :: tl) with (acc ++ [v] ++ tl). rewrite app_assoc.
  replace (len acc + 1) with (len (acc ++ [v])) by (rewrite len_app; reflexivity).
  rewrite IH by (cbn in H; lia). rewrite <- app_assoc. reflexivity.
Qed.
Lemma Forall_skip {A} (P : A -> Prop) n : forall l, Forall P l -> Forall P (skipn n l).
Proof. intros l H. rewrite <- (firstn_skipn n l) in H. now apply Forall_app in H. Qed.
Lemma Forall_first {A} (P : A -> Prop) n : forall l, Forall P l -> Forall P (firstn n l).
Proof. intros l H. rewrite <- (firstn_skipn n l) in H. now apply Forall_app in H. Qed.
Lemma instruction_nonempty pre b i : instruction_valid pre b i -> (1 <= length (instruction_lengths i))%nat.
Proof. destruct i; cbn [instruction_valid instruction_lengths length]; intros H; rewrite ?repeat_length; lia. Qed.

Lemma decode_sizes_rt data tree pre r : wf_bytes data -> tree_for pre 15 tree ->
  forall is fuel acc before s, instructions_valid pre before is ->
  length (flat_map instruction_lengths is) = length before -> (length before < fuel)%nat ->
  Forall (fun l => l <= 16) before ->
  Rt data s (instructions_bits pre before is ++ r) ->
  exists s', decode_sizes fuel data tree (len acc + len before) (acc ++ before) (len acc) s =
    Ok (acc ++ flat_map instruction_lengths is, s') /\ Rt data s' r.
Proof.
  intros Hwf Ht. induction is as [| i is IH]; intros fuel acc before s Hv Hlen Hf H16 Hst.
  - destruct before; [| discriminate Hlen]. destruct fuel; [lia |]. cbn [decode_sizes flat_map].
    change (len (@nil N)) with 0. rewrite N.add_0_r. destruct (N.ltb_spec (len acc) (len acc)); [lia |].
    exists s. auto.
  - cbn [instructions_valid instructions_bits flat_map] in *. destruct Hv as [Hi Hv].
    pose proof (instruction_nonempty _ _ _ Hi) as Hne. rewrite app_length in Hlen.
    destruct before as [| b0 before]; [cbn [length] in Hlen; lia |]. cbn [hd] in *.
    pose proof H16 as H16'. apply Forall_cons_iff in H16' as [Hb0 Hbefore].
    destruct fuel as [| fuel]; [lia |]. cbn [decode_sizes]. rewrite len_cons.
    destruct (N.ltb_spec (len acc) (len acc + (len before + 1))) as [_ | ?]; [| lia].
    rewrite <- app_assoc in Hst.
    assert (Next : forall w s2, instruction_lengths i = w ->
      Rt data s2 (instructions_bits pre (skipn (length (instruction_lengths i)) (b0 :: before)) is ++ r) ->
      exists s', decode_sizes fuel data tree (len acc + (len before + 1)) (acc ++ w ++ skipn (length w) (b0 :: before))
        (len acc + len w) s2 = Ok (acc ++ w ++ flat_map instruction_lengths is, s') /\ Rt data s' r).
    { intros w s2 Hw Hst2. rewrite Hw in *.
      destruct (IH fuel (acc ++ w) (skipn (length w) (b0 :: before)) s2 Hv) as (s' & E & S'); auto.
      - rewrite skipn_length. lia.
      - rewrite skipn_length. lia.
      - apply Forall_skip. exact H16.
      - exists s'. split; [| exact S'].
        replace (len acc + (len before + 1)) with (len (acc ++ w) + len (skipn (length w) (b0 :: before))).
        2:{ rewrite len_app. unfold len. rewrite skipn_length. cbn [length] in *. lia. }
        rewrite (app_assoc acc w (skipn _ _)), (app_assoc acc w (flat_map _ _)).
        replace (len acc + len w) with (len (acc ++ w)) by apply len_app. exact E. }
    assert (Many : forall n v s2, instruction_lengths i = repeat v (N.to_nat n) ->
      Rt data s2 (instructions_bits pre (skipn (length (instruction_lengths i)) (b0 :: before)) is ++ r) ->
      exists s',
      (room <- sub_chk (len acc + (len before + 1)) (len acc) ;;
       let times := if room <? n then room else n in
       code_sizes <- repeat_size (N.to_nat times) (acc ++ b0 :: before) (len acc) v ;;
       decode_sizes fuel data tree (len acc + (len before + 1)) code_sizes (len acc + times) s2) =
      Ok (acc ++ instruction_lengths i ++ flat_map instruction_lengths is, s') /\ Rt data s' r).
    { intros n v s2 Hw Hst2. rewrite Hw in Hlen, Hne. rewrite repeat_length in *. cbn [length] in Hlen.
      unfold sub_chk. destruct (N.leb_spec (len acc) (len acc + (len before + 1))); [| lia]. cbn [bind].
      destruct (N.ltb_spec (len acc + (len before + 1) - len acc) n); [unfold len in *; lia |].
      cbv zeta. rewrite repeat_size_rt by (cbn [length]; lia). cbn [bind].
      destruct (Next _ _ Hw Hst2) as (s' & E & S'). exists s'. split; [| exact S'].
      replace (len (repeat v (N.to_nat n))) with n in E by (unfold len; rewrite repeat_length; lia).
      rewrite repeat_length in E. rewrite E. rewrite Hw. reflexivity. }
    destruct i as [l | n | n | n l]; cbn [instruction_valid instruction_bits] in *.
    + destruct Hi as [Hl Hc]. destruct (Rt_symbol _ _ _ _ _ _ _ Hwf Ht Hc Hst) as (s1 & E1 & S1).
      rewrite E1. cbn [bind]. destruct (delta_size_symbol b0 l Hb0 Hl) as [Ed Hd].
      destruct (N.ltb_spec (delta_symbol b0 l) 17); [| lia].
      rewrite (idx_ok _ _ 0) by (rewrite len_app, len_cons; lia).
      unfold len at 1. rewrite Nat2N.id, app_nth2, Nat.sub_diag by lia. cbn [nth bind]. rewrite Ed.
      rewrite Lz_proofs.upd_end. cbn [bind]. apply (Next [l] s1 eq_refl S1).
    + rewrite <- app_assoc in Hst. destruct Hi as [Hn Hc].
      destruct (Rt_symbol _ _ _ _ _ _ _ Hwf Ht Hc Hst) as (s1 & E1 & S1). rewrite E1. cbn [bind].
      change (17 <? 17) with false. change (17 =? 17) with true. change (17 =? 19) with false. cbv iota. cbn [negb].
      assert (Hb : n - 4 < 2 ^ N.of_nat 4) by (change (2 ^ N.of_nat 4) with 16; lia).
      destruct (Rt_value _ _ _ _ _ Hwf (ltac:(lia) : (4 <= 16)%nat) Hb S1) as (s2 & E2 & S2).
      change (N.of_nat 4) with 4 in *. rewrite E2. cbn [bind]. rewrite N.sub_add by lia.
      apply Many; [reflexivity | exact S2].
    + rewrite <- app_assoc in Hst. destruct Hi as [Hn Hc].
      destruct (Rt_symbol _ _ _ _ _ _ _ Hwf Ht Hc Hst) as (s1 & E1 & S1). rewrite E1. cbn [bind].
      change (18 <? 17) with false. change (18 =? 17) with false. change (18 =? 18) with true. change (18 =? 19) with false. cbv iota. cbn [negb].
      assert (Hb : n - 20 < 2 ^ N.of_nat 5) by (change (2 ^ N.of_nat 5) with 32; lia).
      destruct (Rt_value _ _ _ _ _ Hwf (ltac:(lia) : (5 <= 16)%nat) Hb S1) as (s2 & E2 & S2).
      change (N.of_nat 5) with 5 in *. rewrite E2. cbn [bind]. rewrite N.sub_add by lia.
      apply Many; [reflexivity | exact S2].
    + rewrite <- !app_assoc in Hst. destruct Hi as (Hn & Hl & Hc & Hc2).
      destruct (Rt_symbol _ _ _ _ _ _ _ Hwf Ht Hc Hst) as (s1 & E1 & S1). rewrite E1. cbn [bind].
      change (19 <? 17) with false. change (19 =? 17) with false. change (19 =? 18) with false. change (19 =? 19) with true. cbv iota. cbn [negb].
      assert (Hb : n - 4 < 2 ^ N.of_nat 1) by (change (2 ^ N.of_nat 1) with 2; lia).
      destruct (Rt_value _ _ _ _ _ Hwf (ltac:(lia) : (1 <= 16)%nat) Hb S1) as (s2 & E2 & S2).
      change (N.of_nat 1) with 1 in *. rewrite E2. cbn [bind]. rewrite N.sub_add by lia.
      destruct (delta_size_symbol b0 l Hb0 Hl) as [Ed Hd].
      destruct (Rt_symbol _ _ _ _ _ _ _ Hwf Ht Hc2 S2) as (s3 & E3 & S3). rewrite E3. cbn [bind].
      destruct (N.leb_spec (delta_symbol b0 l) 17); [| lia]. cbn [check bind].
      rewrite (idx_ok _ _ 0) by (rewrite len_app, len_cons; lia).
      unfold len at 1. rewrite Nat2N.id, app_nth2, Nat.sub_diag by lia. cbn [nth bind]. rewrite Ed. cbn [bind].
      apply Many; [reflexivity | exact S3].
Qed.

Lemma build_rt n largest cs : 1 <= largest -> 1 <= n <= 65535 -> len cs <= n -> Forall (fun l => l <= largest) cs ->
  (exists s, coded cs s) ->
  ~ over_subscribed largest cs -> exists t, huffman_build (huffman_new n largest) cs = Ok t /\ tree_for cs largest t.
Proof.
  intros Hla Hn Hl Hf Hc Ho. destruct (C09_accepts_the_rest n largest cs) as (t & E); auto; try lia.
  exists t. split; [exact E |]. now apply (build_new n largest cs t ltac:(lia) Hl) in E as [T _].
Qed.

Lemma code_sizes_rt data before p s r : wf_bytes data -> part_valid before p -> Forall (fun l => l <= 16) before ->
  Rt data s (part_bits before p ++ r) ->
  exists s', lzx_code_sizes data before (len before) s = Ok (part_lengths p, s') /\ Rt data s' r.
Proof.
  intros Hwf (L20 & F16 & Hc & Ho & Hv & Hlen) H16 Hst. unfold lzx_code_sizes, part_bits in *.
  rewrite <- app_assoc in Hst.
  destruct (read_values_rt data 4 _ Hwf ltac:(lia) (pre_lengths p) s F16 Hst) as (s1 & E1 & S1).
  rewrite L20 in E1. change (N.of_nat 4) with 4 in E1. rewrite E1. cbn [bind].
  destruct (build_rt 20 15 (pre_lengths p)) as (t & Et & Tt); auto; try lia.
  { unfold len. rewrite L20. lia. }
  { eapply Forall_impl; [| exact F16]. cbv beta. intros. change (2 ^ N.of_nat 4) with 16 in *. lia. }
  rewrite Et. cbn [bind].
  destruct (decode_sizes_rt data t (pre_lengths p) r Hwf Tt (size_instructions p) (S (N.to_nat (len before))) [] before s1 Hv Hlen) as (s2 & E2 & S2); auto.
  { unfold len. lia. }
  change (len (@nil N)) with 0 in E2. rewrite N.add_0_l in E2. exists s2. auto.
Qed.

(** ** Tokens *)
Definition rl (q : recents) : list N := [recent0 q; recent1 q; recent2 q].

Lemma slot_tables s : 3 <= s < 30 -> idx footer_bits s = Ok (slot_extra s) /\
  idx offset_base s = Ok (Z.of_N (slot_base s)) /\ slot_extra s <= 13 /\ 1 <= slot_base s < 65536 /\
  (8 <=? s) = (3 <=? slot_extra s).
Proof.
  intros H.
  assert (F : Forall (fun s => idx footer_bits s = Ok (slot_extra s) /\
    idx offset_base s = Ok (Z.of_N (slot_base s)) /\ slot_extra s <= 13 /\ 1 <= slot_base s < 65536 /\
    (8 <=? s) = (3 <=? slot_extra s)) (seqN 3 27)).
  { cbn [seqN]. repeat first [apply Forall_nil | apply Forall_cons]; repeat split; try reflexivity; discriminate. }
  rewrite Forall_forall in F. apply F, in_seqN. lia.
Qed.

(** The tree for aligned offsets, if there is one. *)
Definition aligned_tree (a : option (list N)) (t : option huffman_tree) : Prop :=
  match a, t with
  | None, None => True
  | Some a, Some t => tree_for a 16 t
  | _, _ => False
  end.

Lemma distance_rt data c q out t at_ s r : wf_bytes data -> aligned_tree (aligned_code c) at_ ->
  (forall b, t <> XLiteral b) -> token_valid c q out t ->
  Rt data s (match t with XMatch sl extra _ => extra_bits c sl extra | _ => [] end ++ r) ->
  exists s', lzx_distance data at_ (slot_of t) (rl q) s = Ok (distance_of q t, rl (recents_after q t), s') /\ Rt data s' r.
Proof.
  intros Hwf Ha Hnl (_ & _ & Hv) Hst. destruct t as [b | sl n | sl extra n]; [now destruct (Hnl b) | |]; cbn [slot_of].
  - destruct Hv as (Hs & _ & _). unfold lzx_distance. destruct (N.ltb_spec sl 3); [| lia].
    exists s. split; [| exact Hst]. unfold rl.
    assert (C : sl = 0 \/ sl = 1 \/ sl = 2) by lia. destruct C as [-> | [-> | ->]]; destruct q; reflexivity.
  - destruct Hv as (Hs & Hn & He & Hd & Hal).
    destruct (slot_tables sl Hs) as (T1 & T2 & T3 & T4 & T5).
    unfold lzx_distance. destruct (N.ltb_spec sl 3); [lia |]. rewrite T1, T2, T5. cbn [bind].
    assert (Main : forall s1, Rt data s1 r -> exists s',
      (base <- Ok (Z.of_N (slot_base sl)) ;;
       let sum := (to_signed 4 extra + base)%Z in
       assert ((-2 ^ 31 <=? sum) && (sum <? 2 ^ 31))%Z ;;;
       let distance := Z.to_N (sum mod 2 ^ 32) in
       second <- idx (rl q) 1 ;;
       recent <- upd (rl q) 2 second ;;
       first <- idx recent 0 ;;
       recent <- upd recent 1 first ;;
       recent <- upd recent 0 distance ;;
       Ok (distance, recent, s1)) = Ok (distance_of q (XMatch sl extra n), rl (recents_after q (XMatch sl extra n)), s') /\ Rt data s' r).
    { intros s1 S1. exists s1. split; [| exact S1]. cbn [bind]. cbv zeta.
      assert (Hex : extra < 8192) by (eapply N.lt_le_trans; [exact He |]; change 8192 with (2 ^ 13); apply N.pow_le_mono_r; lia).
      unfold to_signed. change (2 ^ (8 * 4 - 1)) with 2147483648. destruct (N.ltb_spec extra 2147483648); [| lia].
      rewrite <- N2Z.inj_add.
      assert (Hsum : extra + slot_base sl < 73728) by lia.
      change (- 2 ^ 31)%Z with (-2147483648)%Z. change (2 ^ 31)%Z with 2147483648%Z. change (2 ^ 32)%Z with 4294967296%Z.
      destruct (Z.leb_spec (-2147483648) (Z.of_N (extra + slot_base sl))); [| lia].
      destruct (Z.ltb_spec (Z.of_N (extra + slot_base sl)) 2147483648); [| lia]. cbn [andb assert bind].
      rewrite Z.mod_small by lia. rewrite N2Z.id. cbn [recents_after distance_of]. rewrite N.add_comm.
      destruct q. reflexivity. }
    unfold aligned_tree in Ha. unfold extra_bits in Hst.
    destruct (aligned_code c) as [a |], at_ as [at_ |]; try contradiction.
    + destruct (N.leb_spec 3 (slot_extra sl)) as [H3 | H3].
      * specialize (Hal H3). unfold sub_chk at 1. destruct (N.leb_spec 3 (slot_extra sl)); [| lia]. cbn [bind].
        rewrite <- app_assoc in Hst.
        assert (H8 : extra / 8 < 2 ^ N.of_nat (N.to_nat (slot_extra sl - 3))).
        { rewrite N2Nat.id. apply N.div_lt_upper_bound; [lia |]. change 8 with (2 ^ 3). rewrite <- N.pow_add_r.
          replace (3 + (slot_extra sl - 3)) with (slot_extra sl) by lia. exact He. }
        destruct (Rt_value data s (N.to_nat (slot_extra sl - 3)) (extra / 8) _ Hwf ltac:(lia) H8 Hst) as (s1 & E1 & S1).
        rewrite N2Nat.id in E1. rewrite E1. cbn [bind].
        destruct (Rt_symbol _ _ _ _ _ _ _ Hwf Ha Hal S1) as (s2 & E2 & S2). rewrite E2. cbn [bind].
        unfold shl_chk. change (3 <? 32) with true. cbv iota. cbn [bind].
        assert (Hex : extra < 8192) by (eapply N.lt_le_trans; [exact He |]; change 8192 with (2 ^ 13); apply N.pow_le_mono_r; lia).
        pose proof (N.div_mod extra 8 ltac:(lia)) as DM. pose proof (N.mod_lt extra 8 ltac:(lia)) as ML.
        rewrite N.mod_small.
        2:{ rewrite N.shiftl_mul_pow2. change (2 ^ 3) with 8. change (2 ^ 32) with 4294967296. lia. }
        rewrite lor_add by exact ML. change (2 ^ 3) with 8.
        replace (extra / 8 * 8 + extra mod 8) with extra by lia.
        apply Main, S2.
      * cbn [bind].
        assert (He' : extra < 2 ^ N.of_nat (N.to_nat (slot_extra sl))) by (rewrite N2Nat.id; exact He).
        destruct (Rt_value data s (N.to_nat (slot_extra sl)) extra _ Hwf ltac:(lia) He' Hst) as (s1 & E1 & S1).
        rewrite N2Nat.id in E1. rewrite E1. cbn [bind]. apply Main, S1.
    + cbn [bind].
      assert (He' : extra < 2 ^ N.of_nat (N.to_nat (slot_extra sl))) by (rewrite N2Nat.id; exact He).
      destruct (Rt_value data s (N.to_nat (slot_extra sl)) extra _ Hwf ltac:(lia) He' Hst) as (s1 & E1 & S1).
      rewrite N2Nat.id in E1. rewrite E1. cbn [bind]. apply Main, S1.
Qed.

Lemma lz_copy_grows d : forall n out, exists w, lz_copy out d n = out ++ w /\ length w = n.
Proof.
  induction n as [| n IH]; intros out; cbn [lz_copy]; [exists []; now rewrite app_nil_r |].
  destruct (IH (out ++ [nth (length out - N.to_nat d) out 0])) as (w & E & L).
  eexists. rewrite E, <- app_assoc. split; [reflexivity |]. cbn [app length]. congruence.
Qed.
Lemma token_grows q out t : exists w, token_meaning q out t = out ++ w /\ length w = N.to_nat (size_of t).
Proof.
  destruct t; cbn [token_meaning size_of]; [eexists; split; reflexivity | |]; apply lz_copy_grows.
Qed.
Lemma tokens_grow ts : forall q out, exists w, tokens_meaning q out ts = out ++ w.
Proof.
  induction ts as [| t ts IH]; intros q out; cbn [tokens_meaning]; [exists []; now rewrite app_nil_r |].
  destruct (token_grows q out t) as (w & E & _).
  destruct (IH (recents_after q t) (token_meaning q out t)) as (w' & E'). rewrite E', E, <- app_assoc. eauto.
Qed.
Lemma token_size c q out t : token_valid c q out t -> 1 <= size_of t.
Proof. intros (_ & _ & H). destruct t; cbn [size_of]; lia. Qed.

Lemma symbol_parts sl n : 2 <= n -> let sym := 256 + 8 * sl + N.min (n - 2) 7 in
  sym mod 8 = N.min (n - 2) 7 /\ (sym - 256) / 8 = sl /\ 256 <= sym.
Proof.
  intros Hn. cbv zeta. set (k := N.min (n - 2) 7). assert (Hk : k < 8) by lia. clearbody k. repeat split.
  - replace (256 + 8 * sl + k) with (k + (32 + sl) * 8) by lia. rewrite N.mod_add by lia. apply N.mod_small, Hk.
  - replace (256 + 8 * sl + k - 256) with (sl * 8 + k) by lia. rewrite N.div_add_l by lia. rewrite N.div_small by exact Hk. lia.
  - lia.
Qed.

Lemma huffman_block_rt data c lit mat at_ r : wf_bytes data -> tree_for (main_code c) 16 lit ->
  (tree_for (size_code c) 16 mat) -> aligned_tree (aligned_code c) at_ ->
  forall ts fuel q out rest s, tokens_valid c q out ts ->
  len (tokens_meaning q out ts) <= len out + len rest -> (length rest < fuel)%nat ->
  Rt data s (flat_map (token_bits c) ts ++ r) ->
  exists s', lzx_huffman_block fuel data lit mat at_ (len (tokens_meaning q out ts)) (out ++ rest) (rl q) (len out) s =
    Ok (tokens_meaning q out ts ++ skipn (length (tokens_meaning q out ts) - length out) rest,
        rl (tokens_recents q ts), len (tokens_meaning q out ts), s') /\ Rt data s' r.
Proof.
  intros Hwf Tl Tm Ta. induction ts as [| t ts IH]; intros fuel q out rest s Hv Hl Hf Hst.
  - destruct fuel; [lia |]. cbn [lzx_huffman_block flat_map app tokens_meaning tokens_recents fold_left] in *.
    destruct (N.ltb_spec (len out) (len out)); [lia |]. rewrite Nat.sub_diag. exists s. auto.
  - destruct fuel as [| fuel]; [lia |]. cbn [tokens_valid] in Hv. destruct Hv as [Hvt Hv].
    cbn [tokens_meaning] in *. cbn [flat_map] in Hst. rewrite <- app_assoc in Hst.
    change (tokens_recents q (t :: ts)) with (tokens_recents (recents_after q t) ts).
    destruct (token_grows q out t) as (w & Ew & Lw). pose proof (token_size _ _ _ _ Hvt) as Hsz.
    destruct (tokens_grow ts (recents_after q t) (token_meaning q out t)) as (w2 & Ew2).
    set (final := tokens_meaning (recents_after q t) (token_meaning q out t) ts) in *.
    assert (Hroom : (length w <= length rest)%nat).
    { rewrite Ew2, Ew, !len_app in Hl. unfold len in Hl. lia. }
    assert (Hlt : len out < len final).
    { rewrite Ew2, Ew, !len_app. unfold len. lia. }
    assert (Next : forall s2, Rt data s2 (flat_map (token_bits c) ts ++ r) ->
      exists s', lzx_huffman_block fuel data lit mat at_ (len final) ((out ++ w) ++ skipn (length w) rest)
        (rl (recents_after q t)) (len (out ++ w)) s2 =
        Ok (final ++ skipn (length final - length out) rest, rl (tokens_recents (recents_after q t) ts), len final, s') /\
        Rt data s' r).
    { intros s2 Hst2. rewrite Ew in *.
      assert (H1 : len final <= len (out ++ w) + len (skipn (length w) rest)).
      { rewrite Ew2 in Hl |- *. rewrite !len_app in Hl. rewrite !len_app. unfold len in Hl |- *.
        rewrite skipn_length. clear - Hl Hroom. lia. }
      assert (H2 : (length (skipn (length w) rest) < fuel)%nat) by (rewrite skipn_length; lia).
      pose proof (IH fuel (recents_after q t) (out ++ w) (skipn (length w) rest) s2 Hv) as IH'.
      replace (tokens_meaning (recents_after q t) (out ++ w) ts) with final in IH' by (unfold final; now rewrite Ew).
      destruct (IH' H1 H2 Hst2) as (s' & E & S').
      exists s'. split; [| exact S']. rewrite E, skipn_skipn.
      replace (length final - length (out ++ w) + length w)%nat with (length final - length out)%nat; [reflexivity |].
      rewrite Ew2, !app_length. clear. lia. }
    cbn [lzx_huffman_block]. destruct (N.ltb_spec (len out) (len final)) as [_ | ?]; [| lia].
    unfold token_bits in Hst. rewrite <- !app_assoc in Hst.
    pose proof Hvt as (Hc & Hcs & Hkind).
    destruct (Rt_symbol _ _ _ _ _ _ _ Hwf Tl Hc Hst) as (s1 & E1 & S1). rewrite E1. cbn [bind]. clear E1.
    destruct t as [b | sl n | sl extra n].
    + cbn [main_symbol token_meaning uses_size_code app] in *. destruct (N.ltb_spec b 256); [| lia].
      apply app_inv_head in Ew. subst w.
      destruct rest as [| x rest]; [cbn [length] in Hroom; lia |].
      rewrite len_app, len_cons. destruct (N.ltb_spec (len out) (len out + (len rest + 1))); [| lia]. cbn [check bind].
      rewrite Lz_proofs.upd_end. cbn [bind].
      destruct (Next s1 S1) as (s' & E & S'). exists s'. split; [| exact S'].
      cbn [length skipn] in E. rewrite <- app_assoc in E. cbn [app] in E.
      rewrite len_app in E. change (len [b]) with 1 in E. exact E.
    + assert (Hn : 2 <= n <= 257) by tauto.
      destruct (symbol_parts sl n ltac:(lia)) as (P1 & P2 & P3).
      cbn [main_symbol slot_of] in *. set (sym := 256 + 8 * sl + N.min (n - 2) 7) in *.
      destruct (N.ltb_spec sym 256); [lia |]. rewrite P1.
      assert (Hsize : exists s2, (if N.min (n - 2) 7 =? 7 then
               '(more, s) <- decode_symbol (x_get_value data 1) mat s1 ;; Ok (N.min (n - 2) 7 + more, s)
             else Ok (N.min (n - 2) 7, s1)) = Ok (n - 2, s2) /\ Rt data s2 (flat_map (token_bits c) ts ++ r)).
      { cbn [uses_size_code size_of] in *. destruct (N.leb_spec 9 n) as [H9 | H9].
        - replace (N.min (n - 2) 7) with 7 by lia. change (7 =? 7) with true. cbv iota.
          destruct (Rt_symbol _ _ _ _ _ _ _ Hwf Tm (Hcs eq_refl) S1) as (s2 & E2 & S2). rewrite E2. cbn [bind].
          exists s2. split; [| exact S2]. do 2 f_equal. lia.
        - destruct (N.eqb_spec (N.min (n - 2) 7) 7); [lia |]. exists s1. split; [do 2 f_equal; lia | exact S1]. }
      destruct Hsize as (s2 & E2 & S2). rewrite E2. cbn [bind]. rewrite P2.
      destruct (distance_rt data c q out (XRecent sl n) at_ s2 _ Hwf Ta ltac:(discriminate) Hvt S2) as (s3 & E3 & S3).
      cbn [slot_of] in E3. rewrite E3. cbn [bind].
      assert (Hd : 1 <= distance_of q (XRecent sl n) <= len out) by tauto.
      cbn [token_meaning size_of] in *. set (d := distance_of q (XRecent sl n)) in *. clearbody d.
      destruct (N.leb_spec d (len out)); [| lia]. cbn [check bind]. rewrite len_app.
      unfold sub_chk at 1. destruct (N.leb_spec (len out) (len out + len rest)); [| lia]. cbn [bind].
      rewrite N.sub_add by lia.
      destruct (N.leb_spec n (len out + len rest - len out)); [| unfold len in *; lia]. cbn [check bind].
      unfold sub_chk. destruct (N.leb_spec d (len out)); [| lia]. cbn [bind].
      rewrite copy_end by (unfold len in *; lia). cbn [bind]. rewrite Ew.
      destruct (Next s3 S3) as (s' & E & S'). exists s'. split; [| exact S'].
      rewrite Lw in E. replace (len (out ++ w)) with (len out + n) in E by (rewrite len_app; unfold len; lia). exact E.
    + assert (Hn : 2 <= n <= 257) by tauto.
      destruct (symbol_parts sl n ltac:(lia)) as (P1 & P2 & P3).
      cbn [main_symbol slot_of] in *. set (sym := 256 + 8 * sl + N.min (n - 2) 7) in *.
      destruct (N.ltb_spec sym 256); [lia |]. rewrite P1.
      assert (Hsize : exists s2, (if N.min (n - 2) 7 =? 7 then
               '(more, s) <- decode_symbol (x_get_value data 1) mat s1 ;; Ok (N.min (n - 2) 7 + more, s)
             else Ok (N.min (n - 2) 7, s1)) = Ok (n - 2, s2) /\ Rt data s2 (extra_bits c sl extra ++ flat_map (token_bits c) ts ++ r)).
      { cbn [uses_size_code size_of] in *. destruct (N.leb_spec 9 n) as [H9 | H9].
        - replace (N.min (n - 2) 7) with 7 by lia. change (7 =? 7) with true. cbv iota.
          destruct (Rt_symbol _ _ _ _ _ _ _ Hwf Tm (Hcs eq_refl) S1) as (s2 & E2 & S2). rewrite E2. cbn [bind].
          exists s2. split; [| exact S2]. do 2 f_equal. lia.
        - destruct (N.eqb_spec (N.min (n - 2) 7) 7); [lia |]. exists s1. split; [do 2 f_equal; lia | exact S1]. }
      destruct Hsize as (s2 & E2 & S2). rewrite E2. cbn [bind]. rewrite P2.
      destruct (distance_rt data c q out (XMatch sl extra n) at_ s2 _ Hwf Ta ltac:(discriminate) Hvt S2) as (s3 & E3 & S3).
      cbn [slot_of] in E3. rewrite E3. cbn [bind].
      assert (Hd : 1 <= distance_of q (XMatch sl extra n) <= len out).
      { destruct Hkind as (K1 & K2 & K3 & K4 & _). destruct (slot_tables sl K1) as (_ & _ & _ & T4 & _).
        split; [cbn [distance_of]; lia | exact K4]. }
      cbn [token_meaning size_of] in *. set (d := distance_of q (XMatch sl extra n)) in *. clearbody d.
      destruct (N.leb_spec d (len out)); [| lia]. cbn [check bind]. rewrite len_app.
      unfold sub_chk at 1. destruct (N.leb_spec (len out) (len out + len rest)); [| lia]. cbn [bind].
      rewrite N.sub_add by lia.
      destruct (N.leb_spec n (len out + len rest - len out)); [| unfold len in *; lia]. cbn [check bind].
      unfold sub_chk. destruct (N.leb_spec d (len out)); [| lia]. cbn [bind].
      rewrite copy_end by (unfold len in *; lia). cbn [bind]. rewrite Ew.
      destruct (Next s3 S3) as (s' & E & S'). exists s'. split; [| exact S'].
      rewrite Lw in E. replace (len (out ++ w)) with (len out + n) in E by (rewrite len_app; unfold len; lia). exact E.
Qed.
