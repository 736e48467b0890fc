From Coq Require Import Permutation Sorted.
From Verif Require Import Base BaseLemmas Lz_model Huffman_model Huffman_spec Huffman_proofs Bzip2_model Bzip2_spec.
Ltac Zify.zify_post_hook ::= idtac.

(** ** Bits *)
Lemma pow2_pos k : 0 < 2 ^ k.
Proof. apply N.neq_0_lt_0, N.pow_nonzero. lia. Qed.
Lemma bits_msb_length n v : length (bits_msb n v) = n.
Proof. induction n; cbn [bits_msb length]; congruence. Qed.
Lemma bits_msb_mod b : forall v, bits_msb b (v mod 2 ^ N.of_nat b) = bits_msb b v.
Proof.
  intros v. assert (H : forall n, (n <= b)%nat -> bits_msb n (v mod 2 ^ N.of_nat b) = bits_msb n v).
  { induction n as [| n IH]; intros Hn; [reflexivity |]. cbn [bits_msb]. rewrite IH by lia.
    rewrite N.mod_pow2_bits_low by lia. reflexivity. }
  apply H. lia.
Qed.
Lemma bits_msb_app a b v : bits_msb (a + b) v = bits_msb a (v / 2 ^ N.of_nat b) ++ bits_msb b v.
Proof.
  induction a as [| a IH]; [reflexivity |]. cbn [Nat.add bits_msb app]. rewrite IH. f_equal.
  rewrite N.div_pow2_bits. f_equal. lia.
Qed.
Lemma bits_msb_cat a b v w : w < 2 ^ N.of_nat b ->
  bits_msb (a + b) (v * 2 ^ N.of_nat b + w) = bits_msb a v ++ bits_msb b w.
Proof.
  intros H. rewrite bits_msb_app. pose proof (pow2_pos (N.of_nat b)) as Hp. f_equal.
  - f_equal. rewrite N.div_add_l by lia. rewrite N.div_small by exact H. lia.
  - rewrite <- bits_msb_mod. f_equal. rewrite N.add_comm, N.mod_add by lia. now apply N.mod_small.
Qed.
Lemma bits_msb_inj n : forall v w, v < 2 ^ N.of_nat n -> w < 2 ^ N.of_nat n -> bits_msb n v = bits_msb n w -> v = w.
Proof.
  intros v w Hv Hw E. apply N.bits_inj. intros k.
  destruct (N.lt_ge_cases k (N.of_nat n)) as [Hk | Hk].
  - assert (H : forall m, (m <= n)%nat -> bits_msb m v = bits_msb m w -> forall k, k < N.of_nat m -> N.testbit v k = N.testbit w k).
    { induction m as [| m IH]; intros Hm Em k' Hk'; [lia |]. cbn [bits_msb] in Em. injection Em as E1 E2.
      destruct (N.eq_dec k' (N.of_nat m)) as [-> | Hne]; [exact E1 |]. apply IH; [lia | exact E2 | lia]. }
    apply (H n); [lia | exact E | exact Hk].
  - assert (Z : forall x, x < 2 ^ N.of_nat n -> N.testbit x k = false).
    { intros x Hx. destruct (N.eq_dec x 0) as [-> | Hx0]; [apply N.bits_0 |].
      apply N.bits_above_log2. apply N.lt_le_trans with (N.of_nat n); [| exact Hk].
      apply N.log2_lt_pow2; [lia | exact Hx]. }
    now rewrite !Z.
Qed.
Lemma land_lt a k : N.land a (N.ones k) = a mod 2 ^ k.
Proof. apply N.land_ones. Qed.
Lemma lor_add v b k : b < 2 ^ k -> N.lor (N.shiftl v k) b = v * 2 ^ k + b.
Proof.
  intros H. rewrite <- N.shiftl_mul_pow2. symmetry. rewrite N.add_nocarry_lxor.
  - apply N.lxor_lor. apply N.bits_inj. intros i. rewrite N.land_spec, N.bits_0.
    destruct (N.lt_ge_cases i k) as [Hi | Hi].
    + rewrite N.shiftl_spec_low by exact Hi. reflexivity.
    + replace (N.testbit b i) with false; [apply andb_false_r |]. symmetry.
      destruct (N.eq_dec b 0) as [-> | Hb]; [apply N.bits_0 |].
      apply N.bits_above_log2. apply N.lt_le_trans with k; [apply N.log2_lt_pow2; [lia | exact H] | exact Hi].
  - apply N.bits_inj. intros i. rewrite N.land_spec, N.bits_0.
    destruct (N.lt_ge_cases i k) as [Hi | Hi].
    + rewrite N.shiftl_spec_low by exact Hi. reflexivity.
    + replace (N.testbit b i) with false; [apply andb_false_r |]. symmetry.
      destruct (N.eq_dec b 0) as [-> | Hb]; [apply N.bits_0 |].
      apply N.bits_above_log2. apply N.lt_le_trans with k; [apply N.log2_lt_pow2; [lia | exact H] | exact Hi].
Qed.

(** ** The bit stream: what is left of it *)
Definition view (data : list N) (s : bz_stream) : list bool :=
  bits_msb (N.to_nat (bz_count s)) (bz_bits s) ++ bytes_bits (skipn (N.to_nat (bz_offset s)) data).
Definition bz_inv (s : bz_stream) : Prop := bz_bits s < 2 ^ bz_count s.
Definition bz_good (s : bz_stream) : Prop := bz_count s < 8 /\ bz_inv s.

Lemma skipn_idx {A} (l : list A) i x : idx l i = Ok x -> skipn (N.to_nat i) l = x :: skipn (N.to_nat (i + 1)) l.
Proof.
  unfold idx. intros E. destruct (nth_error l (N.to_nat i)) as [y |] eqn:En; [| discriminate]. injection E as ->.
  replace (N.to_nat (i + 1)) with (S (N.to_nat i)) by lia.
  revert En. generalize (N.to_nat i). clear i. induction l as [| z l IH]; intros [| i] En; try discriminate.
  - cbn in En. injection En as ->. reflexivity.
  - cbn [nth_error] in En. cbn [skipn]. now apply IH.
Qed.
Lemma wf_idx l i x : wf_bytes l -> idx l i = Ok x -> x < 256.
Proof.
  intros H E. unfold idx in E. destruct (nth_error l (N.to_nat i)) as [y |] eqn:En; [| discriminate]. injection E as ->.
  apply nth_error_In in En. unfold wf_bytes in H. rewrite Forall_forall in H. apply (H _ En).
Qed.

Lemma bz_read_data_ok data n : wf_bytes data -> n <= 24 -> forall fuel s,
  bz_inv s -> n <= bz_count s + 8 * N.of_nat fuel -> bz_count s < n + 8 ->
  exists s' k, bz_read_data (S fuel) data n s = Ok s' /\ bz_inv s' /\ n <= bz_count s' < n + 8 /\
    view data s' = view data s ++ repeat false k /\ (n <= len (view data s) -> k = 0%nat) /\
    bz_offset s <= bz_offset s' /\
    (bz_count s < n -> bz_offset s < len data -> bz_offset s < bz_offset s').
Proof.
  intros Hwf Hn. induction fuel as [| fuel IH]; intros s Hs Hf Hb.
  - cbn [bz_read_data]. destruct (N.ltb_spec (bz_count s) n); [lia |].
    exists s, 0%nat. cbn [repeat]. rewrite app_nil_r. repeat split; auto; lia.
  - remember (S fuel) as f. cbn [bz_read_data].
    destruct (N.ltb_spec (bz_count s) n) as [Hlt | Hge].
    2:{ exists s, 0%nat. cbn [repeat]. rewrite app_nil_r. repeat split; auto; lia. }
    subst f. unfold bz_inv in Hs.
    assert (E8 : shl_chk 32 (bz_bits s) 8 = Ok (bz_bits s * 2 ^ 8)).
    { unfold shl_chk. change (8 <? 32) with true. cbn iota. rewrite N.shiftl_mul_pow2, N.mod_small; [reflexivity |].
      apply N.lt_le_trans with (2 ^ bz_count s * 2 ^ 8); [apply N.mul_lt_mono_pos_r; [reflexivity | exact Hs] |].
      rewrite <- N.pow_add_r. apply N.pow_le_mono_r; lia. }
    rewrite E8. cbn [bind].
    destruct (N.ltb_spec (bz_offset s) (len data)) as [Ho | Ho].
    + pose proof (idx_ok data (bz_offset s) 0 Ho) as Ei.
      set (b := nth (N.to_nat (bz_offset s)) data 0) in *.
      rewrite Ei. cbn [bind]. pose proof (wf_idx _ _ _ Hwf Ei) as Hb8.
      rewrite <- N.shiftl_mul_pow2, lor_add by exact Hb8.
      set (s1 := mk_bz (bz_offset s + 1) (bz_bits s * 2 ^ 8 + b) (bz_count s + 8)).
      assert (I1 : bz_inv s1).
      { unfold bz_inv, s1. cbn [bz_bits bz_count]. rewrite N.pow_add_r. change (2 ^ 8) with 256. lia. }
      assert (V1 : view data s1 = view data s).
      { unfold view, s1. cbn [bz_bits bz_count bz_offset]. rewrite (skipn_idx _ _ _ Ei).
        replace (N.to_nat (bz_count s + 8)) with (N.to_nat (bz_count s) + 8)%nat by lia.
        change (2 ^ 8) with (2 ^ N.of_nat 8). rewrite bits_msb_cat by exact Hb8.
        unfold bytes_bits. cbn [flat_map]. now rewrite <- app_assoc. }
      destruct (IH s1 I1) as (s' & k & E & I & C & V & Z & O1 & O2); try (unfold s1; cbn [bz_count]; clear - Hf Hb Hlt; lia).
      exists s', k. rewrite V1 in V, Z. unfold s1 in O1 at 1. cbn [bz_offset] in O1.
      repeat split; auto; try (clear - C O1; lia).
    + cbn [bind].
      set (s1 := mk_bz (bz_offset s) (bz_bits s * 2 ^ 8) (bz_count s + 8)).
      assert (I1 : bz_inv s1).
      { unfold bz_inv, s1. cbn [bz_bits bz_count]. rewrite N.pow_add_r. change (2 ^ 8) with 256. lia. }
      assert (Hnil : skipn (N.to_nat (bz_offset s)) data = []).
      { apply skipn_all2. unfold len in Ho. lia. }
      assert (V1 : view data s1 = view data s ++ repeat false 8).
      { unfold view, s1. cbn [bz_bits bz_count bz_offset]. rewrite Hnil. cbn [bytes_bits flat_map]. rewrite !app_nil_r.
        replace (N.to_nat (bz_count s + 8)) with (N.to_nat (bz_count s) + 8)%nat by lia.
        replace (bz_bits s * 2 ^ 8) with (bz_bits s * 2 ^ N.of_nat 8 + 0) by (change (N.of_nat 8) with 8; lia).
        rewrite bits_msb_cat by reflexivity. reflexivity. }
      destruct (IH s1 I1) as (s' & k & E & I & C & V & Z & O1 & O2); try (unfold s1; cbn [bz_count]; clear - Hf Hb Hlt; lia).
      exists s', (8 + k)%nat. rewrite V1 in V, Z. unfold s1 in O1 at 1. cbn [bz_offset] in O1.
      repeat split; auto; try (clear - C O1 Ho; lia).
      * rewrite V, <- app_assoc, <- repeat_app. reflexivity.
      * intros Hx. exfalso. clear - Hx Hlt Hnil. unfold view, len in Hx. rewrite Hnil in Hx.
        cbn [bytes_bits flat_map] in Hx. rewrite app_nil_r, bits_msb_length in Hx. lia.
Qed.

Definition bz_fetch (data : list N) (r : N) (s : bz_stream) : res bz_stream :=
  if bz_count s <? r then bz_read_data 4 data r s else Ok s.
Definition bz_split (s : bz_stream) (left : N) : res (N * N) :=
  if left =? 0 then Ok (0, bz_bits s)
  else
    shift <- sub_chk 32 left ;;
    mask <- shr_chk 32 0xffffffff shift ;;
    value <- shr_chk 32 (bz_bits s) left ;;
    Ok (N.land (bz_bits s) mask, value).

Lemma bz_split_ok s left : left < 32 -> bz_split s left =
  Ok (bz_bits s mod 2 ^ left, bz_bits s / 2 ^ left) .
Proof.
  intros H. unfold bz_split. destruct (N.eqb_spec left 0) as [-> | H0].
  - now rewrite N.pow_0_r, N.mod_1_r, N.div_1_r.
  - unfold sub_chk. destruct (N.leb_spec left 32); [| lia]. cbn [bind].
    unfold shr_chk. destruct (N.ltb_spec (32 - left) 32); [| lia]. cbn [bind].
    destruct (N.ltb_spec left 32); [| lia]. cbn [bind]. f_equal. f_equal.
    + replace (N.shiftr 4294967295 (32 - left)) with (N.ones left); [apply N.land_ones |].
      change 4294967295 with (N.ones 32). replace 32 with ((32 - left) + left) at 1 by lia.
      rewrite N.shiftr_div_pow2. rewrite N.ones_div_pow2 by lia. f_equal. lia.
    + now rewrite N.shiftr_div_pow2.
Qed.

Lemma bz_round_ok data r s : wf_bytes data -> r <= 24 -> bz_good s ->
  exists s1 k, bz_fetch data r s = Ok s1 /\ r <= bz_count s1 < 32 /\
    bz_split s1 (bz_count s1 - r) = Ok (bz_bits s1 mod 2 ^ (bz_count s1 - r), bz_bits s1 / 2 ^ (bz_count s1 - r)) /\
    let s2 := mk_bz (bz_offset s1) (bz_bits s1 mod 2 ^ (bz_count s1 - r)) (bz_count s1 - r) in
    bz_good s2 /\ bz_bits s1 / 2 ^ (bz_count s1 - r) < 2 ^ r /\
    bits_msb (N.to_nat r) (bz_bits s1 / 2 ^ (bz_count s1 - r)) ++ view data s2 = view data s ++ repeat false k /\
    (r <= len (view data s) -> k = 0%nat) /\
    bz_offset s <= bz_offset s2 /\ (8 <= r -> bz_offset s < len data -> bz_offset s < bz_offset s2).
Proof.
  intros Hwf Hr [H8 Hi].
  assert (Hx : exists s1 k, bz_fetch data r s = Ok s1 /\ bz_inv s1 /\ r <= bz_count s1 < r + 8 /\
    view data s1 = view data s ++ repeat false k /\ (r <= len (view data s) -> k = 0%nat) /\
    bz_offset s <= bz_offset s1 /\ (8 <= r -> bz_offset s < len data -> bz_offset s < bz_offset s1)).
  { unfold bz_fetch. destruct (N.ltb_spec (bz_count s) r).
    - destruct (bz_read_data_ok data r Hwf Hr 3 s Hi) as (s' & k & ? & ? & ? & ? & ? & ? & ?); [lia | lia |].
      exists s', k. repeat split; auto; lia.
    - exists s, 0%nat. cbn [repeat]. rewrite app_nil_r. repeat split; auto; lia. }
  destruct Hx as (s1 & k & E1 & I1 & C1 & V1 & Z1 & O1 & O2).
  exists s1, k. split; [exact E1 |]. split; [lia |]. split; [apply bz_split_ok; lia |].
  cbv zeta. unfold bz_inv in I1. pose proof (pow2_pos (bz_count s1 - r)) as Hp.
  split; [split; [cbn; lia | unfold bz_inv; cbn [bz_bits bz_count]; apply N.mod_lt; lia] |].
  split; [apply N.div_lt_upper_bound; [lia |]; rewrite <- N.pow_add_r; replace (bz_count s1 - r + r) with (bz_count s1) by lia; exact I1 |].
  split; [| split; [exact Z1 | split; [exact O1 | exact O2]]].
  rewrite <- V1. unfold view. cbn [bz_bits bz_count bz_offset]. rewrite app_assoc. f_equal.
  replace (N.to_nat (bz_count s1)) with (N.to_nat r + N.to_nat (bz_count s1 - r))%nat by lia.
  rewrite bits_msb_app. rewrite N2Nat.id. f_equal.
  rewrite <- (bits_msb_mod (N.to_nat (bz_count s1 - r)) (bz_bits s1)). now rewrite N2Nat.id.
Qed.

Lemma bz_value_step fuel data n o v s : bz_value_loop (S fuel) data n o v s =
  if o <? n then
    let r := if 24 <? n - o then 24 else n - o in
    s <- bz_fetch data r s ;;
    left <- sub_chk (bz_count s) r ;;
    '(bits, value) <- bz_split s left ;;
    v <- (if 0 <? o then shl_chk 32 v r else Ok v) ;;
    bz_value_loop fuel data n (o + r) (N.lor v value) (mk_bz (bz_offset s) bits left)
  else Ok (v, s).
Proof. reflexivity. Qed.

Lemma bz_turn_ok data r s : wf_bytes data -> r <= 24 -> bz_good s ->
  exists v s' k, (forall fuel n o bv, o < n -> r = (if 24 <? n - o then 24 else n - o) ->
      bz_value_loop (S fuel) data n o bv s =
      (bv <- (if 0 <? o then shl_chk 32 bv r else Ok bv) ;; bz_value_loop fuel data n (o + r) (N.lor bv v) s')) /\
    bz_good s' /\ v < 2 ^ r /\
    bits_msb (N.to_nat r) v ++ view data s' = view data s ++ repeat false k /\
    (r <= len (view data s) -> k = 0%nat) /\
    bz_offset s <= bz_offset s' /\ (8 <= r -> bz_offset s < len data -> bz_offset s < bz_offset s').
Proof.
  intros Hwf Hr Hg.
  destruct (bz_round_ok data r s Hwf Hr Hg) as (s1 & k & E1 & C1 & Sp & G & B & V & Z & O & P).
  eexists _, _, k. split; [| split; [exact G | split; [exact B | split; [exact V | split; [exact Z | split; [exact O | exact P]]]]]].
  intros fuel n o bv Ho Er. rewrite bz_value_step. apply N.ltb_lt in Ho. rewrite Ho. cbv zeta. rewrite <- Er, E1. cbn [bind].
  unfold sub_chk. destruct C1 as [C1 _]. apply N.leb_le in C1. rewrite C1. cbn [bind]. rewrite Sp. reflexivity.
Qed.

Lemma bz_value_ok data n s : wf_bytes data -> n <= 32 -> bz_good s ->
  exists v s' k, bz_value data n s = Ok (v, s') /\ bz_good s' /\ v < 2 ^ n /\
    bits_msb (N.to_nat n) v ++ view data s' = view data s ++ repeat false k /\
    (n <= len (view data s) -> k = 0%nat) /\
    bz_offset s <= bz_offset s' /\ (8 <= n -> bz_offset s < len data -> bz_offset s < bz_offset s').
Proof.
  intros Hwf Hn Hg. unfold bz_value.
  destruct (N.eq_dec n 0) as [-> | H0].
  { exists 0, s, 0%nat. cbn [repeat N.to_nat bits_msb app]. rewrite app_nil_r.
    repeat split; try apply Hg; try reflexivity; lia. }
  destruct (N.ltb_spec 24 n) as [H24 | H24].
  - destruct (bz_turn_ok data 24 s Hwf ltac:(lia) Hg) as (v1 & s1 & k1 & E1 & G1 & B1 & V1 & Z1 & O1 & P1).
    destruct (bz_turn_ok data (n - 24) s1 Hwf ltac:(lia) G1) as (v3 & s3 & k2 & E3 & G3 & B3 & V3 & Z3 & O3 & P3).
    rewrite (E1 2%nat n 0 0) by (try lia; rewrite N.sub_0_r; destruct (N.ltb_spec 24 n); lia). clear E1.
    change (0 <? 0) with false. cbn [bind]. rewrite N.add_0_l, N.lor_0_l.
    rewrite (E3 1%nat n 24 v1) by (try lia; destruct (N.ltb_spec 24 (n - 24)); lia). clear E3.
    change (0 <? 24) with true. cbv iota.
    unfold shl_chk. destruct (N.ltb_spec (n - 24) 32); [| lia]. cbn [bind].
    assert (Hsm : v1 * 2 ^ (n - 24) < 2 ^ 32).
    { apply N.lt_le_trans with (2 ^ 24 * 2 ^ (n - 24)); [apply N.mul_lt_mono_pos_r; [apply pow2_pos | exact B1] |].
      rewrite <- N.pow_add_r. apply N.pow_le_mono_r; [discriminate |]. clear - Hn H24. lia. }
    rewrite N.shiftl_mul_pow2, N.mod_small by exact Hsm. rewrite <- N.shiftl_mul_pow2, lor_add by exact B3.
    replace (24 + (n - 24)) with n by (clear - H24; lia).
    rewrite bz_value_step. rewrite N.ltb_irrefl.
    exists (v1 * 2 ^ (n - 24) + v3), s3, (k1 + k2)%nat. split; [reflexivity |]. split; [exact G3 |].
    split. { assert (En : 2 ^ n = 2 ^ 24 * 2 ^ (n - 24)) by (rewrite <- N.pow_add_r; f_equal; clear - H24; lia).
      rewrite En. pose proof (N.mul_le_mono_r (v1 + 1) (2 ^ 24) (2 ^ (n - 24)) ltac:(clear - B1; lia)) as Hm.
      clear - Hm B3. revert Hm B3. generalize (2 ^ (n - 24)) (2 ^ 24). intros x y. lia. }
    split.
    { replace (N.to_nat n) with (24 + N.to_nat (n - 24))%nat by (clear - H24; lia).
      replace (2 ^ (n - 24)) with (2 ^ N.of_nat (N.to_nat (n - 24))) by now rewrite N2Nat.id.
      rewrite bits_msb_cat by (rewrite N2Nat.id; exact B3). rewrite <- app_assoc, V3.
      change 24%nat with (N.to_nat 24). rewrite app_assoc, V1, <- app_assoc, <- repeat_app. reflexivity. }
    split; [| clear - O1 O3 P1 P3; split; [lia | intros _ Hd; specialize (P1 ltac:(lia) Hd); lia]].
    intros Hle. assert (k1 = 0)%nat by (apply Z1; clear - Hle H24; lia). assert (k2 = 0)%nat; [apply Z3 | clear - H1 H2; lia].
    subst k1. cbn [repeat] in V1. rewrite app_nil_r in V1.
    apply (f_equal len) in V1. rewrite len_app in V1. unfold len at 1 in V1. rewrite bits_msb_length in V1.
    clear - V1 Hle H24. lia.
  - destruct (bz_turn_ok data n s Hwf ltac:(lia) Hg) as (v1 & s1 & k1 & E1 & G1 & B1 & V1 & Z1 & O1 & P1).
    rewrite (E1 2%nat n 0 0) by (try lia; rewrite N.sub_0_r; destruct (N.ltb_spec 24 n); lia). clear E1.
    change (0 <? 0) with false. cbn [bind]. rewrite N.add_0_l, N.lor_0_l.
    rewrite bz_value_step, N.ltb_irrefl.
    exists v1, s1, k1. split; [reflexivity |]. auto 8.
Qed.

(** ** Reading what is there *)
Definition At (data : list N) (s : bz_stream) (r : list bool) : Prop := bz_good s /\ view data s = r.

Lemma app_inj_len {A} (a b c d : list A) : length a = length c -> a ++ b = c ++ d -> a = c /\ b = d.
Proof.
  revert c. induction a as [| x a IH]; intros [| y c] Hl E; cbn in Hl; try lia; [auto |].
  cbn [app] in E. injection E as -> E. destruct (IH c ltac:(lia) E) as [-> ->]. auto.
Qed.

Lemma At_value data n v s r : wf_bytes data -> (n <= 32)%nat -> v < 2 ^ N.of_nat n ->
  At data s (number_bits n v ++ r) -> exists s', bz_value data (N.of_nat n) s = Ok (v, s') /\ At data s' r.
Proof.
  intros Hwf Hn Hv [Hg Hview].
  destruct (bz_value_ok data (N.of_nat n) s Hwf ltac:(lia) Hg) as (v' & s' & k & E & G & B & V & Z & _).
  rewrite Z in V; [| rewrite Hview, len_app; unfold len, number_bits; rewrite bits_msb_length; lia].
  cbn [repeat] in V. rewrite app_nil_r, Hview, Nat2N.id in V. unfold number_bits in V.
  apply app_inj_len in V; [| now rewrite !bits_msb_length]. destruct V as [V1 V2].
  apply bits_msb_inj in V1; auto. subst v'. exists s'. split; [exact E |]. split; assumption.
Qed.
Lemma At_bit data b s r : wf_bytes data -> At data s (b :: r) ->
  exists s', bz_value data 1 s = Ok (N.b2n b, s') /\ At data s' r.
Proof.
  intros Hwf H. apply (At_value data 1 (N.b2n b)); auto; [lia | destruct b; cbn; lia |].
  destruct b; exact H.
Qed.
Lemma At_yields data w : wf_bytes data -> forall s r, At data s (w ++ r) ->
  exists s', yields (bz_value data 1) s w s' /\ At data s' r.
Proof.
  intros Hwf. induction w as [| b w IH]; intros s r H.
  - exists s. split; [constructor | exact H].
  - destruct (At_bit data b s (w ++ r) Hwf H) as (s1 & E1 & H1).
    destruct (IH s1 r H1) as (s2 & Y & H2). exists s2. split; [econstructor; eauto | exact H2].
Qed.
Lemma bz_endless data : wf_bytes data -> endless (bz_value data 1) bz_good.
Proof.
  intros Hwf s Hg. destruct (bz_value_ok data 1 s Hwf ltac:(lia) Hg) as (v & s' & k & E & G & B & _).
  change (2 ^ 1) with 2 in B. exists (N.odd v), s'. split; [| exact G]. rewrite E. do 2 f_equal.
  assert (v = 0 \/ v = 1) as [-> | ->] by lia; reflexivity.
Qed.

(** ** The symbol stack *)
Lemma land_head n v : negb (N.land v (2 ^ N.of_nat (S n) / 2) =? 0) = N.testbit v (N.of_nat n).
Proof.
  replace (2 ^ N.of_nat (S n) / 2) with (2 ^ N.of_nat n).
  2:{ rewrite Nat2N.inj_succ, N.pow_succ_r', N.mul_comm, N.div_mul by lia. reflexivity. }
  destruct (N.testbit v (N.of_nat n)) eqn:E.
  - apply negb_true_iff, N.eqb_neq. intros Z.
    apply (f_equal (fun x => N.testbit x (N.of_nat n))) in Z. rewrite N.land_spec, E, N.pow2_bits_true, N.bits_0 in Z. discriminate.
  - apply negb_false_iff, N.eqb_eq. apply N.bits_inj. intros k. rewrite N.land_spec, N.bits_0.
    destruct (N.eq_dec k (N.of_nat n)) as [-> | Hk]; [now rewrite E |].
    rewrite N.pow2_bits_false by auto. apply andb_false_r.
Qed.
Lemma mask_next n : N.shiftr (2 ^ N.of_nat (S n) / 2) 1 = 2 ^ N.of_nat n / 2.
Proof.
  rewrite Nat2N.inj_succ, N.pow_succ_r', N.mul_comm, N.div_mul by lia.
  rewrite N.shiftr_div_pow2. reflexivity.
Qed.
Lemma upd_end (a t : list N) x : t <> [] -> upd (a ++ t) (len a) x = Ok ((a ++ [x]) ++ tl t).
Proof.
  intros Ht. destruct t as [| y t]; [congruence |]. unfold upd.
  destruct (N.ltb_spec (len a) (len (a ++ y :: t))) as [_ | H]; [| rewrite len_app, len_cons in H; lia].
  f_equal. unfold len. rewrite Nat2N.id. induction a as [| z a IH]; [reflexivity |].
  cbn [length app set_nth tl] in *. now rewrite IH.
Qed.

Lemma bz_level2_ok g v : forall n i f a t, i + N.of_nat n = 16 -> bits_msb n v = map f (seqN i n) ->
  len a + N.of_nat n <= 256 -> len a + len t = 256 ->
  exists t', bz_level2 n v (2 ^ N.of_nat n / 2) g i (a ++ t) (len a) =
      Ok ((a ++ map (fun i => 16 * g + i) (filter f (seqN i n))) ++ t', len (a ++ map (fun i => 16 * g + i) (filter f (seqN i n)))) /\
    len (a ++ map (fun i => 16 * g + i) (filter f (seqN i n))) + len t' = 256.
Proof.
  induction n as [| n IH]; intros i f a t Hi Hb Hn Ht.
  - exists t. cbn [bz_level2 seqN filter map]. rewrite app_nil_r. auto.
  - cbn [seqN map bits_msb] in Hb. injection Hb as Hb1 Hb2.
    cbn [bz_level2 seqN filter]. rewrite land_head, mask_next, Hb1. destruct (f i).
    + destruct (N.ltb_spec 256 (len a)); [lia |]. cbn [negb check bind].
      rewrite upd_end by (intros ->; cbn in Ht; lia). cbn [bind].
      destruct (IH (i + 1) f (a ++ [16 * g + i]) (tl t)) as (t' & E & L); auto; try lia.
      * rewrite len_app. change (len [16 * g + i]) with 1. lia.
      * rewrite len_app. change (len [16 * g + i]) with 1. destruct t; [cbn in Ht; lia |]. rewrite len_cons in Ht. cbn [tl]. lia.
      * exists t'. cbn [map]. rewrite len_app in E at 1. change (len [16 * g + i]) with 1 in E.
        rewrite <- (app_assoc a [16 * g + i] (map _ _)) in E, L. split; [exact E | exact L].
    + destruct (IH (i + 1) f a t) as (t' & E & L); auto; try lia. exists t'. split; [exact E | exact L].
Qed.

Definition group_symbols (used : N -> bool) (g : N) : list N := map (fun i => 16 * g + i) (filter (fun i => used (16 * g + i)) (seqN 0 16)).
Lemma group_symbols_len used g : len (group_symbols used g) <= 16.
Proof.
  unfold group_symbols. rewrite len_map. eapply N.le_trans; [apply filter_le |]. cbn. lia.
Qed.
Lemma group_unused used g : group_used used g = false -> group_symbols used g = [].
Proof.
  unfold group_used, group_symbols. intros H. generalize (seqN 0 16) H. clear H. intros l H.
  induction l as [| x l IH]; [reflexivity |]. cbn [existsb] in H. apply orb_false_iff in H. destruct H as [H1 H2].
  cbn [filter]. rewrite H1. now apply IH.
Qed.
Lemma filter_map {A B} (f : B -> bool) (g : A -> B) l : filter f (map g l) = map g (filter (fun x => f (g x)) l).
Proof. induction l as [| x l IH]; [reflexivity |]. cbn [map filter]. destruct (f (g x)); cbn [map]; now rewrite IH. Qed.
Lemma seqN_app a n m : seqN a (n + m) = seqN a n ++ seqN (a + N.of_nat n) m.
Proof.
  revert a. induction n as [| n IH]; intros a; cbn [Nat.add seqN app]; [f_equal; lia |].
  rewrite IH. do 2 f_equal. f_equal. lia.
Qed.
Lemma seqN_shift a b n : seqN (a + b) n = map (fun i => a + i) (seqN b n).
Proof.
  revert b. induction n as [| n IH]; intros b; cbn [seqN map]; [reflexivity |]. f_equal.
  rewrite <- IH. f_equal. lia.
Qed.
Lemma alphabet_groups used : alphabet used = flat_map (group_symbols used) (seqN 0 16).
Proof.
  unfold alphabet.
  assert (H : forall n g, filter used (seqN (16 * g) (16 * n)) = flat_map (group_symbols used) (seqN g n)).
  { induction n as [| n IH]; intros g; [reflexivity |].
    replace (16 * S n)%nat with (16 + 16 * n)%nat by lia. rewrite seqN_app, filter_app.
    change (seqN g (S n)) with (g :: seqN (g + 1) n). cbn [flat_map]. f_equal.
    - rewrite <- (N.add_0_r (16 * g)) at 1. rewrite seqN_shift. apply filter_map.
    - replace (16 * g + N.of_nat 16) with (16 * (g + 1)) by lia. apply IH. }
  exact (H 16%nat 0).
Qed.
Lemma alphabet_nodup used : NoDup (alphabet used).
Proof.
  unfold alphabet. apply NoDup_filter. assert (H : forall n a, NoDup (seqN a n)).
  { induction n as [| n IH]; intros a; cbn [seqN]; constructor; [| apply IH]. intros Hin.
    apply in_seqN in Hin. lia. }
  apply H.
Qed.
Lemma alphabet_len used : len (alphabet used) <= 256.
Proof. unfold alphabet. eapply N.le_trans; [apply filter_le |]. unfold len. rewrite seqN_length. lia. Qed.

Lemma bits_value_exists : forall l : list bool, exists x, x < 2 ^ N.of_nat (length l) /\ bits_msb (length l) x = l.
Proof.
  induction l as [| b l IHl] using rev_ind; [exists 0; split; reflexivity |].
  destruct IHl as (x & Hx & Ex). exists (2 * x + N.b2n b). rewrite app_length. cbn [length].
  replace (length l + 1)%nat with (S (length l)) by lia. split.
  - rewrite Nat2N.inj_succ, N.pow_succ_r'. destruct b; cbn [N.b2n]; lia.
  - now rewrite <- bits_msb_snoc, Ex.
Qed.

Lemma bz_group_ok g v used a t : bits_msb 16 v = map (fun i => used (16 * g + i)) (seqN 0 16) ->
  len a <= 240 -> len a + len t = 256 ->
  exists t', bz_level2 16 v 0x8000 g 0 (a ++ t) (len a) =
      Ok ((a ++ group_symbols used g) ++ t', len (a ++ group_symbols used g)) /\
    len (a ++ group_symbols used g) + len t' = 256.
Proof.
  intros Hv Ha Ht. exact (bz_level2_ok g v 16 0 (fun i => used (16 * g + i)) a t eq_refl Hv ltac:(lia) Ht).
Qed.
Lemma groups_bits used : exists v, v < 2 ^ N.of_nat 16 /\ bits_msb 16 v = map (group_used used) (seqN 0 16).
Proof. exact (bits_value_exists (map (group_used used) (seqN 0 16))). Qed.
Lemma group_bits (used : N -> bool) g : exists v, v < 2 ^ N.of_nat 16 /\ bits_msb 16 v = map (fun i => used (16 * g + i)) (seqN 0 16).
Proof. exact (bits_value_exists (map (fun i => used (16 * g + i)) (seqN 0 16))). Qed.
Lemma bz_level1_ok data used v : wf_bytes data -> forall n g a t s r, g + N.of_nat n = 16 ->
  bits_msb n v = map (group_used used) (seqN g n) ->
  len a <= 16 * g -> len a + len t = 256 ->
  At data s (flat_map (fun g => if group_used used g then map (fun i => used (16 * g + i)) (seqN 0 16) else []) (seqN g n) ++ r) ->
  exists t' s', bz_level1 n data v (2 ^ N.of_nat n / 2) g (a ++ t) (len a) s =
      Ok ((a ++ flat_map (group_symbols used) (seqN g n)) ++ t', len (a ++ flat_map (group_symbols used) (seqN g n)), s') /\
    len (a ++ flat_map (group_symbols used) (seqN g n)) + len t' = 256 /\ At data s' r.
Proof.
  intros Hwf. induction n as [| n IH]; intros g a t s r Hg Hb Ha Ht Hs.
  - exists t, s. cbn [bz_level1 seqN flat_map]. rewrite app_nil_r. auto.
  - cbn [seqN map bits_msb] in Hb. injection Hb as Hb1 Hb2.
    change (seqN g (S n)) with (g :: seqN (g + 1) n) in Hs |- *. cbn [flat_map] in Hs.
    cbn [bz_level1 flat_map]. rewrite land_head, mask_next, Hb1. destruct (group_used used g) eqn:Eg.
    + rewrite <- app_assoc in Hs.
      destruct (group_bits used g) as (v2 & Hv2 & Ev2). rewrite <- Ev2 in Hs.
      destruct (At_value data 16 v2 s _ Hwf ltac:(lia) Hv2 Hs) as (s1 & E1 & H1).
      change (N.of_nat 16) with 16 in E1. rewrite E1. cbn [bind].
      destruct (bz_group_ok g v2 used a t Ev2 ltac:(lia) Ht) as (t1 & E2 & L2).
      rewrite E2. cbn [bind].
      destruct (IH (g + 1) (a ++ group_symbols used g) t1 s1 r) as (t' & s' & E & L & H); auto; try lia.
      { rewrite len_app. pose proof (group_symbols_len used g). lia. }
      exists t', s'. rewrite <- (app_assoc a (group_symbols used g) (flat_map _ _)) in E, L. auto.
    + cbn [bind]. rewrite (group_unused _ _ Eg). cbn [app] in *.
      destruct (IH (g + 1) a t s r) as (t' & s' & E & L & H); auto; try lia.
      exists t', s'. auto.
Qed.

Lemma bz_level1_all data used v stack s r : wf_bytes data ->
  bits_msb 16 v = map (group_used used) (seqN 0 16) -> len stack = 256 ->
  At data s (flat_map (fun g => if group_used used g then map (fun i => used (16 * g + i)) (seqN 0 16) else []) (seqN 0 16) ++ r) ->
  exists t s', bz_level1 16 data v 0x8000 0 stack 0 s = Ok (alphabet used ++ t, len (alphabet used), s') /\
    len (alphabet used ++ t) = 256 /\ At data s' r.
Proof.
  intros Hwf Ev Hl H. pose proof (bz_level1_ok data used v Hwf 16 0 [] stack s r eq_refl Ev) as P.
  rewrite <- alphabet_groups in P.
  assert (Em : 2 ^ N.of_nat 16 / 2 = 0x8000) by reflexivity. assert (En : len (@nil N) = 0) by reflexivity.
  assert (Ea : forall l : list N, [] ++ l = l) by reflexivity. rewrite Em, En, !Ea in P.
  destruct P as (t & s' & E & L & H'); [lia | lia | exact H |].
  exists t, s'. split; [exact E |]. split; [rewrite len_app; exact L | exact H'].
Qed.
Lemma bz_symbol_stack_ok data used stack s r : wf_bytes data -> len stack = 256 ->
  At data s (used_bits used ++ r) ->
  exists t s', bz_symbol_stack data stack s = Ok (alphabet used ++ t, len (alphabet used) + 2, s') /\
    len (alphabet used ++ t) = 256 /\ At data s' r.
Proof.
  intros Hwf Hl H. unfold used_bits in H. rewrite <- app_assoc in H. unfold bz_symbol_stack.
  destruct (groups_bits used) as (v & Hv & Ev).
  rewrite <- Ev in H. destruct (At_value data 16 v s _ Hwf ltac:(lia) Hv H) as (s1 & E1 & H1).
  change (N.of_nat 16) with 16 in E1. rewrite E1. cbn [bind].
  destruct (bz_level1_all data used v stack s1 r Hwf Ev Hl H1) as (t' & s' & E & L & H2).
  rewrite E. cbn [bind]. exists t', s'. auto.
Qed.

(** ** Moving to the front *)
Lemma idx_app_l {A} (a : list A) x t : idx (a ++ x :: t) (len a) = Ok x.
Proof. unfold idx, len. rewrite Nat2N.id, nth_error_app2, Nat.sub_diag by lia. reflexivity. Qed.
Lemma upd_app_l {A} (a : list A) x y t : upd (a ++ x :: t) (len a) y = Ok (a ++ y :: t).
Proof.
  unfold upd. destruct (N.ltb_spec (len a) (len (a ++ x :: t))) as [_ | H]; [| rewrite len_app, len_cons in H; lia].
  f_equal. unfold len. rewrite Nat2N.id. induction a as [| z a IH]; [reflexivity |]. cbn [length app set_nth]. now rewrite IH.
Qed.
Lemma shift_up_ok : forall a v t, shift_up (length a) (a ++ v :: t) = Ok (hd v a :: a ++ t).
Proof.
  intros a. induction a as [| y a IH] using rev_ind; intros v t; [reflexivity |].
  rewrite app_length. cbn [length]. replace (length a + 1)%nat with (S (length a)) by lia. cbn [shift_up].
  rewrite <- app_assoc. cbn [app]. change (N.of_nat (length a)) with (len a). rewrite idx_app_l. cbn [bind].
  replace (len a + 1) with (len (a ++ [y])) by (rewrite len_app; reflexivity).
  change (a ++ y :: v :: t) with (a ++ [y] ++ v :: t). rewrite app_assoc, upd_app_l. cbn [bind].
  rewrite <- app_assoc. cbn [app]. rewrite IH. destruct a; cbn [app hd]; [reflexivity |]. rewrite <- app_assoc. reflexivity.
Qed.
Lemma index_split x l : In x l -> exists a b, l = a ++ x :: b /\ index_of x l = len a /\ ~ In x a.
Proof.
  induction l as [| y l IH]; intros H; [destruct H |]. cbn [index_of]. destruct (N.eqb_spec x y) as [-> | Hne].
  - exists [], l. auto.
  - destruct H as [-> | H]; [congruence |]. destruct (IH H) as (a & b & -> & E & Hn). exists (y :: a), b.
    rewrite E, len_cons. cbn [app]. repeat split; [lia |]. cbn [In]. intuition congruence.
Qed.
Lemma filter_out x a : ~ In x a -> filter (fun y => negb (x =? y)) a = a.
Proof.
  induction a as [| y a IH]; intros H; [reflexivity |]. cbn [filter]. destruct (N.eqb_spec x y) as [-> | Hne].
  - exfalso. apply H. now left.
  - cbn [negb]. f_equal. apply IH. intros Hi. apply H. now right.
Qed.
Lemma to_front_ok x l t : NoDup l -> In x l -> to_front (l ++ t) (index_of x l) = Ok (x, front x l ++ t).
Proof.
  intros Hnd Hin. destruct (index_split x l Hin) as (a & b & -> & Ei & Hn). unfold to_front. rewrite Ei.
  rewrite <- app_assoc. cbn [app]. rewrite idx_app_l. cbn [bind].
  replace (N.to_nat (len a)) with (length a) by (unfold len; lia). rewrite shift_up_ok. cbn [bind].
  unfold upd. destruct (N.ltb_spec 0 (len (hd x a :: a ++ b ++ t))) as [_ | H]; [| rewrite len_cons in H; lia].
  cbn [N.to_nat set_nth bind]. unfold front. rewrite filter_app. cbn [filter]. rewrite N.eqb_refl. cbn [negb].
  apply NoDup_remove_2 in Hnd. rewrite !filter_out; [| intros Hi; apply Hnd, in_or_app; now right | exact Hn].
  cbn [app]. now rewrite <- app_assoc.
Qed.
Lemma front_nodup x l : NoDup l -> NoDup (front x l).
Proof.
  intros H. unfold front. constructor; [| now apply NoDup_filter].
  intros Hi. apply filter_In in Hi. destruct Hi as [_ Hi]. rewrite N.eqb_refl in Hi. discriminate.
Qed.
Lemma front_in x y l : In y l -> In y (front x l).
Proof.
  intros H. unfold front. destruct (N.eq_dec x y) as [-> | Hne]; [now left |]. right. apply filter_In. split; [exact H |].
  destruct (N.eqb_spec x y); [congruence | reflexivity].
Qed.
Lemma index_lt x l : In x l -> index_of x l < len l.
Proof. intros H. destruct (index_split x l H) as (a & b & -> & -> & _). rewrite len_app, len_cons. lia. Qed.
Lemma front_len x l : NoDup l -> In x l -> len (front x l) = len l.
Proof.
  intros Hnd H. destruct (index_split x l H) as (a & b & -> & _ & Hn). unfold front. rewrite filter_app. cbn [filter].
  rewrite N.eqb_refl. cbn [negb]. apply NoDup_remove_2 in Hnd.
  rewrite !filter_out; [| intros Hi; apply Hnd, in_or_app; now right | exact Hn]. rewrite len_cons, !len_app, len_cons. lia.
Qed.

(** ** Selectors *)
Lemma bz_unary_ok data : wf_bytes data -> forall i n o s r, (i < n)%nat ->
  At data s (repeat true i ++ false :: r) ->
  exists s', bz_unary n data o s = Ok (o + N.of_nat i, s') /\ At data s' r.
Proof.
  intros Hwf. induction i as [| i IH]; intros n o s r Hn H; (destruct n as [| n]; [lia |]); cbn [bz_unary].
  - destruct (At_bit data false s r Hwf H) as (s1 & E & H1). cbn [N.b2n] in E. rewrite E. cbn [bind]. change (0 =? 0) with true.
    exists s1. split; [do 2 f_equal; lia | exact H1].
  - cbn [repeat app] in H. destruct (At_bit data true s _ Hwf H) as (s1 & E & H1). cbn [N.b2n] in E. rewrite E. cbn [bind].
    change (1 =? 0) with false. cbn iota. destruct (IH n (o + 1) s1 r ltac:(lia) H1) as (s2 & E2 & H2).
    exists s2. split; [rewrite E2; do 2 f_equal; lia | exact H2].
Qed.
Lemma bz_selectors_loop_ok data trees : wf_bytes data -> forall sel l t s r,
  NoDup l -> len l = trees -> Forall (fun i => In i l) sel ->
  At data s (flat_map (fun i => repeat true (N.to_nat i) ++ [false]) (mtf l sel) ++ r) ->
  exists s', bz_selectors_loop (length sel) data trees (l ++ t) s = Ok (sel, s') /\ At data s' r.
Proof.
  intros Hwf. induction sel as [| x sel IH]; intros l t s r Hnd Hl Hf H.
  - exists s. auto.
  - apply Forall_cons_iff in Hf. destruct Hf as [Hx Hf]. cbn [mtf flat_map] in H.
    cbn [length bz_selectors_loop]. pose proof (index_lt x l Hx) as Hi.
    rewrite <- !app_assoc in H. cbn [app] in H.
    destruct (bz_unary_ok data Hwf (N.to_nat (index_of x l)) (N.to_nat trees) 0 s _ ltac:(lia) H) as (s1 & E1 & H1).
    rewrite E1. cbn [bind]. rewrite N2Nat.id, N.add_0_l. destruct (N.leb_spec trees (index_of x l)); [lia |]. cbn [negb check bind].
    rewrite to_front_ok by auto. cbn [bind].
    destruct (IH (front x l) t s1 r) as (s2 & E2 & H2).
    { now apply front_nodup. } { rewrite front_len; auto. }
    { eapply Forall_impl; [| exact Hf]. intros y. apply front_in. } { exact H1. }
    rewrite E2. exists s2. auto.
Qed.
Lemma seqN_nodup n a : NoDup (seqN a n).
Proof.
  revert a. induction n as [| n IH]; intros a; cbn [seqN]; constructor; [| apply IH]. intros Hin. apply in_seqN in Hin. lia.
Qed.
Lemma bz_selectors_ok data trees sel old s r : wf_bytes data -> trees <= 7 -> Forall (fun i => i < trees) sel ->
  At data s (selectors_bits trees sel ++ r) ->
  exists s', bz_selectors data (len sel) trees old s = Ok (sel ++ skipn (length sel) old, s') /\ At data s' r.
Proof.
  intros Hwf Ht Hf H. unfold bz_selectors.
  assert (E7 : [0; 1; 2; 3; 4; 5; 6] = seqN 0 (N.to_nat trees) ++ seqN trees (N.to_nat (7 - trees))).
  { change [0; 1; 2; 3; 4; 5; 6] with (seqN 0 7). replace 7%nat with (N.to_nat trees + N.to_nat (7 - trees))%nat by lia.
    rewrite seqN_app. do 2 f_equal. lia. }
  rewrite E7. replace (N.to_nat (len sel)) with (length sel) by (unfold len; lia).
  destruct (bz_selectors_loop_ok data trees Hwf sel (seqN 0 (N.to_nat trees)) (seqN trees (N.to_nat (7 - trees))) s r) as (s' & E & H').
  - apply seqN_nodup.
  - unfold len. rewrite seqN_length. lia.
  - eapply Forall_impl; [| exact Hf]. intros x Hx. apply in_seqN. cbv beta in Hx. lia.
  - exact H.
  - rewrite E. cbn [bind]. exists s'. auto.
Qed.
