From Verif Require Import Base BaseLemmas Checksums_model Checksums_spec.

(** ** Bit facts *)
Lemma land_ffff v : N.land v 0xffff = v mod 65536.
Proof. change 0xffff with (N.ones 16). rewrite N.land_ones. reflexivity. Qed.
Lemma land_ff v : N.land v 0xff = v mod 256.
Proof. change 0xff with (N.ones 8). rewrite N.land_ones. reflexivity. Qed.
Lemma shiftr16 v : N.shiftr v 16 = v / 65536.
Proof. rewrite N.shiftr_div_pow2. reflexivity. Qed.
Lemma lxor_disjoint a b k : b < 2 ^ k -> N.lxor (a * 2 ^ k) b = a * 2 ^ k + b.
Proof.
  intros H. symmetry. rewrite N.add_nocarry_lxor; [reflexivity|].
  apply N.bits_inj; intros n. rewrite N.land_spec, N.bits_0.
  destruct (N.lt_ge_cases n k).
  - rewrite N.mul_pow2_bits_low by auto. reflexivity.
  - rewrite <- (N.mod_small b (2 ^ k)) by auto.
    rewrite N.mod_pow2_bits_high by auto. apply andb_false_r.
Qed.

Lemma lor_disjoint a b k : b < 2 ^ k -> N.lor (a * 2 ^ k) b = a * 2 ^ k + b.
Proof.
  intros H. rewrite <- lxor_disjoint by auto. symmetry. apply N.lxor_lor.
  apply N.bits_inj; intros n. rewrite N.land_spec, N.bits_0.
  destruct (N.lt_ge_cases n k).
  - rewrite N.mul_pow2_bits_low by auto. reflexivity.
  - rewrite <- (N.mod_small b (2 ^ k)) by auto.
    rewrite N.mod_pow2_bits_high by auto. apply andb_false_r.
Qed.

(** ** Adler-32 *)
Lemma mod_65521_fold_ok v : v < two32 ->
  mod_65521_fold v = Ok (v mod 65536 + 15 * (v / 65536)).
Proof.
  intros H. unfold mod_65521_fold, shl_chk, sub_chk, add_chk, two32 in *.
  rewrite land_ffff, shiftr16.
  change (4 <? 32) with true. cbn [bind].
  rewrite N.shiftl_mul_pow2. change (2 ^ 4) with 16. change (2 ^ 32) with 4294967296.
  rewrite (N.mod_small (v / 65536 * 16)) by lia.
  replace (v / 65536 <=? v / 65536 * 16) with true by lia. cbn [bind].
  match goal with |- (if ?b then _ else _) = _ => replace b with true by lia end.
  f_equal; lia.
Qed.

Lemma mod_65521_ok v : v < two32 -> mod_65521 v = Ok (v mod 65521).
Proof.
  intros H. unfold mod_65521. rewrite mod_65521_fold_ok by auto. cbn [bind].
  unfold two32 in H.
  set (v1 := v mod 65536 + 15 * (v / 65536)).
  assert (Hv1 : v1 mod 65521 = v mod 65521 /\ v1 < 1048576) by (subst v1; lia).
  destruct Hv1 as [Hm Hb]. clearbody v1.
  destruct (65521 <? v1) eqn:E.
  - rewrite mod_65521_fold_ok by (unfold two32; lia). cbn [bind].
    set (v2 := v1 mod 65536 + 15 * (v1 / 65536)).
    assert (v2 mod 65521 = v mod 65521 /\ v2 < 65521 + 65521) by (subst v2; lia).
    clearbody v2. unfold sub_chk.
    destruct (65521 <=? v2) eqn:E2; f_equal; lia.
  - cbn [bind]. unfold sub_chk. destruct (65521 <=? v1) eqn:E2; f_equal; lia.
Qed.

(** Unbounded accumulation *)
Definition raw_step (w : N * N) (b : N) : N * N :=
  (fst w + b, snd w + (fst w + b)).

Lemma adler_accumulate data : forall lo hi a b k,
  wf_bytes data ->
  lo <= 65535 + 255 * k ->
  hi <= 65535 + k * 65535 + 255 * k * (k + 1) / 2 ->
  k + len data <= 5552 ->
  a = lo mod 65521 -> b = hi mod 65521 ->
  let w := fold_left adler_step data (lo, hi) in
  fst w < two32 /\ snd w < two32 /\
  (fst w mod 65521, snd w mod 65521) = fold_left adler_byte data (a, b).
Proof.
  induction data as [|d data IH]; intros lo hi a b k Hwf Hlo Hhi Hk Ha Hb.
  - cbn [fold_left fst snd]. unfold len in Hk; cbn [length] in Hk.
    assert (k * (k + 1) <= 5552 * 5553) by nia.
    subst. unfold two32. repeat split; lia.
  - apply wf_bytes_cons in Hwf. destruct Hwf as [Hd Hwf].
    cbn [fold_left]. rewrite len_cons in Hk.
    assert (Hmono : k * (k + 1) <= 5551 * 5552) by nia.
    assert (Hsq : 255 * (k + 1) * (k + 1 + 1) / 2 = 255 * k * (k + 1) / 2 + 255 * (k + 1)).
    { replace (255 * (k + 1) * (k + 1 + 1)) with (255 * k * (k + 1) + 255 * (k + 1) * 2) by lia.
      rewrite N.div_add by lia. reflexivity. }
    assert (Hlo' : add32 lo d = lo + d) by (unfold add32, w32, two32; lia).
    assert (Hhi' : add32 hi (lo + d) = hi + (lo + d)).
    { unfold add32, w32, two32. lia. }
    assert (Hst : adler_step (lo, hi) d = (lo + d, hi + (lo + d)))
      by (unfold adler_step; rewrite Hlo', Hhi'; reflexivity).
    rewrite Hst.
    replace (adler_byte (a, b) d) with ((lo + d) mod 65521, (hi + (lo + d)) mod 65521)
      by (unfold adler_byte; cbn [fst snd]; subst; f_equal; lia).
    apply (IH _ _ _ _ (k + 1)); auto; lia.
Qed.

Lemma adler_reduce_accumulate data lo hi :
  wf_bytes data -> len data <= 5552 -> lo <= 65535 -> hi <= 65535 ->
  adler_reduce (fold_left adler_step data (lo, hi)) =
  Ok (fold_left adler_byte data (lo mod 65521, hi mod 65521)).
Proof.
  intros Hwf Hl Hlo Hhi.
  destruct (adler_accumulate data lo hi (lo mod 65521) (hi mod 65521) 0)
    as (H1 & H2 & H3); auto; try lia.
  unfold adler_reduce. rewrite !mod_65521_ok by auto. cbn [bind].
  f_equal. exact H3.
Qed.

Lemma adler_byte_bound data s :
  data <> [] -> fst (fold_left adler_byte data s) < 65521 /\
                snd (fold_left adler_byte data s) < 65521.
Proof.
  intros H. destruct (exists_last H) as (l & x & ->).
  rewrite fold_left_app. cbn [fold_left]. unfold adler_byte at 1 3; cbn [fst snd]. lia.
Qed.

Lemma adler_byte_mod b s : adler_byte (fst s mod 65521, snd s mod 65521) b = adler_byte s b.
Proof. unfold adler_byte; cbn [fst snd]. f_equal; lia. Qed.

Lemma fold_adler_mod data s : data <> [] ->
  fold_left adler_byte data (fst s mod 65521, snd s mod 65521) = fold_left adler_byte data s.
Proof.
  destruct data as [|b t]; [congruence|]. intros _. cbn [fold_left].
  rewrite adler_byte_mod. reflexivity.
Qed.

Lemma adler_blocks_ok fuel : forall data lo hi,
  (length data <= fuel)%nat -> wf_bytes data -> lo <= 65535 -> hi <= 65535 ->
  exists pre rest lo' hi', adler_blocks fuel data (lo, hi) = Ok (rest, (lo', hi')) /\
    data = pre ++ rest /\ len rest <= 5552 /\ lo' <= 65535 /\ hi' <= 65535 /\
    (pre = [] /\ (lo', hi') = (lo, hi) \/
     (rest <> [] /\ (lo', hi') = fold_left adler_byte pre (lo, hi))).
Proof.
  induction fuel as [|fuel IH]; intros data lo hi Hf Hwf Hlo Hhi.
  - destruct data; cbn [length] in Hf; [|lia]. exists [], [], lo, hi.
    cbn [adler_blocks]. unfold len; cbn [length]. repeat split; auto; lia.
  - cbn [adler_blocks]. destruct (5552 <? len data) eqn:E.
    + assert (Hfl : length (firstn (N.to_nat 5552) data) = N.to_nat 5552)
        by (unfold len in E; apply firstn_length_le; lia).
      set (w := fold_left adler_step (firstn (N.to_nat 5552) data) (lo, hi)).
      assert (Hw : adler_reduce w = Ok (fold_left adler_byte (firstn (N.to_nat 5552) data)
                     (lo mod 65521, hi mod 65521))).
      { subst w. apply adler_reduce_accumulate; auto. apply wf_bytes_firstn; auto.
        unfold len. rewrite Hfl. lia. }
      rewrite Hw. cbn [bind].
      assert (Hne : firstn (N.to_nat 5552) data <> []).
      { intros C. rewrite C in Hfl. cbn [length] in Hfl. lia. }
      pose proof (fold_adler_mod _ (lo, hi) Hne) as Hfm. cbn [fst snd] in Hfm.
      rewrite Hfm.
      destruct (adler_byte_bound _ (lo, hi) Hne) as [B1 B2].
      destruct (fold_left adler_byte (firstn (N.to_nat 5552) data) (lo, hi)) as [l1 h1] eqn:F.
      cbn [fst snd] in B1, B2.
      destruct (IH (skipn (N.to_nat 5552) data) l1 h1) as (pre & rest & l2 & h2 & Hr & Hd & Hlr & Hl2 & Hh2 & Hcase);
        try lia.
      { rewrite skipn_length. lia. }
      { apply wf_bytes_skipn; auto. }
      rewrite Hr. exists (firstn (N.to_nat 5552) data ++ pre), rest, l2, h2.
      split; [reflexivity|]. split; [rewrite <- app_assoc, <- Hd, firstn_skipn; reflexivity|].
      split; [auto|]. split; [auto|]. split; [auto|]. right.
      rewrite fold_left_app, F.
      destruct Hcase as [[-> Heq]|[Hnr Heq]].
      * split; [|exact Heq]. cbn [app] in Hd. rewrite <- Hd. intros C.
        assert (length (skipn (N.to_nat 5552) data) = 0%nat) by (rewrite C; auto).
        rewrite skipn_length in H. unfold len in E. lia.
      * split; auto.
    + exists [], data, lo, hi. repeat split; auto; lia.
Qed.

Definition adler_pair (c : N) : N * N := (c mod 65536, c / 65536).

Lemma adler_update_ok c data :
  ad_checksum c < two32 -> wf_bytes data ->
  exists c', adler_update c data = Ok c' /\ ad_initial c' = ad_initial c /\
    ad_checksum c' < two32 /\
    ad_checksum c' = adler32 (ad_checksum c) data.
Proof.
  intros Hc Hwf. unfold adler_update. rewrite land_ffff, shiftr16.
  unfold two32 in Hc.
  destruct (adler_blocks_ok (length data) data (ad_checksum c mod 65536) (ad_checksum c / 65536))
    as (pre & rest & lo & hi & Hr & Hd & Hlr & Hlo & Hhi & Hcase); auto; try lia.
  rewrite Hr. cbn [bind].
  assert (Hfin : exists w, (match rest with
        | [] => Ok (lo, hi)
        | _ => adler_reduce (fold_left adler_step rest (lo, hi))
        end) = Ok w /\ fst w <= 65535 /\ snd w <= 65535 /\
        w = fold_left adler_byte data (ad_checksum c mod 65536, ad_checksum c / 65536)).
  { assert (Hwr : wf_bytes rest) by (rewrite Hd in Hwf; apply wf_bytes_app in Hwf; tauto).
    destruct rest as [|x rest'].
    - destruct Hcase as [[-> Heq]|[Hn _]]; [|congruence].
      subst data. cbn [app fold_left]. exists (lo, hi). cbn [fst snd]. auto.
    - set (r := x :: rest') in *.
      assert (Hne : r <> []) by (subst r; congruence).
      rewrite adler_reduce_accumulate by auto.
      eexists; split; [reflexivity|].
      pose proof (fold_adler_mod r (lo, hi) Hne) as Hfm. cbn [fst snd] in Hfm. rewrite Hfm.
      destruct (adler_byte_bound r (lo, hi) Hne). split; [lia|]. split; [lia|].
      rewrite Hd, fold_left_app. f_equal.
      destruct Hcase as [[-> Heq]|[_ Heq]]; auto. }
  destruct Hfin as (w & Hw & Hw1 & Hw2 & Hweq). rewrite Hw. cbn [bind].
  unfold shl_chk. change (16 <? 32) with true. cbn [bind].
  rewrite N.shiftl_mul_pow2. change (2 ^ 32) with 4294967296.
  rewrite (N.mod_small (snd w * 2 ^ 16)) by (change (2 ^ 16) with 65536; lia).
  rewrite lor_disjoint by (change (2 ^ 16) with 65536; lia).
  change (2 ^ 16) with 65536.
  eexists; split; [reflexivity|]. cbn [ad_initial ad_checksum].
  split; [reflexivity|]. split; [unfold two32; lia|].
  unfold adler32. rewrite <- Hweq. destruct w; reflexivity.
Qed.

Lemma adler32_app c d1 d2 : c < two32 ->
  adler32 (adler32 c d1) d2 = adler32 c (d1 ++ d2).
Proof.
  intros Hc. unfold adler32 at 1 3. rewrite fold_left_app.
  assert (H : (adler32 c d1 mod 65536, adler32 c d1 / 65536) =
              fold_left adler_byte d1 (c mod 65536, c / 65536)).
  { unfold adler32. destruct (fold_left adler_byte d1 (c mod 65536, c / 65536)) as [a b] eqn:E.
    assert (a < 65536).
    { destruct d1 as [|x d1]; [cbn [fold_left] in E; inv E; lia|].
      destruct (adler_byte_bound (x :: d1) (c mod 65536, c / 65536)) as [B _]; [congruence|].
      rewrite E in B. cbn [fst] in B. lia. }
    f_equal; lia. }
  rewrite H. reflexivity.
Qed.

Lemma adler_updates_ok chunks : forall c,
  ad_checksum c < two32 -> Forall wf_bytes chunks ->
  exists c', adler_updates c chunks = Ok c' /\ ad_initial c' = ad_initial c /\
    ad_checksum c' = adler32 (ad_checksum c) (concat chunks).
Proof.
  induction chunks as [|d chunks IH]; intros c Hc Hwf.
  - exists c. cbn [adler_updates concat]. repeat split; auto.
    unfold adler32. cbn [fold_left]. lia.
  - inversion_clear Hwf as [|? ? Hwd Hwc]. destruct (adler_update_ok c d) as (c1 & H1 & Hi & Hb & Hs); auto.
    cbn [adler_updates concat]. rewrite H1. cbn [bind].
    destruct (IH c1) as (c2 & H4 & Hi2 & Hs2); auto.
    exists c2. split; [auto|]. split; [congruence|].
    rewrite Hs2, Hs. apply adler32_app; auto.
Qed.

Lemma adler_run_ok initial chunks :
  initial < two32 -> Forall wf_bytes chunks ->
  exists c, adler_updates (adler_new initial) chunks = Ok c /\
    adler_finalize c = (adler32 initial (concat chunks), adler_new initial).
Proof.
  intros Hi Hwf.
  destruct (adler_updates_ok chunks (adler_new initial)) as (c & H1 & H2 & H3); auto.
  exists c. split; auto. unfold adler_finalize, adler_new in *. cbn [ad_initial ad_checksum] in *.
  rewrite H2, H3. reflexivity.
Qed.

Lemma adler_closed_aux data : forall a s,
  fold_left adler_byte data (a mod 65521, s mod 65521) =
  ((a + sumN data) mod 65521, (s + sumN (prefix_sums a data)) mod 65521).
Proof.
  induction data as [|d data IH]; intros a s.
  - cbn [fold_left sumN prefix_sums fold_right]. rewrite !N.add_0_r. reflexivity.
  - cbn [fold_left prefix_sums]. unfold adler_byte at 2. cbn [fst snd].
    replace ((a mod 65521 + d) mod 65521) with ((a + d) mod 65521) by lia.
    replace ((s mod 65521 + (a + d) mod 65521) mod 65521) with ((s + (a + d)) mod 65521) by lia.
    rewrite IH. unfold sumN; cbn [fold_right]. f_equal; f_equal; lia.
Qed.

Lemma adler32_closed_eq data : adler32 1 data = adler32_closed data.
Proof.
  unfold adler32, adler32_closed.
  change (1 mod 65536) with (1 mod 65521). change (1 / 65536) with (0 mod 65521).
  rewrite adler_closed_aux. rewrite N.add_0_l. reflexivity.
Qed.

(** ** CRC-32 *)
Lemma mod_two32_land a : a mod two32 = N.land a (N.ones 32).
Proof. rewrite N.land_ones. reflexivity. Qed.

Lemma land_lxor_distr a b c : N.land (N.lxor a b) c = N.lxor (N.land a c) (N.land b c).
Proof.
  apply N.bits_inj; intros n. rewrite !N.lxor_spec, !N.land_spec, N.lxor_spec.
  destruct (N.testbit a n), (N.testbit b n), (N.testbit c n); reflexivity.
Qed.

Lemma mod_pow2_lxor a b k : N.lxor a b mod 2 ^ k = N.lxor (a mod 2 ^ k) (b mod 2 ^ k).
Proof. rewrite <- !N.land_ones. apply land_lxor_distr. Qed.

Lemma lxor_bound a b k : a < 2 ^ k -> b < 2 ^ k -> N.lxor a b < 2 ^ k.
Proof.
  intros Ha Hb. rewrite <- (N.mod_small a (2 ^ k)), <- (N.mod_small b (2 ^ k)) by auto.
  rewrite <- mod_pow2_lxor. apply N.mod_lt. apply N.pow_nonzero; lia.
Qed.

Lemma land_bit31 r : negb (N.land r 0x80000000 =? 0) = N.testbit r 31.
Proof.
  change 0x80000000 with (2 ^ 31).
  destruct (N.testbit r 31) eqn:E.
  - destruct (N.land r (2 ^ 31) =? 0) eqn:F; auto.
    apply N.eqb_eq in F. assert (H : N.testbit (N.land r (2 ^ 31)) 31 = false) by (rewrite F; apply N.bits_0).
    rewrite N.land_spec, E, N.pow2_bits_true in H. discriminate.
  - replace (N.land r (2 ^ 31)) with 0; auto.
    symmetry. apply N.bits_inj; intros n. rewrite N.land_spec, N.bits_0, N.pow2_bits_eqb.
    destruct (N.eqb_spec 31 n) as [<-|]; [rewrite E; auto|apply andb_false_r].
Qed.

Lemma land_bit0 r : negb (N.land r 1 =? 0) = N.testbit r 0.
Proof.
  change 1 with (N.ones 1). rewrite N.land_ones. change (2 ^ 1) with 2.
  rewrite <- N.bit0_mod. destruct (N.testbit r 0); reflexivity.
Qed.

Lemma crc_round_eq p r :
  crc_round p r = N.lxor ((2 * r) mod 2 ^ 32) (if N.testbit r 31 then p else 0).
Proof.
  unfold crc_round. rewrite land_bit31. rewrite N.shiftl_mul_pow2.
  change (2 ^ 1) with 2. change two32 with (2 ^ 32). rewrite (N.mul_comm r 2).
  destruct (N.testbit r 31); [apply N.lxor_comm|symmetry; apply N.lxor_0_r].
Qed.

Lemma rcrc_round_eq p r :
  rcrc_round p r = N.lxor (r / 2) (if N.testbit r 0 then p else 0).
Proof.
  unfold rcrc_round. rewrite land_bit0. rewrite N.shiftr_div_pow2. change (2 ^ 1) with 2.
  destruct (N.testbit r 0); [apply N.lxor_comm|symmetry; apply N.lxor_0_r].
Qed.

Lemma double_lxor a b : 2 * N.lxor a b = N.lxor (2 * a) (2 * b).
Proof.
  replace (2 * a) with (N.shiftl a 1) by (rewrite N.shiftl_mul_pow2; change (2 ^ 1) with 2; lia).
  replace (2 * b) with (N.shiftl b 1) by (rewrite N.shiftl_mul_pow2; change (2 ^ 1) with 2; lia).
  rewrite <- N.shiftl_lxor. rewrite N.shiftl_mul_pow2. change (2 ^ 1) with 2. lia.
Qed.
Lemma half_lxor a b : N.lxor a b / 2 = N.lxor (a / 2) (b / 2).
Proof.
  pose proof (N.shiftr_lxor a b 1) as H. rewrite !N.shiftr_div_pow2 in H.
  change (2 ^ 1) with 2 in H. exact H.
Qed.

Lemma lxor_swap4 a b c d : N.lxor (N.lxor a b) (N.lxor c d) = N.lxor (N.lxor a c) (N.lxor b d).
Proof.
  apply N.bits_inj; intros n. rewrite !N.lxor_spec.
  destruct (N.testbit a n), (N.testbit b n), (N.testbit c n), (N.testbit d n); reflexivity.
Qed.

Lemma if_lxor (x y : bool) p :
  (if xorb x y then p else 0) = N.lxor (if x then p else 0) (if y then p else 0).
Proof. destruct x, y; cbn [xorb]; rewrite ?N.lxor_0_r, ?N.lxor_0_l, ?N.lxor_nilpotent; auto. Qed.

Lemma crc_round_lxor p a b :
  crc_round p (N.lxor a b) = N.lxor (crc_round p a) (crc_round p b).
Proof.
  rewrite !crc_round_eq, double_lxor, mod_pow2_lxor, N.lxor_spec, if_lxor.
  apply lxor_swap4.
Qed.
Lemma rcrc_round_lxor p a b :
  rcrc_round p (N.lxor a b) = N.lxor (rcrc_round p a) (rcrc_round p b).
Proof.
  rewrite !rcrc_round_eq, half_lxor, N.lxor_spec, if_lxor. apply lxor_swap4.
Qed.

Lemma iter_lxor (f : N -> N) (Hf : forall a b, f (N.lxor a b) = N.lxor (f a) (f b)) n a b :
  Nat.iter n f (N.lxor a b) = N.lxor (Nat.iter n f a) (Nat.iter n f b).
Proof. induction n; [reflexivity|].
  change (f (Nat.iter n f (N.lxor a b)) = N.lxor (f (Nat.iter n f a)) (f (Nat.iter n f b))).
  rewrite IHn. apply Hf. Qed.

Lemma iter_succ_r (f : N -> N) n a : Nat.iter (S n) f a = Nat.iter n f (f a).
Proof. induction n; [reflexivity|].
  change (f (Nat.iter (S n) f a) = f (Nat.iter n f (f a))). rewrite IHn. reflexivity. Qed.

(** register steps are rounds after xor of the incoming bit *)
Lemma testbit31_small r : r < 2 ^ 31 -> N.testbit r 31 = false.
Proof.
  intros H. rewrite <- (N.mod_small r (2 ^ 31)) by auto.
  apply N.mod_pow2_bits_high. lia.
Qed.

Lemma crc_round_small p r : r < 2 ^ 31 -> crc_round p r = 2 * r.
Proof.
  intros H. rewrite crc_round_eq, testbit31_small by auto.
  rewrite N.lxor_0_r. apply N.mod_small. change (2 ^ 32) with (2 * 2 ^ 31). lia.
Qed.

Lemma register_msb_round p r (b : bool) :
  register_msb p r b = crc_round p (N.lxor r (if b then 2 ^ 31 else 0)).
Proof.
  rewrite crc_round_lxor, !crc_round_eq. unfold register_msb.
  change 4294967296 with (2 ^ 32).
  destruct b.
  - change ((2 * 2 ^ 31) mod 2 ^ 32) with 0. change (N.testbit (2 ^ 31) 31) with true.
    rewrite N.lxor_0_l, if_lxor, N.lxor_assoc. reflexivity.
  - rewrite xorb_false_r. change ((2 * 0) mod 2 ^ 32) with 0. change (N.testbit 0 31) with false.
    rewrite !N.lxor_0_r. reflexivity.
Qed.

Lemma register_lsb_round p r (b : bool) :
  register_lsb p r b = rcrc_round p (N.lxor r (N.b2n b)).
Proof.
  rewrite rcrc_round_lxor, !rcrc_round_eq. unfold register_lsb.
  destruct b; cbn [N.b2n].
  - change (1 / 2) with 0. change (N.testbit 1 0) with true.
    rewrite N.lxor_0_l, if_lxor, N.lxor_assoc. reflexivity.
  - rewrite xorb_false_r. change (0 / 2) with 0. change (N.testbit 0 0) with false.
    rewrite !N.lxor_0_r. reflexivity.
Qed.

Fixpoint val_msb (bits : list bool) : N :=
  match bits with
  | [] => 0
  | b :: t => N.b2n b * 2 ^ len t + val_msb t
  end.
Fixpoint val_lsb (bits : list bool) : N :=
  match bits with
  | [] => 0
  | b :: t => N.b2n b + 2 * val_lsb t
  end.

Lemma val_msb_bound bits : val_msb bits < 2 ^ len bits.
Proof.
  induction bits as [|b t IH].
  - unfold len; simpl; lia.
  - cbn [val_msb]. rewrite len_cons, N.pow_add_r. change (2 ^ 1) with 2.
    destruct b; cbn [N.b2n]; lia.
Qed.

Lemma feed_msb p bits : forall r, len bits <= 32 ->
  fold_left (register_msb p) bits r =
  Nat.iter (length bits) (crc_round p) (N.lxor r (val_msb bits * 2 ^ (32 - len bits))).
Proof.
  induction bits as [|b t IH]; intros r Hl.
  - cbn [fold_left length Nat.iter val_msb]. rewrite N.mul_0_l, N.lxor_0_r. reflexivity.
  - cbn [fold_left length]. rewrite len_cons in *.
    rewrite IH by lia. rewrite iter_succ_r. f_equal.
    rewrite register_msb_round.
    assert (Hs : val_msb t * 2 ^ (32 - len t) = crc_round p (val_msb t * 2 ^ (32 - (len t + 1)))).
    { rewrite crc_round_small.
      - replace (32 - len t) with (32 - (len t + 1) + 1) by lia.
        rewrite N.pow_add_r. change (2 ^ 1) with 2. lia.
      - pose proof (val_msb_bound t).
        replace 31 with (len t + (32 - (len t + 1))) by lia.
        rewrite N.pow_add_r. apply N.mul_lt_mono_pos_r; auto.
        apply N.neq_0_lt_0, N.pow_nonzero; lia. }
    rewrite Hs, <- crc_round_lxor. f_equal. rewrite N.lxor_assoc. f_equal.
    cbn [val_msb]. rewrite N.mul_add_distr_r.
    rewrite <- N.mul_assoc, <- N.pow_add_r.
    replace (len t + (32 - (len t + 1))) with 31 by lia.
    replace (N.b2n b * 2 ^ 31) with (if b then 2 ^ 31 else 0) by (destruct b; cbn [N.b2n]; lia).
    assert (Hv : val_msb t * 2 ^ (32 - (len t + 1)) < 2 ^ 31).
    { pose proof (val_msb_bound t).
      replace 31 with (len t + (32 - (len t + 1))) by lia.
      rewrite N.pow_add_r. apply N.mul_lt_mono_pos_r; auto.
      apply N.neq_0_lt_0, N.pow_nonzero; lia. }
    destruct b.
    + pose proof (lxor_disjoint 1 _ 31 Hv) as HH. rewrite N.mul_1_l in HH. exact HH.
    + rewrite N.lxor_0_l. lia.
Qed.

Lemma feed_lsb p bits : forall r,
  fold_left (register_lsb p) bits r =
  Nat.iter (length bits) (rcrc_round p) (N.lxor r (val_lsb bits)).
Proof.
  induction bits as [|b t IH]; intros r.
  - cbn [fold_left length Nat.iter val_lsb]. rewrite N.lxor_0_r. reflexivity.
  - cbn [fold_left length]. rewrite IH, iter_succ_r. f_equal.
    rewrite register_lsb_round.
    assert (Hs : val_lsb t = rcrc_round p (2 * val_lsb t)).
    { rewrite rcrc_round_eq.
      replace (2 * val_lsb t / 2) with (val_lsb t) by lia.
      rewrite N.testbit_even_0, N.lxor_0_r. reflexivity. }
    rewrite Hs at 1. rewrite <- rcrc_round_lxor. f_equal. rewrite N.lxor_assoc. f_equal.
    cbn [val_lsb]. rewrite N.lxor_comm, N.mul_comm. change 2 with (2 ^ 1).
    rewrite lxor_disjoint by (destruct b; cbn [N.b2n]; lia). lia.
Qed.

Lemma N_lt_256_in b : b < 256 -> In b (seqN 0 256).
Proof. intros. apply in_seqN. lia. Qed.

Lemma val_msb_bits b : b < 256 -> val_msb (bits_msb b) = b.
Proof.
  intros H. assert (A : forallb (fun x => val_msb (bits_msb x) =? x) (seqN 0 256) = true)
    by (vm_compute; reflexivity).
  rewrite forallb_forall in A. specialize (A b (N_lt_256_in b H)). lia.
Qed.
Lemma val_lsb_bits b : b < 256 -> val_lsb (bits_lsb b) = b.
Proof.
  intros H. assert (A : forallb (fun x => val_lsb (bits_lsb x) =? x) (seqN 0 256) = true)
    by (vm_compute; reflexivity).
  rewrite forallb_forall in A. specialize (A b (N_lt_256_in b H)). lia.
Qed.

Lemma idx_map_seqN (f : N -> N) n i : i < N.of_nat n -> idx (map f (seqN 0 n)) i = Ok (f i).
Proof.
  intros H. unfold idx. rewrite nth_error_map, nth_error_seqN by lia.
  cbn [option_map]. do 2 f_equal. lia.
Qed.

Lemma crc_step_eq p r b : p < 2 ^ 32 -> r < 2 ^ 32 -> b < 256 ->
  N.lxor (Nat.iter 8 (crc_round p) (N.shiftl (N.land (N.lxor (N.shiftr r 24) b) 0xff) 24 mod two32))
         (N.shiftl r 8 mod two32)
  = fold_left (register_msb p) (bits_msb b) r.
Proof.
  intros Hp Hr Hb. rewrite feed_msb by (unfold len; cbn [bits_msb map length]; lia).
  rewrite val_msb_bits by auto. change (length (bits_msb b)) with 8%nat.
  change (32 - len (bits_msb b)) with 24.
  rewrite N.shiftr_div_pow2, !N.shiftl_mul_pow2.
  assert (Hr24 : r / 2 ^ 24 < 256).
  { apply N.div_lt_upper_bound; [lia|]. exact Hr. }
  assert (Hx : N.lxor (r / 2 ^ 24) b < 256) by (change 256 with (2 ^ 8); apply lxor_bound; auto).
  rewrite land_ff, (N.mod_small (N.lxor (r / 2 ^ 24) b) 256) by auto.
  change two32 with (2 ^ 32).
  rewrite (N.mod_small (N.lxor _ _ * 2 ^ 24)).
  2:{ change (2 ^ 32) with (256 * 2 ^ 24). apply N.mul_lt_mono_pos_r; auto; reflexivity. }
  (* r = hi * 2^24 xor lo *)
  pose proof (N.div_mod r (2 ^ 24)) as Hdm.
  assert (Hlo : r mod 2 ^ 24 < 2 ^ 24) by (apply N.mod_lt; discriminate).
  set (hi := r / 2 ^ 24) in *. set (lo := r mod 2 ^ 24) in *.
  assert (Hrx : r = N.lxor (hi * 2 ^ 24) lo).
  { rewrite lxor_disjoint by auto. rewrite Hdm by discriminate. lia. }
  assert (Hlow : Nat.iter 8 (crc_round p) lo = r * 2 ^ 8 mod 2 ^ 32).
  { assert (E : forall k x, (k <= 8)%nat -> x < 2 ^ (32 - N.of_nat k) ->
        Nat.iter k (crc_round p) x = x * 2 ^ N.of_nat k).
    { induction k as [|k IHk]; intros x Hk Hx'.
      - simpl Nat.iter. rewrite N.mul_1_r. reflexivity.
      - rewrite iter_succ_r, crc_round_small.
        + rewrite IHk by (try lia; replace (32 - N.of_nat k) with (1 + (32 - N.of_nat (S k))) by lia;
            rewrite N.pow_add_r; change (2 ^ 1) with 2; lia).
          rewrite Nat2N.inj_succ, N.pow_succ_r'. lia.
        + apply (N.lt_le_trans _ _ _ Hx'). apply N.pow_le_mono_r; lia. }
    rewrite E by (cbn; auto; lia).
    change (2 ^ N.of_nat 8) with (2 ^ 8).
    change (2 ^ 32) with (2 ^ 24 * 2 ^ 8).
    rewrite N.mul_mod_distr_r by discriminate. reflexivity. }
  rewrite <- Hlow.
  rewrite <- (iter_lxor _ (crc_round_lxor p)). f_equal.
  rewrite Hrx at 1.
  assert (Hmul : forall u v, N.lxor u v * 2 ^ 24 = N.lxor (u * 2 ^ 24) (v * 2 ^ 24)).
  { intros. rewrite <- !N.shiftl_mul_pow2. apply N.shiftl_lxor. }
  rewrite Hmul.
  apply N.bits_inj; intros n. rewrite !N.lxor_spec.
  destruct (N.testbit (hi * 2 ^ 24) n), (N.testbit lo n), (N.testbit (b * 2 ^ 24) n); reflexivity.
Qed.

Lemma rcrc_step_eq p r b : p < 2 ^ 32 -> r < 2 ^ 32 -> b < 256 ->
  N.lxor (Nat.iter 8 (rcrc_round p) (N.land (N.lxor r b) 0xff)) (N.shiftr r 8)
  = fold_left (register_lsb p) (bits_lsb b) r.
Proof.
  intros Hp Hr Hb. rewrite feed_lsb. rewrite val_lsb_bits by auto.
  change (length (bits_lsb b)) with 8%nat.
  rewrite N.shiftr_div_pow2, land_ff.
  set (x := N.lxor r b).
  assert (Hx8 : x / 2 ^ 8 = r / 2 ^ 8).
  { subst x. rewrite <- !N.shiftr_div_pow2, N.shiftr_lxor, !N.shiftr_div_pow2.
    rewrite (N.div_small b) by auto. apply N.lxor_0_r. }
  assert (Hsplit : x = N.lxor (x / 2 ^ 8 * 2 ^ 8) (x mod 256)).
  { rewrite lxor_disjoint by (apply N.mod_lt; discriminate).
    change 256 with (2 ^ 8). pose proof (N.div_mod x (2 ^ 8)). lia. }
  assert (E : forall k y, Nat.iter k (rcrc_round p) (y * 2 ^ N.of_nat k) = y).
  { induction k as [|k IHk]; intros y.
    - simpl Nat.iter. apply N.mul_1_r.
    - rewrite iter_succ_r. rewrite Nat2N.inj_succ, N.pow_succ_r'.
      replace (y * (2 * 2 ^ N.of_nat k)) with (2 * (y * 2 ^ N.of_nat k)) by lia.
      rewrite rcrc_round_eq, N.testbit_even_0, N.lxor_0_r.
      replace (2 * (y * 2 ^ N.of_nat k) / 2) with (y * 2 ^ N.of_nat k) by lia.
      apply IHk. }
  rewrite Hsplit at 2. rewrite (iter_lxor _ (rcrc_round_lxor p)).
  change (2 ^ 8) with (2 ^ N.of_nat 8) at 3. rewrite E, Hx8. apply N.lxor_comm.
Qed.

Lemma register_msb_bound p r b : p < 2 ^ 32 -> register_msb p r b < 2 ^ 32.
Proof.
  intros Hp. unfold register_msb. apply lxor_bound.
  - apply N.mod_lt; discriminate.
  - destruct (xorb _ _); auto; reflexivity.
Qed.
Lemma register_lsb_bound p r b : p < 2 ^ 32 -> r < 2 ^ 32 -> register_lsb p r b < 2 ^ 32.
Proof.
  intros Hp Hr. unfold register_lsb. apply lxor_bound.
  - apply N.div_lt_upper_bound; lia.
  - destruct (xorb _ _); auto; reflexivity.
Qed.
Lemma feed_msb_bound p bits : forall r, p < 2 ^ 32 -> r < 2 ^ 32 ->
  fold_left (register_msb p) bits r < 2 ^ 32.
Proof. induction bits; cbn [fold_left]; intros; auto. apply IHbits; auto.
  apply register_msb_bound; auto. Qed.
Lemma feed_lsb_bound p bits : forall r, p < 2 ^ 32 -> r < 2 ^ 32 ->
  fold_left (register_lsb p) bits r < 2 ^ 32.
Proof. induction bits; cbn [fold_left]; intros; auto. apply IHbits; auto.
  apply register_lsb_bound; auto. Qed.

Lemma crc_loop_ok p data : forall r, p < 2 ^ 32 -> r < 2 ^ 32 -> wf_bytes data ->
  crc_loop (crc_make_table p) r data =
  Ok (fold_left (register_msb p) (concat (map bits_msb data)) r).
Proof.
  induction data as [|b data IH]; intros r Hp Hr Hwf.
  - reflexivity.
  - apply wf_bytes_cons in Hwf. destruct Hwf as [Hb Hwf].
    cbn [crc_loop]. unfold crc_make_table at 1.
    rewrite idx_map_seqN by (rewrite land_ff; change (N.of_nat 256) with 256; lia).
    cbn [bind map concat]. rewrite fold_left_app, crc_step_eq by auto.
    apply IH; auto. apply feed_msb_bound; auto.
Qed.
Lemma rcrc_loop_ok p data : forall r, p < 2 ^ 32 -> r < 2 ^ 32 -> wf_bytes data ->
  rcrc_loop (rcrc_make_table p) r data =
  Ok (fold_left (register_lsb p) (concat (map bits_lsb data)) r).
Proof.
  induction data as [|b data IH]; intros r Hp Hr Hwf.
  - reflexivity.
  - apply wf_bytes_cons in Hwf. destruct Hwf as [Hb Hwf].
    cbn [rcrc_loop]. unfold rcrc_make_table at 1.
    rewrite idx_map_seqN by (rewrite land_ff; change (N.of_nat 256) with 256; lia).
    cbn [bind map concat]. rewrite fold_left_app, rcrc_step_eq by auto.
    apply IH; auto. apply feed_lsb_bound; auto.
Qed.

Section Generic.
  Variable mk : N -> list N.
  Variable loop : list N -> N -> list N -> res N.
  Variable reg : N -> N -> bool -> N.
  Variable bits : N -> list bool.
  Hypothesis loop_ok : forall p data r, p < 2 ^ 32 -> r < 2 ^ 32 -> wf_bytes data ->
    loop (mk p) r data = Ok (fold_left (reg p) (concat (map bits data)) r).
  Hypothesis reg_bound : forall p l r, p < 2 ^ 32 -> r < 2 ^ 32 ->
    fold_left (reg p) l r < 2 ^ 32.

  Lemma crc_updates_ok chunks : forall c,
    crc_polynomial c < 2 ^ 32 -> crc_checksum c < 2 ^ 32 ->
    (crc_table_initialized c = true -> crc_table c = mk (crc_polynomial c)) ->
    Forall wf_bytes chunks ->
    exists c', crc_updates (crc_update_with mk loop) c chunks = Ok c' /\
      crc_polynomial c' = crc_polynomial c /\ crc_initial c' = crc_initial c /\
      (crc_table_initialized c' = true -> crc_table c' = mk (crc_polynomial c')) /\
      crc_checksum c' = fold_left (reg (crc_polynomial c))
        (concat (map bits (concat chunks))) (crc_checksum c).
  Proof.
    induction chunks as [|d chunks IH]; intros c Hp Hc Ht Hwf.
    - exists c. cbn [crc_updates concat map fold_left]. auto.
    - inversion_clear Hwf as [|? ? Hwd Hwc]. cbn [crc_updates]. unfold crc_update_with at 1.
      replace (if crc_table_initialized c then crc_table c else mk (crc_polynomial c))
        with (mk (crc_polynomial c)) by (destruct (crc_table_initialized c); auto; symmetry; auto).
      rewrite loop_ok by auto. cbn [bind].
      match goal with |- context [crc_updates _ ?c1 chunks] => destruct (IH c1) as (c2 & E & F1 & F2 & F3 & F4) end;
        cbn [crc_polynomial crc_checksum crc_table crc_table_initialized crc_initial]; auto.
      exists c2. cbn [crc_polynomial crc_checksum crc_table crc_table_initialized crc_initial] in *.
      split; [exact E|]. split; [auto|]. split; [auto|]. split; [auto|].
      rewrite F4. cbn [concat]. rewrite map_app, concat_app, fold_left_app. reflexivity.
  Qed.

  Lemma crc_run_ok p initial chunks :
    p < 2 ^ 32 -> initial < 2 ^ 32 -> Forall wf_bytes chunks ->
    exists c c', crc_updates (crc_update_with mk loop) (crc_new p initial) chunks = Ok c /\
      crc_finalize c = (complement32 (fold_left (reg p) (concat (map bits (concat chunks)))
                                        (complement32 initial)), c') /\
      (* the finalized context behaves as a new one *)
      forall chunks2, Forall wf_bytes chunks2 ->
       exists c2, crc_updates (crc_update_with mk loop) c' chunks2 = Ok c2 /\
         fst (crc_finalize c2) = complement32 (fold_left (reg p) (concat (map bits (concat chunks2)))
                                        (complement32 initial)).
  Proof.
    intros Hp Hi Hwf.
    assert (Hci : complement32 initial < 2 ^ 32) by (apply lxor_bound; auto; reflexivity).
    destruct (crc_updates_ok chunks (crc_new p initial)) as (c & E & F1 & F2 & F3 & F4); auto.
    { cbn. discriminate. }
    cbn [crc_new crc_polynomial crc_checksum crc_initial] in *.
    fold (complement32 initial) in F4.
    exists c. eexists. split; [exact E|]. unfold crc_finalize at 1.
    rewrite F4, F1, F2. split; [reflexivity|]. intros chunks2 Hwf2.
    fold (complement32 initial).
    match goal with |- context [crc_updates _ ?c1 chunks2] => destruct (crc_updates_ok chunks2 c1) as (c2 & G & G1 & G2 & G3 & G4) end;
        cbn [crc_polynomial crc_checksum crc_table crc_table_initialized crc_initial]; auto.
    { intros HH. rewrite F3, F1; auto. }
    exists c2. split; [exact G|]. unfold crc_finalize. cbn [fst].
    cbn [crc_polynomial crc_checksum crc_table crc_table_initialized crc_initial] in *.
    rewrite G4. reflexivity.
  Qed.
End Generic.

Lemma adler_standard chunks : Forall wf_bytes chunks ->
  exists c, adler_updates (adler_new 1) chunks = Ok c /\
    fst (adler_finalize c) = adler32_closed (concat chunks).
Proof.
  intros Hwf. destruct (adler_run_ok 1 chunks) as (c & E & F); auto; [reflexivity|].
  exists c. split; auto. rewrite F, <- adler32_closed_eq. reflexivity.
Qed.

Lemma crc_forward_ok p initial chunks :
  p < 2 ^ 32 -> initial < 2 ^ 32 -> Forall wf_bytes chunks ->
  exists c c', crc_updates crc_update (crc_new p initial) chunks = Ok c /\
    crc_finalize c = (crc32_forward p initial (concat chunks), c') /\
    forall chunks2, Forall wf_bytes chunks2 ->
      exists c2, crc_updates crc_update c' chunks2 = Ok c2 /\
        fst (crc_finalize c2) = crc32_forward p initial (concat chunks2).
Proof.
  apply (crc_run_ok crc_make_table crc_loop register_msb bits_msb).
  - intros; apply crc_loop_ok; auto.
  - intros; apply feed_msb_bound; auto.
Qed.

Lemma crc_reflected_ok p initial chunks :
  p < 2 ^ 32 -> initial < 2 ^ 32 -> Forall wf_bytes chunks ->
  exists c c', crc_updates rcrc_update (crc_new p initial) chunks = Ok c /\
    crc_finalize c = (crc32_reflected p initial (concat chunks), c') /\
    forall chunks2, Forall wf_bytes chunks2 ->
      exists c2, crc_updates rcrc_update c' chunks2 = Ok c2 /\
        fst (crc_finalize c2) = crc32_reflected p initial (concat chunks2).
Proof.
  apply (crc_run_ok rcrc_make_table rcrc_loop register_lsb bits_lsb).
  - intros; apply rcrc_loop_ok; auto.
  - intros; apply feed_lsb_bound; auto.
Qed.
