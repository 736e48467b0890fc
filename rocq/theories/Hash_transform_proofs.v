From Verif Require Import Base BaseLemmas Hash_tables Hash_model Hash_spec Hash_proofs.

(** ** Words and constants *)
Lemma rotl_eq w x s : rotl w x s = ROTL w s x.
Proof. unfold rotl, ROTL. rewrite N.shiftl_mul_pow2, N.shiftr_div_pow2. reflexivity. Qed.
Lemma rotr_eq w x s : rotr w x s = ROTR w s x.
Proof. unfold rotr, ROTR. rewrite N.shiftl_mul_pow2, N.shiftr_div_pow2. reflexivity. Qed.
Lemma shr_eq x s : N.shiftr x s = SHR s x.
Proof. apply N.shiftr_div_pow2. Qed.
Lemma notw_eq w x : notw w x = NOT w x.
Proof. reflexivity. Qed.

Definition list_eqb (a b : list N) : bool := if list_eq_dec N.eq_dec a b then true else false.
Lemma list_eqb_eq a b : list_eqb a b = true -> a = b.
Proof. unfold list_eqb. destruct (list_eq_dec N.eq_dec a b); congruence. Qed.

Lemma md5_tables : forall i, (i < 64)%nat ->
  nth i md5_sines 0 = md5_T (i + 1) /\ nth i md5_bit_shifts 0 = md5_s i /\
  N.to_nat (nth i md5_index 0) = md5_k i.
Proof.
  assert (H : forallb (fun i => (nth i md5_sines 0 =? md5_T (i + 1)) &&
      (nth i md5_bit_shifts 0 =? md5_s i) && Nat.eqb (N.to_nat (nth i md5_index 0)) (md5_k i))
      (seq 0 64) = true) by (vm_compute; reflexivity).
  rewrite forallb_forall in H. intros i Hi. specialize (H i). rewrite in_seq in H.
  specialize (H ltac:(lia)). rewrite !andb_true_iff, !N.eqb_eq, Nat.eqb_eq in H. tauto.
Qed.
Lemma cube_lt a b : a * a * a < b * b * b -> a < b.
Proof.
  intros H. destruct (N.lt_ge_cases a b) as [|Hle]; auto. exfalso.
  assert (b * b <= a * a) by (apply N.mul_le_mono; auto).
  assert (b * b * b <= a * a * a) by (apply N.mul_le_mono; auto). lia.
Qed.
Lemma cbrt_bisect_ok fuel : forall lo hi x, lo < hi -> lo * lo * lo <= x -> x < hi * hi * hi ->
  hi - lo <= 2 ^ N.of_nat fuel ->
  let r := cbrt_bisect fuel lo hi x in r * r * r <= x /\ x < (r + 1) * (r + 1) * (r + 1).
Proof.
  induction fuel as [|f IH]; intros lo hi x Hlt Hlo Hhi Hd; cbn [cbrt_bisect]; cbv zeta.
  - change (2 ^ N.of_nat 0) with 1 in Hd. replace (lo + 1) with hi by lia. auto.
  - rewrite Nat2N.inj_succ, N.pow_succ_r' in Hd.
    destruct (N.eq_dec hi (lo + 1)) as [->|Hne].
    + replace ((lo + (lo + 1)) / 2) with lo by (apply (N.div_unique _ _ _ 1); lia).
      destruct (lo * lo * lo <=? x) eqn:E; [|lia]. apply IH; auto; pose proof (N.pow_nonzero 2 (N.of_nat f)); lia.
    + assert (Hm : lo < (lo + hi) / 2 < hi) by lia.
      remember ((lo + hi) / 2) as mid eqn:Em.
      destruct (mid * mid * mid <=? x) eqn:E; apply IH; try lia.
Qed.
Lemma cbrt_cert x r : x < 2 ^ 299 -> r * r * r <= x -> x < (r + 1) * (r + 1) * (r + 1) -> cbrt x = r.
Proof.
  intros Hx H1 H2. unfold cbrt.
  pose proof (cbrt_bisect_ok 300 0 (x + 1) x) as H. cbv zeta in H.
  destruct H as [H3 H4]; try lia.
  set (c := cbrt_bisect 300 0 (x + 1) x) in *.
    assert (c < r + 1) by (apply cube_lt; lia). assert (r < c + 1) by (apply cube_lt; lia). lia.
Qed.
Definition cbrt_check (w : N) (e : N * N) : bool :=
  let '(p, k) := e in
  let a := cbrt_bisect 5 0 32 p in
  let r := a * 2 ^ w + k in
  let x := p * 2 ^ (3 * w) in
  (k <? 2 ^ w) && (r * r * r <=? x) && (x <? (r + 1) * (r + 1) * (r + 1)) && (x <? 2 ^ 299).
Lemma cbrt_check_ok w p k : cbrt_check w (p, k) = true -> cbrt_frac w p = k.
Proof.
  unfold cbrt_check, cbrt_frac. cbv zeta. rewrite !andb_true_iff, !N.ltb_lt, N.leb_le.
  intros [[[Hk H1] H2] H3]. rewrite (cbrt_cert _ (cbrt_bisect 5 0 32 p * 2 ^ w + k)); auto.
  rewrite N.add_comm, N.mod_add by (apply N.pow_nonzero; lia). apply N.mod_small; auto.
Qed.
Lemma cbrt_table w ps : forall ks, length ps = length ks ->
  forallb (cbrt_check w) (combine ps ks) = true -> ks = map (cbrt_frac w) ps.
Proof.
  induction ps as [|p ps IH]; intros [|k ks] Hl H; cbn in Hl; try discriminate; auto.
  cbn [combine forallb] in H. apply andb_true_iff in H. destruct H as [H1 H2].
  cbn [map]. rewrite (cbrt_check_ok _ _ _ H1). f_equal. apply IH; auto.
Qed.
Lemma sha256_k_eq : sha256_k = f_K sha256_functions.
Proof. apply cbrt_table; vm_compute; reflexivity. Qed.
Lemma sha224_k_eq : sha224_k = f_K sha256_functions.
Proof. rewrite <- sha256_k_eq. apply list_eqb_eq. vm_compute. reflexivity. Qed.
Lemma sha512_k_eq : sha512_k = f_K sha512_functions.
Proof. apply cbrt_table; vm_compute; reflexivity. Qed.
Lemma sha224_initial_eq : sha224_initial = list8 (tuple8 sha224_H0).
Proof. apply list_eqb_eq. vm_compute. reflexivity. Qed.
Lemma sha256_initial_eq : sha256_initial = list8 (tuple8 sha256_H0).
Proof. apply list_eqb_eq. vm_compute. reflexivity. Qed.
Lemma sha512_initial_eq : sha512_initial = list8 (tuple8 sha512_H0).
Proof. apply list_eqb_eq. vm_compute. reflexivity. Qed.

Lemma words_eq f n c : forall k data,
  words f n c (skipn (n * k) data) =
  map (fun i => f (firstn n (skipn (n * i) data))) (seq k c).
Proof.
  induction c as [|c IH]; intros k data; [reflexivity|].
  cbn [words seq map]. f_equal. rewrite skipn_skipn.
  replace (n + n * k)%nat with (n * S k)%nat by lia. apply IH.
Qed.
Lemma words_be_eq n data : words be_value n 16 data = words_be n data.
Proof. unfold words_be. rewrite <- words_eq, Nat.mul_0_r. reflexivity. Qed.
Lemma words_le_eq n data : words le_value n 16 data = words_le n data.
Proof. unfold words_le. rewrite <- words_eq, Nat.mul_0_r. reflexivity. Qed.

Lemma pow2_nz w : 2 ^ w <> 0.
Proof. apply N.pow_nonzero. lia. Qed.

Ltac sums :=
  unfold addw, sum_mod; cbn [fold_right];
  rewrite ?N.add_0_r;
  repeat first [rewrite N.add_mod_idemp_l by apply pow2_nz | rewrite N.add_mod_idemp_r by apply pow2_nz | rewrite <- N.add_assoc];
  first [reflexivity | f_equal; lia].

(** ** MD5 *)
Definition l4 (s : N * N * N * N) : list N := let '(a, b, c, d) := s in [a; b; c; d].

Lemma md5_round_eq X s i : (i < 64)%nat ->
  md5_round X (l4 s) i = l4 (md5_op X s i).
Proof.
  intros Hi. destruct s as [[[a b] c] d]. destruct (md5_tables i Hi) as (H1 & H2 & H3).
  unfold md5_round, md5_op, l4, at_. cbn [nth]. rewrite H1, H2, H3.
  clear H1 H2 H3.
  assert (Hf : (if (i <? 16)%nat then N.lor (N.land b c) (N.land (notw 32 b) d)
    else if (i <? 32)%nat then N.lor (N.land b d) (N.land c (notw 32 d))
    else if (i <? 48)%nat then N.lxor (N.lxor b c) d
    else N.lxor c (N.lor b (notw 32 d))) = md5_fun i b c d).
  { unfold md5_fun.
    destruct (i <? 16)%nat eqn:E1; [replace (i / 16)%nat with 0%nat by lia; reflexivity|].
    destruct (i <? 32)%nat eqn:E2; [replace (i / 16)%nat with 1%nat by lia; reflexivity|].
    destruct (i <? 48)%nat eqn:E3; [replace (i / 16)%nat with 2%nat by lia; reflexivity|].
    replace (i / 16)%nat with 3%nat by lia. reflexivity. }
  rewrite Hf. rewrite rotl_eq. set (f := md5_fun i b c d). set (x := nth (md5_k i) X 0).
  set (t := md5_T (i + 1)). clearbody f x t.
  assert (Hs : addw 32 (addw 32 (addw 32 f a) x) t = sum_mod 32 [a; f; x; t]) by sums.
  rewrite Hs. generalize (ROTL 32 (md5_s i) (sum_mod 32 [a; f; x; t])); intros y. f_equal. f_equal. sums.
Qed.

Lemma fold_round_eq {S} (g : list N -> nat -> list N) (h : S -> nat -> S) (conv : S -> list N) n
  (Hstep : forall s i, (i < n)%nat -> g (conv s) i = conv (h s i)) l : forall s,
  (forall i, In i l -> (i < n)%nat) ->
  fold_left g l (conv s) = conv (fold_left h l s).
Proof.
  induction l as [|i l IH]; intros s Hl; [reflexivity|].
  cbn [fold_left]. rewrite Hstep by (apply Hl; left; auto). apply IH.
  intros; apply Hl; right; auto.
Qed.

Lemma md5_transform_eq s block : md5_transform (l4 s) block = l4 (md5_compress s block).
Proof.
  unfold md5_transform, md5_compress. rewrite words_le_eq.
  rewrite (fold_round_eq _ _ l4 64 (md5_round_eq (words_le 4 block))).
  2:{ intros i Hi. apply in_seq in Hi. lia. }
  destruct s as [[[A B] C] D].
  destruct (fold_left (md5_op (words_le 4 block)) (seq 0 64) (A, B, C, D)) as [[[a b] c] d].
  unfold l4; cbn [add_each]. repeat (f_equal; [sums|..]).
Qed.

Lemma fold_blocks_eq {S} (g : list N -> list N -> list N) (h : S -> list N -> S) (conv : S -> list N)
  (Hstep : forall s b, g (conv s) b = conv (h s b)) l : forall s,
  fold_left g l (conv s) = conv (fold_left h l s).
Proof.
  induction l as [|b l IH]; intros s; [reflexivity|]. cbn [fold_left]. rewrite Hstep. apply IH.
Qed.

Lemma md5_padding q off : off <= 64 ->
  zero_bytes 64 8 (64 * q + off) = 64 * (if 56 <=? off then 2 else 1) - 8 - off - 1.
Proof. intros H. unfold zero_bytes. destruct (56 <=? off) eqn:E; lia. Qed.
Lemma sha512_padding q off : off <= 128 ->
  zero_bytes 128 16 (128 * q + off) = 128 * (if 112 <=? off then 2 else 1) - 16 - off - 1.
Proof. intros H. unfold zero_bytes. destruct (112 <=? off) eqn:E; lia. Qed.

Lemma be_bytes_length n v : length (be_bytes n v) = n.
Proof. unfold be_bytes. rewrite rev_length, le_bytes_length. reflexivity. Qed.

Lemma md5_run chunks : len (concat chunks) < 2 ^ 61 ->
  hash_run md5_alg (hash_new md5_alg) chunks = Ok (MD5 (concat chunks), hash_new md5_alg).
Proof.
  intros H. rewrite (run_ok md5_alg 8 (le_bytes 8)); auto; try reflexivity; try (cbn; lia).
  - cbn [md5_alg ha_block_size ha_transform ha_initial ha_output]. f_equal. f_equal.
    change md5_initial with (l4 (0x67452301, 0xefcdab89, 0x98badcfe, 0x10325476)).
    rewrite (fold_blocks_eq _ _ l4 md5_transform_eq). unfold MD5.
    destruct (fold_left md5_compress _ _) as [[[a b] c] d].
    unfold l4. cbn [map concat]. rewrite app_nil_r. reflexivity.
  - exact md5_padding.
Qed.

(** ** SHA-1 *)
Definition l5 (s : N * N * N * N * N) : list N := let '(a, b, c, d, e) := s in [a; b; c; d; e].

Lemma mod_pow2_bits a w n : N.testbit (a mod 2 ^ w) n = N.testbit a n && (n <? w).
Proof.
  destruct (N.ltb_spec n w).
  - rewrite N.mod_pow2_bits_low by auto. rewrite andb_true_r. reflexivity.
  - rewrite N.mod_pow2_bits_high by auto. rewrite andb_false_r. reflexivity.
Qed.

Lemma ch_eq_mod w x y z :
  N.lor (N.land x y) (N.land (NOT w x) z) mod 2 ^ w = Ch w x y z mod 2 ^ w.
Proof.
  apply N.bits_inj; intros n. rewrite !mod_pow2_bits. unfold Ch, NOT, N.lnot.
  rewrite N.lor_spec, N.lxor_spec, !N.land_spec, N.lxor_spec.
  destruct (N.ltb_spec n w); [|rewrite !andb_false_r; reflexivity].
  rewrite N.ones_spec_low by auto.
  destruct (N.testbit x n), (N.testbit y n), (N.testbit z n); reflexivity.
Qed.

Lemma maj_eq x y z :
  N.lor (N.lor (N.land x y) (N.land x z)) (N.land y z) = Maj x y z.
Proof.
  apply N.bits_inj; intros n. unfold Maj. rewrite !N.lor_spec, !N.lxor_spec, !N.land_spec.
  destruct (N.testbit x n), (N.testbit y n), (N.testbit z n); reflexivity.
Qed.

Lemma rev_nth_from_end (W : list N) i k : length W = i -> (0 < k <= i)%nat ->
  nth (i - k) (rev W) 0 = nth (k - 1) W 0.
Proof.
  intros Hl Hk. rewrite rev_nth by lia. f_equal. lia.
Qed.

Lemma sha1_W_length n M : length M = 16%nat -> length (sha1_W n M) = (16 + n)%nat.
Proof. intros H; induction n; cbn [sha1_W length]; [rewrite rev_length; auto|]. lia. Qed.

Lemma sha1_schedule_eq n M : length M = 16%nat ->
  fold_left sha1_extend (seq 16 n) M = rev (sha1_W n M).
Proof.
  intros H. induction n as [|n IH].
  - cbn [seq fold_left sha1_W]. rewrite rev_involutive. reflexivity.
  - rewrite seq_S, fold_left_app. cbn [fold_left]. rewrite IH.
    unfold sha1_extend, at_. cbn [sha1_W rev]. f_equal. f_equal.
    pose proof (sha1_W_length n M H) as HL.
    rewrite !(rev_nth_from_end (sha1_W n M)) by (auto; lia).
    apply rotl_eq.
Qed.

Lemma sha1_round_eq W s i : (i < 80)%nat -> sha1_round W (l5 s) i = l5 (sha1_op W s i).
Proof.
  intros Hi. destruct s as [[[[a b] c] d] e].
  unfold sha1_round, sha1_op, l5, at_. cbn [nth]. rewrite !rotl_eq.
  f_equal. generalize (nth i W 0); intros x. generalize (ROTL 32 5 a); intros r.
  unfold sha1_f, sha1_K.
  destruct (i <? 20)%nat eqn:E1.
  { replace (i / 20)%nat with 0%nat by lia. cbn [nth].
    assert (Hc : addw 32 0x5a827999 (N.lor (N.land b c) (N.land (notw 32 b) d)) =
                 addw 32 0x5a827999 (Ch 32 b c d)).
    { unfold addw. rewrite <- N.add_mod_idemp_r by apply pow2_nz.
      rewrite notw_eq, ch_eq_mod. apply N.add_mod_idemp_r, pow2_nz. }
    rewrite Hc. sums. }
  destruct (i <? 40)%nat eqn:E2.
  { replace (i / 20)%nat with 1%nat by lia. cbn [nth]. unfold Parity. sums. }
  destruct (i <? 60)%nat eqn:E3.
  { replace (i / 20)%nat with 2%nat by lia. cbn [nth]. rewrite maj_eq. sums. }
  replace (i / 20)%nat with 3%nat by lia. cbn [nth]. unfold Parity. sums.
Qed.

Lemma words_be_length n b : length (words_be n b) = 16%nat.
Proof. unfold words_be. rewrite map_length, seq_length. reflexivity. Qed.

Lemma sha1_transform_eq s block : sha1_transform (l5 s) block = l5 (sha1_compress s block).
Proof.
  unfold sha1_transform, sha1_compress. rewrite words_be_eq.
  rewrite sha1_schedule_eq by apply words_be_length.
  set (W := rev (sha1_W 64 (words_be 4 block))). clearbody W.
  rewrite (fold_round_eq _ _ l5 80 (sha1_round_eq W)).
  2:{ intros i Hi. apply in_seq in Hi. lia. }
  destruct s as [[[[A B] C] D] E].
  destruct (fold_left (sha1_op W) (seq 0 80) (A, B, C, D, E)) as [[[[a b] c] d] e].
  unfold l5; cbn [add_each]. repeat (f_equal; [sums|..]).
Qed.

Lemma sha1_run chunks : len (concat chunks) < 2 ^ 61 ->
  hash_run sha1_alg (hash_new sha1_alg) chunks = Ok (SHA1 (concat chunks), hash_new sha1_alg).
Proof.
  intros H. rewrite (run_ok sha1_alg 8 (be_bytes 8)); auto; try reflexivity; try (cbn; lia).
  - cbn [sha1_alg ha_block_size ha_transform ha_initial ha_output]. f_equal. f_equal.
    change sha1_initial with (l5 (0x67452301, 0xefcdab89, 0x98badcfe, 0x10325476, 0xc3d2e1f0)).
    rewrite (fold_blocks_eq _ _ l5 sha1_transform_eq). unfold SHA1.
    destruct (fold_left sha1_compress _ _) as [[[[a b] c] d] e].
    unfold l5. cbn [map concat]. rewrite app_nil_r. reflexivity.
  - exact md5_padding.
Qed.

(** ** SHA-2 *)
Definition sha2_match (p : sha2_params) (F : sha2_functions) : Prop :=
  s2_bits p = f_w F /\ s2_rounds p = f_rounds F /\ s2_k p = f_K F /\
  (forall x, let '(a, b, c) := s2_e0 p in
     N.lxor (N.lxor (rotr (s2_bits p) x a) (rotr (s2_bits p) x b)) (N.shiftr x c) = f_sigma0 F x) /\
  (forall x, let '(a, b, c) := s2_e1 p in
     N.lxor (N.lxor (rotr (s2_bits p) x a) (rotr (s2_bits p) x b)) (N.shiftr x c) = f_sigma1 F x) /\
  (forall x, let '(a, b, c) := s2_r0 p in
     N.lxor (N.lxor (rotr (s2_bits p) x a) (rotr (s2_bits p) x b)) (rotr (s2_bits p) x c) = f_Sigma0 F x) /\
  (forall x, let '(a, b, c) := s2_r1 p in
     N.lxor (N.lxor (rotr (s2_bits p) x a) (rotr (s2_bits p) x b)) (rotr (s2_bits p) x c) = f_Sigma1 F x).

Lemma sha2_W_length F n M : length M = 16%nat -> length (sha2_W F n M) = (16 + n)%nat.
Proof. intros H; induction n; cbn [sha2_W length]; [rewrite rev_length; auto|]. lia. Qed.

Lemma sha2_schedule_eq p F n M : sha2_match p F -> length M = 16%nat ->
  fold_left (sha2_extend p) (seq 16 n) M = rev (sha2_W F n M).
Proof.
  intros (Hw & _ & _ & He0 & He1 & _ & _) H. induction n as [|n IH].
  - cbn [seq fold_left sha2_W]. rewrite rev_involutive. reflexivity.
  - rewrite seq_S, fold_left_app. cbn [fold_left]. rewrite IH.
    unfold sha2_extend, at_. cbn [sha2_W rev].
    destruct (s2_e0 p) as [[a0 b0] c0]. destruct (s2_e1 p) as [[a1 b1] c1].
    rewrite He0, He1. f_equal. f_equal.
    pose proof (sha2_W_length F n M H) as HL.
    rewrite !(rev_nth_from_end (sha2_W F n M)) by (auto; lia).
    rewrite Hw. cbn [Nat.sub]. sums.
Qed.

Lemma sha2_round_eq p F W s i : sha2_match p F ->
  sha2_round p W (list8 s) i = list8 (sha2_op F W s i).
Proof.
  intros (Hw & _ & Hk & _ & _ & Hr0 & Hr1).
  destruct s as [[[[[[[a b] c] d] e] f] g] h].
  unfold sha2_round, sha2_op, list8, at_. cbn [nth].
  destruct (s2_r0 p) as [[x0 y0] z0]. destruct (s2_r1 p) as [[x1 y1] z1].
  rewrite Hr0, Hr1, Hk, Hw.
  change (N.lxor (N.lxor (N.land a b) (N.land a c)) (N.land b c)) with (Maj a b c).
  rewrite notw_eq.
  change (N.lxor (N.land e f) (N.land (NOT (f_w F) e) g)) with (Ch (f_w F) e f g).
  generalize (nth i W 0) (nth i (f_K F) 0) (Ch (f_w F) e f g) (Maj a b c) (f_Sigma1 F e) (f_Sigma0 F a).
  intros x k ch mj S1 S0.
  assert (HT : addw (f_w F) (addw (f_w F) (addw (f_w F) (addw (f_w F) h S1) ch) k) x =
               sum_mod (f_w F) [h; S1; ch; k; x]) by sums.
  rewrite HT. generalize (sum_mod (f_w F) [h; S1; ch; k; x]); intros T1.
  f_equal; [sums|]. f_equal. f_equal. f_equal. f_equal; sums.
Qed.

Lemma sha2_transform_eq p F : sha2_match p F -> forall s block,
  sha2_transform p (list8 s) block = list8 (sha2_compress F s block).
Proof.
  intros HM s block. pose proof HM as (Hw & Hr & _).
  unfold sha2_transform, sha2_compress. rewrite words_be_eq, Hw, Hr.
  rewrite (sha2_schedule_eq p F) by (auto; apply words_be_length).
  set (W := rev (sha2_W F (f_rounds F - 16) (words_be (N.to_nat (f_w F / 8)) block))). clearbody W.
  rewrite (fold_round_eq _ (sha2_op F W) list8 (S (f_rounds F))).
  2:{ intros; apply sha2_round_eq; auto. }
  2:{ intros i Hi. apply in_seq in Hi. lia. }
  destruct s as [[[[[[[A B] C] D] E] F'] G] H'].
  destruct (fold_left (sha2_op F W) (seq 0 (f_rounds F)) (A, B, C, D, E, F', G, H'))
    as [[[[[[[a b] c] d] e] f] g] h].
  unfold list8; cbn [add_each]. repeat (f_equal; [sums|..]).
Qed.

Lemma sha256_match : sha2_match sha256_params sha256_functions.
Proof.
  unfold sha2_match. cbn [sha256_params s2_bits s2_rounds s2_k s2_e0 s2_e1 s2_r0 s2_r1].
  split; [reflexivity|]. split; [reflexivity|]. split; [exact sha256_k_eq|].
  repeat split; intros x; rewrite ?rotr_eq, ?shr_eq; reflexivity.
Qed.
Lemma sha224_match : sha2_match sha224_params sha256_functions.
Proof.
  unfold sha2_match. cbn [sha224_params s2_bits s2_rounds s2_k s2_e0 s2_e1 s2_r0 s2_r1].
  split; [reflexivity|]. split; [reflexivity|]. split; [exact sha224_k_eq|].
  repeat split; intros x; rewrite ?rotr_eq, ?shr_eq; reflexivity.
Qed.
Lemma sha512_match : sha2_match sha512_params sha512_functions.
Proof.
  unfold sha2_match. cbn [sha512_params s2_bits s2_rounds s2_k s2_e0 s2_e1 s2_r0 s2_r1].
  split; [reflexivity|]. split; [reflexivity|]. split; [exact sha512_k_eq|].
  repeat split; intros x; rewrite ?rotr_eq, ?shr_eq; reflexivity.
Qed.

Lemma sha256_run chunks : len (concat chunks) < 2 ^ 61 ->
  hash_run sha256_alg (hash_new sha256_alg) chunks = Ok (SHA256 (concat chunks), hash_new sha256_alg).
Proof.
  intros H. rewrite (run_ok sha256_alg 8 (be_bytes 8)); auto; try reflexivity; try (cbn; lia).
  - cbn [sha256_alg ha_block_size ha_transform ha_initial ha_output].
    rewrite sha256_initial_eq, (fold_blocks_eq _ _ list8 (sha2_transform_eq _ _ sha256_match)).
    reflexivity.
  - exact md5_padding.
Qed.
Lemma sha224_run chunks : len (concat chunks) < 2 ^ 61 ->
  hash_run sha224_alg (hash_new sha224_alg) chunks = Ok (SHA224 (concat chunks), hash_new sha224_alg).
Proof.
  intros H. rewrite (run_ok sha224_alg 8 (be_bytes 8)); auto; try reflexivity; try (cbn; lia).
  - cbn [sha224_alg ha_block_size ha_transform ha_initial ha_output].
    rewrite sha224_initial_eq, (fold_blocks_eq _ _ list8 (sha2_transform_eq _ _ sha224_match)).
    reflexivity.
  - exact md5_padding.
Qed.

Lemma le_bytes_zero n : le_bytes n 0 = repeat 0 n.
Proof. induction n; cbn [le_bytes repeat]; [reflexivity|].
  change (0 mod 256) with 0. change (0 / 256) with 0. rewrite IHn. reflexivity. Qed.
Lemma le_bytes_add n m v : le_bytes (n + m) v = le_bytes n v ++ le_bytes m (v / 256 ^ N.of_nat n).
Proof.
  revert v; induction n as [|n IH]; intros v.
  - cbn [Nat.add le_bytes app]. rewrite N.div_1_r. reflexivity.
  - cbn [Nat.add le_bytes app]. rewrite IH, pow256_S, N.div_div by (try apply N.pow_nonzero; lia).
    reflexivity.
Qed.
Lemma rev_repeat {A} (x : A) n : rev (repeat x n) = repeat x n.
Proof.
  induction n; [reflexivity|]. cbn [repeat rev]. rewrite IHn. symmetry. apply repeat_cons.
Qed.
Lemma be_bytes_16 v : v < two64 -> be_bytes 16 v = repeat 0 8 ++ be_bytes 8 v.
Proof.
  intros H. unfold be_bytes. change 16%nat with (8 + 8)%nat. rewrite le_bytes_add.
  rewrite N.div_small by exact H. rewrite le_bytes_zero, rev_app_distr, rev_repeat. reflexivity.
Qed.

Lemma sha512_run chunks : len (concat chunks) < 2 ^ 61 ->
  hash_run sha512_alg (hash_new sha512_alg) chunks = Ok (SHA512 (concat chunks), hash_new sha512_alg).
Proof.
  intros H. rewrite (run_ok sha512_alg 16 (be_bytes 16)); auto; try reflexivity; try (cbn; lia).
  - cbn [sha512_alg ha_block_size ha_transform ha_initial ha_output].
    rewrite sha512_initial_eq, (fold_blocks_eq _ _ list8 (sha2_transform_eq _ _ sha512_match)).
    reflexivity.
  - exact be_bytes_16.
  - exact sha512_padding.
Qed.

Lemma all_chunk_independent a :
  In a [md5_alg; sha1_alg; sha224_alg; sha256_alg; sha512_alg] ->
  forall chunks1 chunks2,
  concat chunks1 = concat chunks2 -> len (concat chunks1) < 2 ^ 61 ->
  hash_run a (hash_new a) chunks1 = hash_run a (hash_new a) chunks2 /\
  exists digest, hash_run a (hash_new a) chunks1 = Ok (digest, hash_new a).
Proof.
  intros Ha c1 c2 Heq Hl. pose proof Hl as Hl2. rewrite Heq in Hl2.
  cbn [In] in Ha.
  destruct Ha as [<-|[<-|[<-|[<-|[<-|[]]]]]];
    rewrite ?md5_run, ?sha1_run, ?sha224_run, ?sha256_run, ?sha512_run by auto;
    rewrite Heq; eauto.
Qed.

Lemma all_standard chunks : len (concat chunks) < 2 ^ 61 ->
  let digest a := (r <- hash_run a (hash_new a) chunks ;; Ok (fst r)) in
  digest md5_alg = Ok (MD5 (concat chunks)) /\
  digest sha1_alg = Ok (SHA1 (concat chunks)) /\
  digest sha224_alg = Ok (SHA224 (concat chunks)) /\
  digest sha256_alg = Ok (SHA256 (concat chunks)) /\
  digest sha512_alg = Ok (SHA512 (concat chunks)).
Proof.
  intros H. cbv beta zeta.
  rewrite md5_run, sha1_run, sha224_run, sha256_run, sha512_run by auto.
  cbn [bind fst]. auto.
Qed.
