From Verif Require Import Base BaseLemmas Bytes_model Bytes_spec.

Ltac Zify.zify_post_hook ::= idtac.

Lemma pow256_pos n : 0 < 256 ^ n.
Proof. apply N.neq_0_lt_0, N.pow_nonzero. lia. Qed.

Lemma byte_of_0 v : byte_of v 0 = v mod 256.
Proof. unfold byte_of. rewrite N.pow_0_r, N.div_1_r. auto. Qed.

Lemma byte_of_succ v i : byte_of v (N.succ i) = byte_of (v / 256) i.
Proof.
  unfold byte_of. rewrite N.pow_succ_r', N.div_div; auto; [lia|].
  apply N.neq_0_lt_0, pow256_pos.
Qed.

Lemma le_value_byte l : wf_bytes l -> forall i, i < len l ->
  nth_error l (N.to_nat i) = Some (byte_of (le_value l) i).
Proof.
  induction l as [|b l IH]; intros Hw i Hi; [unfold len in Hi; cbn [length] in Hi; lia|].
  apply wf_bytes_cons in Hw. destruct Hw as [Hb Hw]. rewrite len_cons in Hi.
  cbn [le_value]. destruct (N.eq_dec i 0) as [->|Hne].
  - rewrite byte_of_0. cbn [N.to_nat nth_error]. f_equal. rewrite N.mul_comm, N.mod_add by lia. rewrite N.mod_small by lia. auto.
  - replace i with (N.succ (N.pred i)) by lia. rewrite byte_of_succ, N2Nat.inj_succ. cbn [nth_error].
    rewrite IH by (auto; lia). f_equal. f_equal.
    rewrite N.mul_comm, N.div_add by lia. rewrite N.div_small by lia. lia.
Qed.

Lemma le_value_unique l : forall v, v < 256 ^ len l ->
  (forall i, i < len l -> nth_error l (N.to_nat i) = Some (byte_of v i)) -> le_value l = v.
Proof.
  induction l as [|b l IH]; intros v Hv H; cbn [le_value].
  - unfold len in Hv. cbn [length] in Hv. change (256 ^ N.of_nat 0) with 1 in Hv. lia.
  - rewrite len_cons in *. pose proof (H 0 ltac:(lia)) as H0. cbn in H0. injection H0 as ->.
    rewrite byte_of_0.
    rewrite (IH (v / 256)).
    + pose proof (N.div_mod v 256). lia.
    + apply N.div_lt_upper_bound; [lia|]. rewrite N.pow_add_r, N.pow_1_r in Hv. lia.
    + intros i Hi. rewrite <- byte_of_succ, <- (H (N.succ i)) by lia. rewrite N2Nat.inj_succ. auto.
Qed.

Lemma nth_error_firstn_lt {A} (l : list A) n i : (i < n)%nat -> nth_error (firstn n l) i = nth_error l i.
Proof.
  revert n i. induction l as [|a l IH]; intros [|n] [|i] H; cbn [firstn nth_error]; auto; try lia.
  apply IH. lia.
Qed.
Lemma nth_error_skipn_add {A} (l : list A) n i : nth_error (skipn n l) i = nth_error l (n + i).
Proof.
  revert l. induction n as [|n IH]; intros l; auto. destruct l; [|apply IH].
  rewrite skipn_nil. destruct i; auto.
Qed.

Lemma slice_field a e n : e + n <= len a ->
  slice a e (e + n) = Ok (firstn (N.to_nat n) (skipn (N.to_nat e) a)) /\
  len (firstn (N.to_nat n) (skipn (N.to_nat e) a)) = n /\
  (wf_bytes a -> wf_bytes (firstn (N.to_nat n) (skipn (N.to_nat e) a))) /\
  forall i, i < n -> nth_error (firstn (N.to_nat n) (skipn (N.to_nat e) a)) (N.to_nat i) = nth_error a (N.to_nat (e + i)).
Proof.
  intros H. split; [|split; [|split]].
  - rewrite slice_ok by lia. f_equal. f_equal. lia.
  - unfold len in *. rewrite firstn_length, skipn_length. lia.
  - intros Hw. apply wf_bytes_firstn, wf_bytes_skipn; auto.
  - intros i Hi. rewrite nth_error_firstn_lt by lia. rewrite nth_error_skipn_add. f_equal. lia.
Qed.

Lemma uint_le_total n a e : e + n <= len a -> len a < two64 -> wf_bytes a ->
  exists v, bytes_to_uint_le n a e = Ok v /\ holds_le a e n v.
Proof.
  intros H Ha Hw. destruct (slice_field a e n H) as (S1 & S2 & S3 & S4).
  unfold bytes_to_uint_le, add_chk. replace (e + n <? two64) with true by lia. cbn [bind]. rewrite S1. cbn [bind].
  eexists. split; [reflexivity|]. split.
  - eapply N.lt_le_trans; [apply le_value_bound; auto|]. rewrite S2. apply N.le_refl.
  - intros i Hi. rewrite <- S4 by auto. apply le_value_byte; auto. rewrite S2. auto.
Qed.

Lemma uint_be_total n a e : e + n <= len a -> len a < two64 -> wf_bytes a ->
  exists v, bytes_to_uint_be n a e = Ok v /\ holds_be a e n v.
Proof.
  intros H Ha Hw. destruct (slice_field a e n H) as (S1 & S2 & S3 & S4).
  unfold bytes_to_uint_be, add_chk. replace (e + n <? two64) with true by lia. cbn [bind]. rewrite S1. cbn [bind].
  set (s := firstn _ _) in *. specialize (S3 Hw).
  assert (Hwr : wf_bytes (rev s)) by (apply Forall_rev; auto).
  eexists. split; [reflexivity|]. rewrite be_value_rev. split.
  - rewrite <- S2, <- len_rev. apply le_value_bound. auto.
  - intros i Hi. rewrite <- S4 by auto. rewrite <- le_value_byte by (auto; rewrite len_rev; lia).
    unfold len in S2.
    rewrite (nth_error_nth' s 0) by lia. rewrite (nth_error_nth' (rev s) 0) by (rewrite rev_length; lia).
    f_equal. rewrite rev_nth by lia. f_equal. lia.
Qed.

Lemma holds_le_unique n a e v w : holds_le a e n v -> holds_le a e n w -> v = w.
Proof.
  intros [Hv1 Hv2] [Hw1 Hw2].
  assert (forall m u1 u2, u1 < 256 ^ m -> u2 < 256 ^ m -> (forall i, i < m -> byte_of u1 i = byte_of u2 i) -> u1 = u2) as U.
  { intros m. induction m as [|m IH] using N.peano_ind; intros u1 u2 H1 H2 H.
    - change (256 ^ 0) with 1 in *. lia.
    - rewrite N.pow_succ_r' in *. pose proof (H 0 ltac:(lia)) as H0. rewrite !byte_of_0 in H0.
      assert (u1 / 256 = u2 / 256).
      { apply IH; try (apply N.div_lt_upper_bound; lia).
        intros i Hi. rewrite <- !byte_of_succ. apply H. lia. }
      rewrite (N.div_mod u1 256), (N.div_mod u2 256) by lia. congruence. }
  apply (U n); auto. intros i Hi. specialize (Hv2 i Hi). specialize (Hw2 i Hi). congruence.
Qed.

Lemma holds_be_unique n a e v w : holds_be a e n v -> holds_be a e n w -> v = w.
Proof.
  intros [Hv1 Hv2] [Hw1 Hw2].
  assert (forall m u1 u2, u1 < 256 ^ m -> u2 < 256 ^ m -> (forall i, i < m -> byte_of u1 i = byte_of u2 i) -> u1 = u2) as U.
  { intros m. induction m as [|m IH] using N.peano_ind; intros u1 u2 H1 H2 H.
    - change (256 ^ 0) with 1 in *. lia.
    - rewrite N.pow_succ_r' in *. pose proof (H 0 ltac:(lia)) as H0. rewrite !byte_of_0 in H0.
      assert (u1 / 256 = u2 / 256).
      { apply IH; try (apply N.div_lt_upper_bound; lia).
        intros i Hi. rewrite <- !byte_of_succ. apply H. lia. }
      rewrite (N.div_mod u1 256), (N.div_mod u2 256) by lia. congruence. }
  apply (U n); auto. intros i Hi. specialize (Hv2 (n - 1 - i) ltac:(lia)). specialize (Hw2 (n - 1 - i) ltac:(lia)).
  replace (n - 1 - (n - 1 - i)) with i in * by lia. congruence.
Qed.

Lemma uint_le_iff n a e v : len a < two64 -> wf_bytes a -> e + n <= len a ->
  (bytes_to_uint_le n a e = Ok v <-> holds_le a e n v).
Proof.
  intros Ha Hw H. destruct (uint_le_total n a e H Ha Hw) as (w & H1 & H2). rewrite H1. split.
  - intros E. injection E as <-. auto.
  - intros Hv. f_equal. eapply holds_le_unique; eauto.
Qed.
Lemma uint_be_iff n a e v : len a < two64 -> wf_bytes a -> e + n <= len a ->
  (bytes_to_uint_be n a e = Ok v <-> holds_be a e n v).
Proof.
  intros Ha Hw H. destruct (uint_be_total n a e H Ha Hw) as (w & H1 & H2). rewrite H1. split.
  - intros E. injection E as <-. auto.
  - intros Hv. f_equal. eapply holds_be_unique; eauto.
Qed.

Lemma uint_le_panic n a e : len a < two64 -> len a < e + n -> bytes_to_uint_le n a e = Panic.
Proof.
  intros Ha H. unfold bytes_to_uint_le, add_chk. destruct (e + n <? two64); auto. cbn [bind].
  unfold slice. replace (e + n <=? len a) with false by lia. rewrite andb_false_r. auto.
Qed.
Lemma uint_be_panic n a e : len a < two64 -> len a < e + n -> bytes_to_uint_be n a e = Panic.
Proof.
  intros Ha H. unfold bytes_to_uint_be, add_chk. destruct (e + n <? two64); auto. cbn [bind].
  unfold slice. replace (e + n <=? len a) with false by lia. rewrite andb_false_r. auto.
Qed.

Lemma pow256_Z n : 0 < n -> Z.of_N (256 ^ n) = (2 * 2 ^ (8 * Z.of_N n - 1))%Z.
Proof.
  intros. rewrite N2Z.inj_pow. change (Z.of_N 256) with (2 ^ 8)%Z. rewrite <- Z.pow_mul_r by lia.
  rewrite <- (Z.pow_succ_r 2) by lia. f_equal. lia.
Qed.

Lemma to_signed_iff n v z : 0 < n -> v < 256 ^ n -> (to_signed n v = z <-> twos_complement n v z).
Proof.
  intros Hn Hv. unfold to_signed, twos_complement.
  pose proof (pow256_Z n Hn) as P.
  assert (Q : Z.of_N (2 ^ (8 * n - 1)) = (2 ^ (8 * Z.of_N n - 1))%Z).
  { rewrite N2Z.inj_pow. f_equal. lia. }
  assert (R : (2 ^ (8 * Z.of_N n) = 2 * 2 ^ (8 * Z.of_N n - 1))%Z).
  { rewrite <- (Z.pow_succ_r 2) by lia. f_equal. lia. }
  rewrite R. set (H := (2 ^ (8 * Z.of_N n - 1))%Z) in *.
  assert (HH : (0 < H)%Z) by (apply Z.pow_pos_nonneg; lia).
  assert (Hv' : (0 <= Z.of_N v < 2 * H)%Z) by lia.
  assert (E : (v <? 2 ^ (8 * n - 1)) = (Z.of_N v <? H)%Z).
  { destruct (v <? 2 ^ (8 * n - 1)) eqn:E1; destruct (Z.of_N v <? H)%Z eqn:E2; auto; exfalso;
      [apply N.ltb_lt in E1; apply Z.ltb_ge in E2 | apply N.ltb_ge in E1; apply Z.ltb_lt in E2];
      rewrite <- Q in E2; lia. }
  rewrite E. clear E Q R P Hv.
  destruct (Z.of_N v <? H)%Z eqn:E.
  - apply Z.ltb_lt in E. split.
    + intros <-. split; [lia|]. rewrite Z.mod_small by lia. auto.
    + intros [B C]. destruct (Z.lt_ge_cases z 0) as [Hz|Hz].
      * exfalso. rewrite <- (Z_mod_plus_full z 1) in C. rewrite Z.mod_small in C by lia. lia.
      * rewrite Z.mod_small in C by lia. auto.
  - apply Z.ltb_ge in E. split.
    + intros <-. split; [lia|]. rewrite <- (Z_mod_plus_full _ 1). rewrite Z.mod_small by lia. lia.
    + intros [B C]. destruct (Z.lt_ge_cases z 0) as [Hz|Hz].
      * rewrite <- (Z_mod_plus_full z 1) in C. rewrite Z.mod_small in C by lia. lia.
      * rewrite Z.mod_small in C by lia. lia.
Qed.

Lemma int_le_iff n a e z : 0 < n -> len a < two64 -> wf_bytes a -> e + n <= len a ->
  (bytes_to_int_le n a e = Ok z <-> exists v, holds_le a e n v /\ twos_complement n v z).
Proof.
  intros Hn Ha Hw H. destruct (uint_le_total n a e H Ha Hw) as (w & H1 & H2).
  unfold bytes_to_int_le. rewrite H1. cbn [bind]. split.
  - intros E. injection E as E. exists w. split; auto. apply to_signed_iff; auto. apply H2.
  - intros (v & Hv & Hz). rewrite (holds_le_unique _ _ _ _ _ Hv H2) in Hz.
    apply to_signed_iff in Hz; auto; [congruence|apply H2].
Qed.
Lemma int_be_iff n a e z : 0 < n -> len a < two64 -> wf_bytes a -> e + n <= len a ->
  (bytes_to_int_be n a e = Ok z <-> exists v, holds_be a e n v /\ twos_complement n v z).
Proof.
  intros Hn Ha Hw H. destruct (uint_be_total n a e H Ha Hw) as (w & H1 & H2).
  unfold bytes_to_int_be. rewrite H1. cbn [bind]. split.
  - intros E. injection E as E. exists w. split; auto. apply to_signed_iff; auto. apply H2.
  - intros (v & Hv & Hz). rewrite (holds_be_unique _ _ _ _ _ Hv H2) in Hz.
    apply to_signed_iff in Hz; auto; [congruence|apply H2].
Qed.
Lemma int_le_panic n a e : len a < two64 -> len a < e + n -> bytes_to_int_le n a e = Panic.
Proof. intros. unfold bytes_to_int_le. rewrite uint_le_panic; auto. Qed.
Lemma int_be_panic n a e : len a < two64 -> len a < e + n -> bytes_to_int_be n a e = Panic.
Proof. intros. unfold bytes_to_int_be. rewrite uint_be_panic; auto. Qed.

(** ** Statements *)
Lemma byte_order_reads : forall a e, wf_bytes a -> len a < two64 ->
  Forall (fun n => e + n <= len a ->
    (exists v, bytes_to_uint_le n a e = Ok v /\ holds_le a e n v) /\
    (exists v, bytes_to_uint_be n a e = Ok v /\ holds_be a e n v) /\
    (exists z v, bytes_to_int_le n a e = Ok z /\ holds_le a e n v /\ twos_complement n v z) /\
    (exists z v, bytes_to_int_be n a e = Ok z /\ holds_be a e n v /\ twos_complement n v z)) [2; 4; 8].
Proof.
  intros a e Hw Ha. apply Forall_forall. intros n Hn H.
  assert (0 < n) by (cbn [In] in Hn; lia).
  destruct (uint_le_total n a e H Ha Hw) as (v & V1 & V2).
  destruct (uint_be_total n a e H Ha Hw) as (w & W1 & W2).
  split; [eauto|]. split; [eauto|]. split.
  - exists (to_signed n v), v. unfold bytes_to_int_le. rewrite V1. split; auto. split; auto.
    apply to_signed_iff; auto. apply V2.
  - exists (to_signed n w), w. unfold bytes_to_int_be. rewrite W1. split; auto. split; auto.
    apply to_signed_iff; auto. apply W2.
Qed.

Lemma byte_order_inverts : forall a e, wf_bytes a -> len a < two64 ->
  Forall (fun n =>
    (forall v, holds_le a e n v -> bytes_to_uint_le n a e = Ok v) /\
    (forall v, holds_be a e n v -> bytes_to_uint_be n a e = Ok v) /\
    (forall v z, holds_le a e n v -> twos_complement n v z -> bytes_to_int_le n a e = Ok z) /\
    (forall v z, holds_be a e n v -> twos_complement n v z -> bytes_to_int_be n a e = Ok z)) [2; 4; 8].
Proof.
  intros a e Hw Ha. apply Forall_forall. intros n Hn.
  assert (0 < n) by (cbn [In] in Hn; lia).
  assert (Hle : forall f, (forall i, i < n -> nth_error a (N.to_nat (e + i)) = Some (f i)) -> e + n <= len a).
  { intros f H1. specialize (H1 (n - 1) ltac:(lia)).
    assert (Hs : nth_error a (N.to_nat (e + (n - 1))) <> None) by congruence.
    apply nth_error_Some in Hs. unfold len. lia. }
  repeat split.
  - intros v Hv. apply uint_le_iff; auto. eapply Hle; apply Hv.
  - intros v Hv. apply uint_be_iff; auto. eapply Hle; apply Hv.
  - intros v z Hv Hz. apply int_le_iff; eauto. eapply Hle; apply Hv.
  - intros v z Hv Hz. apply int_be_iff; eauto. eapply Hle; apply Hv.
Qed.

Lemma byte_order_panics : forall a e, len a < two64 ->
  Forall (fun n => len a < e + n ->
    bytes_to_uint_le n a e = Panic /\ bytes_to_uint_be n a e = Panic /\
    bytes_to_int_le n a e = Panic /\ bytes_to_int_be n a e = Panic) [2; 4; 8].
Proof.
  intros a e Ha. apply Forall_forall. intros n Hn H.
  auto using uint_le_panic, uint_be_panic, int_le_panic, int_be_panic.
Qed.

Ltac Zify.zify_post_hook ::= Z.div_mod_to_equations.
