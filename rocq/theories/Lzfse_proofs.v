From Verif Require Import Base BaseLemmas Lz_model Lz_spec Lz_proofs Lzvn_proofs Bytes_model.
From Verif Require Import Huffman_model Huffman_spec Huffman_proofs Bzip2_model Bzip2_spec Bzip2_proofs.
From Verif Require Import Deflate_spec Lzfse_model Lzfse_spec.
Ltac Zify.zify_post_hook ::= idtac.

(** ** Reading backwards is reading the reversed bytes *)
Definition mirror (e : N) (s : bz_stream) : fs_stream := mk_fs (e - bz_offset s) (bz_bits s) (bz_count s).
Definition front_of (e : N) (data : list N) : list N := rev (firstn (N.to_nat e) data).

Lemma front_len e data : e <= len data -> len (front_of e data) = e.
Proof. intros H. unfold front_of, len in *. rewrite rev_length, firstn_length. lia. Qed.
Lemma front_wf e data : wf_bytes data -> wf_bytes (front_of e data).
Proof.
  intros H. unfold front_of, wf_bytes in *. apply Forall_rev. apply Forall_forall. intros x Hx.
  rewrite Forall_forall in H. apply H. eapply firstn_In_weak || (rewrite <- (firstn_skipn (N.to_nat e) data); apply in_or_app; left; exact Hx).
Qed.
Lemma front_idx e data o : e <= len data -> o < e -> idx (front_of e data) o = idx data (e - o - 1).
Proof.
  intros He Ho. rewrite (idx_ok _ _ 0) by (rewrite front_len; lia). rewrite (idx_ok data _ 0) by lia. f_equal.
  unfold front_of, len in *. rewrite rev_nth by (rewrite firstn_length; lia). rewrite firstn_length.
  replace (Nat.min (N.to_nat e) (length data) - S (N.to_nat o))%nat with (N.to_nat (e - o - 1)) by lia.
  rewrite <- (firstn_skipn (N.to_nat e) data) at 2. rewrite app_nth1; [reflexivity |]. rewrite firstn_length. lia.
Qed.

Definition rmap {A B} (f : A -> B) (r : res A) : res B := match r with Ok a => Ok (f a) | Err => Err | Panic => Panic end.

Lemma mirror_read data e n : e <= len data -> forall fuel s, bz_offset s <= e ->
  fs_read_data fuel data n (mirror e s) = rmap (mirror e) (bz_read_data fuel (front_of e data) n s) /\
  (forall s', bz_read_data fuel (front_of e data) n s = Ok s' -> bz_offset s' <= e).
Proof.
  intros He. induction fuel as [| fuel IH]; intros s Hs; [split; [reflexivity | discriminate] |].
  cbn [fs_read_data bz_read_data mirror fs_count fs_bits fs_offset].
  destruct (bz_count s <? n); [| split; [reflexivity | intros s' E; injection E as <-; exact Hs]].
  destruct (shl_chk 32 (bz_bits s) 8) as [b | |]; cbn [bind]; [| split; [reflexivity | discriminate] ..].
  rewrite front_len by exact He.
  destruct (N.ltb_spec (bz_offset s) e) as [H | H].
  - destruct (N.ltb_spec 0 (e - bz_offset s)); [| lia]. rewrite front_idx by lia.
    destruct (idx data (e - bz_offset s - 1)) as [x | |]; cbn [bind]; [| split; [reflexivity | discriminate] ..].
    destruct (IH (mk_bz (bz_offset s + 1) (N.lor b x) (bz_count s + 8)) ltac:(cbn; lia)) as [E1 E2].
    split; [| exact E2]. rewrite <- E1. unfold mirror. cbn [bz_offset bz_bits bz_count].
    replace (e - (bz_offset s + 1)) with (e - bz_offset s - 1) by lia. reflexivity.
  - destruct (N.ltb_spec 0 (e - bz_offset s)); [lia |]. cbn [bind].
    destruct (IH (mk_bz (bz_offset s) b (bz_count s + 8)) Hs) as [E1 E2]. split; [exact E1 | exact E2].
Qed.

Lemma mirror_loop data e n : e <= len data -> forall fuel o v s, bz_offset s <= e ->
  fs_value_loop fuel data n o v (mirror e s) =
    rmap (fun '(v, s) => (v, mirror e s)) (bz_value_loop fuel (front_of e data) n o v s) /\
  (forall v' s', bz_value_loop fuel (front_of e data) n o v s = Ok (v', s') -> bz_offset s' <= e).
Proof.
  intros He. induction fuel as [| fuel IH]; intros o v s Hs; [split; [reflexivity | discriminate] |].
  cbn [fs_value_loop bz_value_loop].
  destruct (o <? n); [| split; [reflexivity | intros v' s' E; injection E as <- <-; exact Hs]].
  set (r := if 24 <? n - o then 24 else n - o).
  change (fs_count (mirror e s)) with (bz_count s).
  assert (F : exists q, (if bz_count s <? r then bz_read_data 4 (front_of e data) r s else Ok s) = q /\
    (if bz_count s <? r then fs_read_data 4 data r (mirror e s) else Ok (mirror e s)) = rmap (mirror e) q /\
    (forall s', q = Ok s' -> bz_offset s' <= e)).
  { eexists. split; [reflexivity |]. destruct (bz_count s <? r).
    - apply mirror_read; assumption.
    - split; [reflexivity |]. intros s' E. injection E as <-. exact Hs. }
  destruct F as (q & -> & -> & Hq). destruct q as [s1 | |]; cbn [rmap bind]; [| split; [reflexivity | discriminate] ..].
  specialize (Hq s1 eq_refl). change (fs_count (mirror e s1)) with (bz_count s1). change (fs_bits (mirror e s1)) with (bz_bits s1).
  destruct (sub_chk (bz_count s1) r) as [left | |]; cbn [bind]; [| split; [reflexivity | discriminate] ..].
  match goal with |- context [bind ?m _] => destruct m as [[bits value] | |] end; cbn [bind]; [| split; [reflexivity | discriminate] ..].
  destruct (if 0 <? o then shl_chk 32 v r else Ok v) as [v1 | |]; cbn [bind]; [| split; [reflexivity | discriminate] ..].
  exact (IH (o + r) (N.lor v1 value) (mk_bz (bz_offset s1) bits left) Hq).
Qed.

Definition FAt (data : list N) (s : fs_stream) (r : list bool) : Prop :=
  exists e b, e <= len data /\ bz_offset b <= e /\ s = mirror e b /\ At (front_of e data) b r.
Definition fs_good (data : list N) (s : fs_stream) : Prop := exists r, FAt data s r.

Lemma FAt_start data e : e <= len data -> FAt data (mk_fs e 0 0) (backwards (firstn (N.to_nat e) data)).
Proof.
  intros He. exists e, (mk_bz 0 0 0). repeat split; auto; cbn; try lia.
  unfold mirror. cbn [bz_offset bz_bits bz_count]. now rewrite N.sub_0_r.
Qed.
Lemma FAt_value data n v s r : wf_bytes data -> (n <= 32)%nat -> v < 2 ^ N.of_nat n ->
  FAt data s (bits_msb n v ++ r) -> exists s', fs_value data (N.of_nat n) s = Ok (v, s') /\ FAt data s' r.
Proof.
  intros Hwf Hn Hv (e & b & He & Hb & -> & HA).
  destruct (At_value (front_of e data) n v b r (front_wf _ _ Hwf) Hn Hv HA) as (b' & E & HA').
  destruct (mirror_loop data e (N.of_nat n) He 3 0 0 b Hb) as [M1 M2].
  unfold bz_value in E. unfold fs_value. rewrite M1, E. cbn [rmap].
  eexists. split; [reflexivity |]. exists e, b'. repeat split; auto; try apply HA'. eapply M2; exact E.
Qed.
Lemma fs_value_total data n s : wf_bytes data -> n <= 32 -> fs_good data s ->
  exists v s', fs_value data n s = Ok (v, s') /\ v < 2 ^ n /\ fs_good data s'.
Proof.
  intros Hwf Hn (r & e & b & He & Hb & -> & [HG HV]).
  destruct (bz_value_ok (front_of e data) n b (front_wf _ _ Hwf) Hn HG) as (v & b' & k & E & G & B & _).
  destruct (mirror_loop data e n He 3 0 0 b Hb) as [M1 M2].
  unfold bz_value in E. unfold fs_value. rewrite M1, E. cbn [rmap].
  eexists _, _. split; [reflexivity |]. split; [exact B |].
  exists (view (front_of e data) b'), e, b'. repeat split; auto; try apply G. eapply M2; exact E.
Qed.
Lemma FAt_good data s r : FAt data s r -> fs_good data s.
Proof. intros H. now exists r. Qed.

(** ** Decoder tables *)
Lemma log2_range f j : 1 <= f -> N.log2 f = j -> 2 ^ j <= f < 2 ^ (j + 1).
Proof. intros Hf <-. pose proof (N.log2_spec f ltac:(lia)). rewrite N.add_1_r. exact H. Qed.
Lemma size_log2 f : 1 <= f -> N.size f = N.log2 f + 1.
Proof. intros H. rewrite N.size_log2 by lia. now rewrite N.add_1_r. Qed.

Lemma table_entry_ok e f w : e <= 10 -> 1 <= f -> f <= 2 ^ e -> w < f ->
  let k := e - N.log2 (f + w) in
  table_entry (2 ^ e) f (e - N.log2 f) (2 ^ (N.log2 f + 1) - f) w = Ok (k, (f + w) * 2 ^ k - 2 ^ e) /\
  2 ^ e <= (f + w) * 2 ^ k /\ (f + w) * 2 ^ k < 2 ^ (e + 1).
Proof.
  intros He Hf1 Hf2 Hw. cbv zeta. set (j := N.log2 f).
  pose proof (log2_range f j Hf1 eq_refl) as Rj. set (J := 2 ^ j) in *.
  assert (E1 : 2 ^ (j + 1) = 2 * J) by (rewrite N.add_1_r, N.pow_succ_r'; reflexivity). rewrite E1 in *.
  assert (Hj : j <= e).
  { destruct (N.le_gt_cases j e) as [H | H]; [exact H |]. exfalso.
    assert (2 ^ e < J) by (apply N.pow_lt_mono_r; lia). lia. }
  assert (Ee : 2 ^ e = J * 2 ^ (e - j)) by (unfold J; rewrite <- N.pow_add_r; f_equal; lia).
  assert (Ee1 : 2 ^ (e + 1) = 2 * 2 ^ e) by (rewrite N.add_1_r, N.pow_succ_r'; reflexivity).
  unfold table_entry. destruct (N.ltb_spec w (2 * J - f)) as [H | H].
  - assert (L : N.log2 (f + w) = j).
    { apply N.log2_unique; [lia |]. fold J. rewrite N.pow_succ_r'. fold J. lia. }
    rewrite L. set (P := 2 ^ (e - j)) in *. rewrite N.shiftl_mul_pow2. fold P.
    assert (P1 : 1 <= P) by (unfold P; pose proof (pow2_pos (e - j)); lia).
    unfold sub_chk. destruct (N.leb_spec (2 ^ e) ((f + w) * P)) as [HH | HH]; [| nia].
    cbn [bind]. split; [reflexivity |]. rewrite Ee1, Ee. clear - H P1 Rj Hw. nia.
  - assert (L : N.log2 (f + w) = j + 1).
    { apply N.log2_unique; [lia |]. rewrite E1. rewrite N.pow_succ_r', E1. lia. }
    assert (Hj1 : j + 1 <= e).
    { destruct (N.eq_dec j e) as [-> |]; [| lia]. exfalso. fold J in Hf2. lia. }
    rewrite L. unfold sub_chk at 1. destruct (N.leb_spec 1 (e - j)); [| lia]. cbn [bind].
    replace (e - j - 1) with (e - (j + 1)) by lia. rewrite N.shiftl_mul_pow2.
    assert (Ep : 2 ^ (e - j) = 2 * 2 ^ (e - (j + 1))).
    { replace (e - j) with (N.succ (e - (j + 1))) by lia. apply N.pow_succ_r'. }
    set (P := 2 ^ (e - (j + 1))) in *. assert (P1 : 1 <= P) by (unfold P; pose proof (pow2_pos (e - (j + 1))); lia).
    rewrite Ee1, Ee, Ep. split; [| split; nia]. do 2 f_equal.
    replace (f + w) with ((w - (2 * J - f)) + 2 * J) by lia. nia.
Qed.

Definition entry_of (e symbol f w : N) : N * N * N :=
  let k := e - N.log2 (f + w) in (symbol, k, (f + w) * 2 ^ k - 2 ^ e).
Lemma table_entries_ok e symbol f : e <= 10 -> 1 <= f -> f <= 2 ^ e -> forall n w, w + N.of_nat n = f ->
  table_entries n (2 ^ e) symbol f (e - N.log2 f) (2 ^ (N.log2 f + 1) - f) w = Ok (map (entry_of e symbol f) (seqN w n)).
Proof.
  intros He H1 H2. induction n as [| n IH]; intros w Hw; [reflexivity |]. cbn [table_entries seqN map].
  destruct (table_entry_ok e f w He H1 H2 ltac:(lia)) as [-> _]. cbn [bind]. rewrite IH by lia. reflexivity.
Qed.
Definition table_of (e symbol : N) (fs : list N) : list (N * N * N) :=
  flat_map (fun '(s, f) => map (entry_of e s f) (seqN 0 (N.to_nat f))) (List.combine (seqN symbol (length fs)) fs).

Lemma build_table_ok e : e <= 10 -> forall fs symbol sum, (0 <= sum)%Z -> (sum + Z.of_N (total fs) <= 2 ^ Z.of_N e)%Z ->
  build_table (2 ^ e) symbol fs sum = Ok (table_of e symbol fs).
Proof.
  intros He. induction fs as [| f fs IH]; intros symbol sum H0 H; [reflexivity |].
  unfold table_of. cbn [build_table length seqN List.combine flat_map]. fold (table_of e (symbol + 1) fs).
  change (total (f :: fs)) with (f + total fs) in H.
  assert (Hp : (2 ^ Z.of_N e <= 1024)%Z) by (change 1024%Z with (2 ^ 10)%Z; apply Z.pow_le_mono_r; lia).
  assert (HeZ : Z.of_N (2 ^ e) = (2 ^ Z.of_N e)%Z) by (rewrite N2Z.inj_pow; reflexivity).
  destruct (N.eqb_spec f 0) as [-> | Hf].
  - cbn [N.to_nat seqN map app]. apply IH; lia.
  - assert (Ef : to_signed 2 f = Z.of_N f).
    { unfold to_signed. change (2 ^ (8 * 2 - 1)) with 32768. destruct (N.ltb_spec f 32768); [reflexivity | lia]. }
    rewrite Ef. unfold add_i16.
    replace ((-32768 <=? sum + Z.of_N f)%Z && (sum + Z.of_N f <=? 32767)%Z) with true by (symmetry; apply andb_true_intro; split; lia).
    cbn [bind]. unfold check. rewrite HeZ. destruct (Z.leb_spec (sum + Z.of_N f) (2 ^ Z.of_N e)); [| lia]. cbn [bind].
    assert (Hle : f <= 2 ^ e) by lia.
    assert (HN : 2 ^ e <= 1024) by lia.
    pose proof (log2_range f (N.log2 f) ltac:(lia) eq_refl) as Rj.
    assert (Hj : N.log2 f <= e) by (rewrite <- (N.log2_pow2 e) by lia; apply N.log2_le_mono; exact Hle).
    unfold clz16. rewrite !size_log2 by (try lia; pose proof (pow2_pos e); lia). rewrite N.log2_pow2 by lia.
    unfold sub_chk at 1. destruct (N.leb_spec (16 - (e + 1)) (16 - (N.log2 f + 1))); [| lia]. cbn [bind].
    replace (16 - (N.log2 f + 1) - (16 - (e + 1))) with (e - N.log2 f) by lia.
    unfold shr_chk. destruct (N.ltb_spec (e - N.log2 f) 16); [| lia]. cbn [bind].
    assert (Ed : N.shiftr (2 * 2 ^ e) (e - N.log2 f) = 2 ^ (N.log2 f + 1)).
    { rewrite N.shiftr_div_pow2, <- N.pow_succ_r'.
      replace (N.succ e) with (N.log2 f + 1 + (e - N.log2 f)) by lia.
      rewrite N.pow_add_r. apply N.div_mul. apply N.pow_nonzero. lia. }
    rewrite Ed. unfold sub_chk. destruct (N.leb_spec f (2 ^ (N.log2 f + 1))); [| lia]. cbn [bind].
    rewrite table_entries_ok by lia. cbn [bind]. rewrite IH by lia. reflexivity.
Qed.

Lemma seqN_length a n : length (seqN a n) = n.
Proof. revert a. induction n as [| n IH]; intros a; cbn [seqN length]; [reflexivity | now rewrite IH]. Qed.
Lemma seqN_nth n : forall a i, (i < n)%nat -> nth_error (seqN a n) i = Some (a + N.of_nat i).
Proof.
  induction n as [| n IH]; intros a [| i] H; cbn [seqN nth_error]; try lia; [f_equal; lia |].
  rewrite IH by lia. f_equal. lia.
Qed.
Lemma table_nth e fs : forall symbol i f w, nth_error fs i = Some f -> w < f ->
  nth_error (table_of e symbol fs) (N.to_nat (total (firstn i fs) + w)) = Some (entry_of e (symbol + N.of_nat i) f w).
Proof.
  induction fs as [| g fs IH]; intros symbol [| i] f w Hn Hw; cbn [nth_error] in Hn; try discriminate.
  - injection Hn as ->. unfold table_of. cbn [length seqN List.combine flat_map firstn total fold_right]. rewrite N.add_0_l.
    rewrite nth_error_app1 by (rewrite map_length, seqN_length; lia).
    rewrite nth_error_map, seqN_nth by lia. cbn [option_map]. rewrite N.add_0_l, N2Nat.id. do 2 f_equal. cbn [N.of_nat]. lia.
  - unfold table_of. cbn [length seqN List.combine flat_map firstn]. fold (table_of e (symbol + 1) fs).
    change (total (g :: firstn i fs)) with (g + total (firstn i fs)).
    rewrite nth_error_app2 by (rewrite map_length, seqN_length; lia). rewrite map_length, seqN_length.
    replace (N.to_nat (g + total (firstn i fs) + w) - N.to_nat g)%nat with (N.to_nat (total (firstn i fs) + w)) by lia.
    rewrite (IH (symbol + 1) i f w Hn Hw). do 2 f_equal. lia.
Qed.
Lemma table_length e fs : forall symbol, N.of_nat (length (table_of e symbol fs)) = total fs.
Proof.
  induction fs as [| g fs IH]; intros symbol; [reflexivity |].
  unfold table_of. cbn [length seqN List.combine flat_map]. fold (table_of e (symbol + 1) fs).
  rewrite app_length, map_length, seqN_length, Nat2N.inj_add, IH. change (total (g :: fs)) with (g + total fs). lia.
Qed.

(** The entry that a step of the encoder names. *)
Lemma total_app a b : total (a ++ b) = total a + total b.
Proof. induction a as [| x a IH]; [reflexivity |]. cbn [app]. change (total (x :: a)) with (x + total a). change (total (x :: a ++ b)) with (x + total (a ++ b)). lia. Qed.
Lemma total_nth l : forall i f, nth_error l i = Some f -> total (firstn i l) + f <= total l.
Proof.
  induction l as [| x l IH]; intros [| i] f H; cbn [nth_error] in H; try discriminate.
  - injection H as ->. cbn [firstn]. change (total (f :: l)) with (f + total l). change (total []) with 0. lia.
  - cbn [firstn]. change (total (x :: l)) with (x + total l). change (total (x :: firstn i l)) with (x + total (firstn i l)).
    specialize (IH i f H). lia.
Qed.
Lemma step_entry e fs y s bits x : e <= 10 -> total fs <= 2 ^ e -> fse_step (2 ^ e) fs y s bits x ->
  exists k delta v, nth_error (table_of e 0 fs) (N.to_nat y) = Some (s, N.of_nat k, delta) /\ (k <= 10)%nat /\ N.of_nat k <= e /\
    bits = bits_msb k v /\ v < 2 ^ N.of_nat k /\ delta + v = x /\ y < 2 ^ e /\ x < 2 ^ e /\ (N.to_nat s < length fs)%nat.
Proof.
  intros He Ht (f & k & Hn & Hx & Hr & Hy & Hb).
  set (q := (2 ^ e + x) / 2 ^ N.of_nat k) in *. set (w := q - f) in *.
  pose proof (pow2_pos e) as Pe. pose proof (pow2_pos (N.of_nat k)) as Pk.
  assert (Hw : w < f) by lia.
  assert (Hl : N.log2 (2 ^ e + x) = e).
  { apply N.log2_unique; [lia |]. rewrite N.pow_succ_r'. lia. }
  assert (Hq : N.log2 q = e - N.of_nat k).
  { unfold q. rewrite <- N.shiftr_div_pow2. rewrite N.log2_shiftr by (lia). now rewrite Hl. }
  assert (Hk : N.of_nat k <= e).
  { destruct (N.le_gt_cases (N.of_nat k) e) as [H | H]; [exact H |]. exfalso.
    assert (q = 0).
    { unfold q. apply N.div_small. assert (2 ^ (e + 1) <= 2 ^ N.of_nat k) by (apply N.pow_le_mono_r; lia).
      rewrite N.add_1_r, N.pow_succ_r' in H0. lia. }
    lia. }
  pose proof (table_nth e fs 0 (N.to_nat s) f w Hn Hw) as HT. rewrite N2Nat.id, N.add_0_l in HT.
  unfold entry_of in HT. replace (f + w) with q in HT by lia. rewrite Hq in HT.
  replace (e - (e - N.of_nat k)) with (N.of_nat k) in HT by lia.
  exists k, (q * 2 ^ N.of_nat k - 2 ^ e), ((2 ^ e + x) mod 2 ^ N.of_nat k).
  pose proof (N.div_mod (2 ^ e + x) (2 ^ N.of_nat k) ltac:(lia)) as D. fold q in D.
  pose proof (N.mod_lt (2 ^ e + x) (2 ^ N.of_nat k) ltac:(lia)) as M.
  assert (Hql : 2 ^ e <= q * 2 ^ N.of_nat k).
  { assert (2 ^ (e - N.of_nat k) <= q) by (rewrite <- Hq; apply N.log2_spec; lia).
    replace (2 ^ e) with (2 ^ (e - N.of_nat k) * 2 ^ N.of_nat k) by (rewrite <- N.pow_add_r; f_equal; lia).
    apply N.mul_le_mono_r. exact H. }
  pose proof (total_nth fs _ _ Hn) as HS.
  repeat match goal with |- _ /\ _ => split end; try lia.
  - rewrite Hy. exact HT.
  - rewrite Hb, bits_msb_mod. reflexivity.
  - apply nth_error_Some. congruence.
Qed.
