From Verif Require Import Base BaseLemmas Bytes_model Lz_model Lz_spec Huffman_spec Bzip2_spec Bzip2_proofs Deflate_spec Deflate_proofs.
From Verif Require Import Lz_proofs Lzvn_proofs P_C07 Lzfse_model Lzfse_spec Lzfse_proofs Lzfse2_proofs Lzfse3_proofs Lzfse4_proofs.
Ltac Zify.zify_post_hook ::= idtac.

(** * LZFSE: no panic *)
Definition post {A} (Q : A -> Prop) (r : res A) : Prop := match r with Ok a => Q a | Err => True | Panic => False end.
Lemma post_bind {A B} (Q : A -> Prop) (R : B -> Prop) m k : post Q m -> (forall a, Q a -> post R (k a)) -> post R (bind m k).
Proof. destruct m; cbn; auto. Qed.
Lemma post_check b : post (fun _ => b = true) (check b).
Proof. destruct b; cbn; auto. Qed.
Lemma post_sub a b : b <= a -> post (fun x => x = a - b) (sub_chk a b).
Proof. intros H. unfold sub_chk. destruct (N.leb_spec b a); cbn; [reflexivity | lia]. Qed.
Lemma post_slice {A} (c : list A) a b : a <= b -> b <= len c ->
  post (fun s => s = firstn (N.to_nat (b - a)) (skipn (N.to_nat a) c) /\ len s = b - a) (slice c a b).
Proof.
  intros H1 H2. rewrite slice_ok by assumption. cbn. split; [reflexivity |].
  unfold len in *. rewrite firstn_length, skipn_length. lia.
Qed.
Lemma post_le_at n c o : o + n <= len c -> post (fun v => v = le_value (firstn (N.to_nat n) (skipn (N.to_nat o) c))) (le_at n c o).
Proof. intros H. unfold le_at. rewrite slice_ok by lia. cbn. do 3 f_equal. lia. Qed.
Lemma post_weaken {A} (Q R : A -> Prop) m : post Q m -> (forall a, Q a -> R a) -> post R m.
Proof. destruct m; cbn; auto. Qed.

Definition small (fs : list N) : Prop := Forall (fun f => f < 1048) fs.

Lemma build_table_total e : e <= 10 -> forall fs symbol sum, (0 <= sum)%Z -> (sum <= 2 ^ Z.of_N e)%Z -> small fs ->
  build_table (2 ^ e) symbol fs sum = Ok (table_of e symbol fs) \/ build_table (2 ^ e) symbol fs sum = Err.
Proof.
  intros He. induction fs as [| f fs IH]; intros symbol sum H0 H HS; [left; reflexivity |].
  apply Forall_cons_iff in HS as [Hf8 HS].
  unfold table_of. cbn [build_table length seqN List.combine flat_map]. fold (table_of e (symbol + 1) fs).
  assert (Hp : (2 ^ Z.of_N e <= 1024)%Z) by (change 1024%Z with (2 ^ 10)%Z; apply Z.pow_le_mono_r; lia).
  assert (HeZ : Z.of_N (2 ^ e) = (2 ^ Z.of_N e)%Z) by (rewrite N2Z.inj_pow; reflexivity).
  destruct (N.eqb_spec f 0) as [-> | Hf].
  - cbn [N.to_nat seqN map app]. apply IH; auto.
  - assert (Ef : to_signed 2 f = Z.of_N f).
    { unfold to_signed. change (2 ^ (8 * 2 - 1)) with 32768. destruct (N.ltb_spec f 32768); [reflexivity | lia]. }
    rewrite Ef. unfold add_i16.
    replace ((-32768 <=? sum + Z.of_N f)%Z && (sum + Z.of_N f <=? 32767)%Z) with true by (symmetry; apply andb_true_intro; split; lia).
    cbn [bind]. unfold check. rewrite HeZ. destruct (Z.leb_spec (sum + Z.of_N f) (2 ^ Z.of_N e)); [| right; reflexivity]. cbn [bind].
    assert (Hle : f <= 2 ^ e) by lia.
    assert (HN : 2 ^ e <= 1024) by lia.
    pose proof (log2_range f (N.log2 f) ltac:(lia) eq_refl) as Rj.
    assert (Hj : N.log2 f <= e) by (rewrite <- (N.log2_pow2 e) by lia; apply N.log2_le_mono; exact Hle).
    unfold clz16. rewrite !size_log2 by (try lia; pose proof (pow2_pos e); lia). rewrite N.log2_pow2 by lia.
    unfold sub_chk at 1 3. destruct (N.leb_spec (16 - (e + 1)) (16 - (N.log2 f + 1))); [| lia]. cbn [bind].
    replace (16 - (N.log2 f + 1) - (16 - (e + 1))) with (e - N.log2 f) by lia.
    unfold shr_chk. destruct (N.ltb_spec (e - N.log2 f) 16); [| lia]. cbn [bind].
    assert (Ed : N.shiftr (2 * 2 ^ e) (e - N.log2 f) = 2 ^ (N.log2 f + 1)).
    { rewrite N.shiftr_div_pow2, <- N.pow_succ_r'.
      replace (N.succ e) with (N.log2 f + 1 + (e - N.log2 f)) by lia.
      rewrite N.pow_add_r. apply N.div_mul. apply N.pow_nonzero. lia. }
    rewrite Ed. unfold sub_chk. destruct (N.leb_spec f (2 ^ (N.log2 f + 1))); [| lia]. cbn [bind].
    rewrite table_entries_ok by lia. cbn [bind].
    destruct (IH (symbol + 1) (sum + Z.of_N f)%Z ltac:(lia) ltac:(lia) HS) as [-> | ->]; [left | right]; reflexivity.
Qed.
Lemma table_bits e fs : forall symbol, Forall (fun '(_, b, _) => b <= e) (table_of e symbol fs).
Proof.
  induction fs as [| f fs IH]; intros symbol; [constructor |].
  unfold table_of. cbn [length seqN List.combine flat_map]. fold (table_of e (symbol + 1) fs). apply Forall_app. split; [| apply IH].
  apply Forall_map, Forall_forall. intros w _. unfold entry_of. lia.
Qed.
Lemma build_table_post e fs : e <= 10 -> small fs -> post (Forall (fun '(_, b, _) => b <= e)) (build_table (2 ^ e) 0 fs 0).
Proof.
  intros He HS. destruct (build_table_total e He fs 0 0%Z ltac:(lia) ltac:(apply Z.pow_nonneg; lia) HS) as [-> | ->]; cbn; [apply table_bits | exact I].
Qed.
Definition entries_good (t : list (N * N * N * N)) : Prop := Forall (fun '(b, v, _, _) => b <= 32 /\ v <= b) t.
Lemma build_value_post e fs bt vt : e <= 10 -> small fs -> length fs = length bt -> length fs = length vt -> Forall (fun b => b <= 15) bt ->
  post entries_good (build_value_table (2 ^ e) fs bt vt).
Proof.
  intros He HS L1 L2 HB. unfold build_value_table.
  destruct (build_table_total e He fs 0 0%Z ltac:(lia) ltac:(apply Z.pow_nonneg; lia) HS) as [-> | ->]; cbn [bind]; [| exact I].
  rewrite value_entries_ok.
  - cbn. apply Forall_map. eapply Forall_impl; [| apply (table_bits e fs 0)]. intros [[s b] d] H. cbn [value_entry].
    assert (nth (N.to_nat s) bt 0 <= 15); [| lia].
    destruct (Nat.lt_ge_cases (N.to_nat s) (length bt)) as [L | L]; [| rewrite nth_overflow by exact L; lia].
    rewrite Forall_forall in HB. apply HB. now apply nth_In.
  - eapply Forall_impl; [| apply table_symbols]. intros [[s b] d] H. unfold len. lia.
Qed.

(** ** Literals *)
Lemma read_literal_post data t y s : wf_bytes data -> Forall (fun '(_, b, _) => b <= 10) t -> fs_good data s ->
  post (fun '(_, _, s') => fs_good data s') (read_literal data t y s).
Proof.
  intros Hwf Ht Hs. unfold read_literal. eapply post_bind; [apply post_check | cbv beta]. intros _ _.
  destruct (nth_error t (N.to_nat y)) as [[[sy b] d] |] eqn:E; cbn [of_option bind]; [| exact I].
  rewrite Forall_forall in Ht. specialize (Ht _ (nth_error_In _ _ E)). cbn in Ht.
  destruct (fs_value_total data b s Hwf ltac:(lia) Hs) as (v & s' & -> & _ & G). exact G.
Qed.
Lemma read_group_post data t : wf_bytes data -> Forall (fun '(_, b, _) => b <= 10) t -> forall ys i s, fs_good data s ->
  i + len ys <= maximum_literals -> post (fun '(sy, ys', s') => fs_good data s' /\ len ys' = len ys) (read_group data t ys i s).
Proof.
  intros Hwf Ht. induction ys as [| y ys IH]; intros i s Hs Hi; cbn [read_group]; [cbn; auto |].
  eapply post_bind; [apply (read_literal_post data t y s Hwf Ht Hs) | cbv beta]. intros [[sy x] s1] G1.
  rewrite len_cons in Hi. unfold assert. destruct (N.ltb_spec i maximum_literals); [| lia]. cbn [bind].
  eapply post_bind; [apply (IH (i + 1) s1 G1); lia | cbv beta]. intros [[sys ys'] s2] [G2 L2]. cbn [bind post]. rewrite !len_cons. split; [exact G2 | lia].
Qed.
Lemma read_groups_post data t : wf_bytes data -> Forall (fun '(_, b, _) => b <= 10) t -> forall n ys i s, fs_good data s -> len ys = 4 ->
  i + 4 * N.of_nat n <= maximum_literals -> post (fun _ => True) (read_groups n data t ys i s).
Proof.
  intros Hwf Ht. induction n as [| n IH]; intros ys i s Hs L Hi; cbn [read_groups]; [exact I |].
  eapply post_bind; [apply (read_group_post data t Hwf Ht ys i s Hs); lia | cbv beta]. intros [[sys ys'] s2] [G2 L2].
  eapply post_bind; [apply (IH ys' (i + 4) s2 G2); lia | cbv beta]. intros r _. exact I.
Qed.
Lemma padding_post z : post (fun p => p <= 32) (padding_of z).
Proof.
  unfold padding_of, check. destruct (((-32 <=? z) && (z <=? 0))%Z) eqn:E; cbn; [| exact I].
  apply andb_prop in E as [E1 E2]. apply Z.leb_le in E1. lia.
Qed.
Lemma read_literals_post data t d o : wf_bytes data -> Forall (fun '(_, b, _) => b <= 10) t -> o <= len data -> len (literal_states d) = 4 ->
  post (fun _ => True) (read_literals data t d o).
Proof.
  intros Hwf Ht Ho L. unfold read_literals. eapply post_bind; [apply post_check | cbv beta]. intros _ HC. apply N.leb_le in HC.
  eapply post_bind; [apply padding_post | cbv beta]. intros p Hp.
  destruct (fs_value_total data p _ Hwf Hp (FAt_good _ _ _ (FAt_start data o Ho))) as (v & s' & -> & _ & G). cbn [bind].
  apply read_groups_post; auto. rewrite N2Nat.id, N.add_0_l.
  assert (H : (number_of_literals d + 3) / 4 < 10017) by (apply N.div_lt_upper_bound; unfold maximum_literals in *; lia).
  unfold maximum_literals. lia.
Qed.

(** ** Triples *)
Lemma read_number_post data t n y s : wf_bytes data -> entries_good t -> fs_good data s ->
  post (fun '(_, _, s') => fs_good data s') (read_lmd_value data t n y s).
Proof.
  intros Hwf Ht Hs. unfold read_lmd_value. eapply post_bind; [apply post_check | cbv beta]. intros _ _.
  destruct (nth_error t (N.to_nat y)) as [[[[b w] d] vb] |] eqn:E; cbn [of_option bind]; [| exact I].
  unfold entries_good in Ht. rewrite Forall_forall in Ht. specialize (Ht _ (nth_error_In _ _ E)). cbn in Ht.
  destruct (fs_value_total data b s Hwf ltac:(lia) Hs) as (v & s' & -> & _ & G). exact G.
Qed.
Lemma len_set_nth {A} (l : list A) i v : len (set_nth l i v) = len l.
Proof. unfold len. now rewrite set_nth_length. Qed.
Lemma copy_literals_post lits : forall n buf i o, i + N.of_nat n <= maximum_literals -> o + N.of_nat n <= len buf ->
  post (fun b => len b = len buf) (copy_literals n lits buf i o).
Proof.
  induction n as [| n IH]; intros buf i o Hi Ho; cbn [copy_literals]; [reflexivity |].
  unfold literal_at. destruct (N.ltb_spec i maximum_literals); [| lia]. cbn [bind]. rewrite upd_ok by lia. cbn [bind].
  eapply post_weaken; [apply IH; rewrite ?len_set_nth; lia |]. intros b Hb. rewrite Hb, len_set_nth. reflexivity.
Qed.
Lemma copy_loop_post : forall n buf o s, s <= o -> o + N.of_nat n <= len buf -> post (fun b => len b = len buf) (copy_loop n buf o s).
Proof.
  induction n as [| n IH]; intros buf o s Hs Ho; cbn [copy_loop]; [reflexivity |].
  rewrite (idx_ok _ _ 0) by lia. cbn [bind]. rewrite upd_ok by lia. cbn [bind].
  eapply post_weaken; [apply IH; rewrite ?len_set_nth; lia |]. intros b Hb. rewrite Hb, len_set_nth. reflexivity.
Qed.
Lemma signed_le n x : (to_signed n x <= Z.of_N x)%Z.
Proof. unfold to_signed. destruct (x <? 2 ^ (8 * n - 1)); lia. Qed.
Lemma more_false m r : more_than_i32 m r = false -> m <= r.
Proof.
  unfold more_than_i32. intros H. apply Z.ltb_ge in H. pose proof (signed_le 4 (r mod two32)) as S.
  pose proof (N.mod_le r two32 ltac:(discriminate)) as L. revert S H L. generalize (r mod two32). intros x S H L.
  revert S H. generalize (to_signed 4 x). intros y S H. lia.
Qed.
Lemma lmd_loop_post data lt mt dt lits : wf_bytes data -> entries_good lt -> entries_good mt -> entries_good dt ->
  forall n yl ym yd s distance index buf o, fs_good data s -> o <= len buf ->
  post (fun '(b, u) => len b = len buf /\ o <= u /\ u <= len buf) (lmd_loop n data lt mt dt lits yl ym yd s distance index buf o).
Proof.
  intros Hwf Hl Hm Hd. induction n as [| n IH]; intros yl ym yd s distance index buf o Hs Ho; cbn [lmd_loop]; [cbn; lia |].
  eapply post_bind; [apply (read_number_post data lt 64 yl s Hwf Hl Hs) | cbv beta]. intros [[l xl] s1] G1.
  eapply post_bind; [apply (read_number_post data mt 64 ym s1 Hwf Hm G1) | cbv beta]. intros [[m xm] s2] G2.
  eapply post_bind; [apply (read_number_post data dt 256 yd s2 Hwf Hd G2) | cbv beta]. intros [[d xd] s3] G3.
  cbv zeta. set (dist := if d =? 0 then distance else d).
  eapply post_bind; [apply (post_sub (len buf) o Ho) | cbv beta]. intros r ->.
  eapply post_bind; [apply post_check | cbv beta]. intros _ C1. apply N.leb_le in C1.
  eapply post_bind; [apply post_check | cbv beta]. intros _ C2. apply N.leb_le in C2.
  eapply post_bind; [apply (copy_literals_post lits (N.to_nat l) buf index o); lia | cbv beta]. intros b1 L1.
  eapply post_bind; [apply (post_sub (len buf - o) l); lia | cbv beta]. intros r ->.
  eapply post_bind; [apply post_check | cbv beta]. intros _ C3. apply negb_true_iff, more_false in C3.
  eapply post_bind; [apply post_check | cbv beta]. intros _ C4. apply N.leb_le in C4.
  eapply post_bind; [apply (post_sub (o + l) dist); lia | cbv beta]. intros r ->.
  eapply post_bind; [apply (copy_loop_post (N.to_nat m) b1 (o + l) (o + l - dist)); lia | cbv beta]. intros b2 L2.
  eapply post_weaken; [apply (IH xl xm xd s3 dist (index + l) b2 (o + l + m) G3); lia |]. intros [b u]. lia.
Qed.

Lemma decompress_post c co d fs buf uo : wf_bytes c -> co <= len c -> length fs = 360%nat -> small fs -> len (literal_states d) = 4 ->
  uo <= len buf -> post (fun '(e, b, u) => co <= e /\ len b = len buf /\ u <= len buf) (decompress_block c co d fs buf uo).
Proof.
  intros Hwf Hco L HS L4 Hu. unfold decompress_block.
  assert (P : forall a b, a <= b -> b <= 360 -> post (fun s => small s /\ length s = N.to_nat (b - a)) (slice fs a b)).
  { intros a b Ha Hb. eapply post_weaken; [apply post_slice; [exact Ha | unfold len; lia] |]. cbv beta. intros s [-> Hn].
    split; [| unfold len in Hn; lia]. unfold small in *. rewrite <- (firstn_skipn (N.to_nat a) fs) in HS. apply Forall_app in HS as [_ HS].
    rewrite <- (firstn_skipn (N.to_nat (b - a)) (skipn (N.to_nat a) fs)) in HS. apply Forall_app in HS as [HS _]. exact HS. }
  assert (B1 : Forall (fun b => b <= 15) l_bits_table) by (repeat constructor; lia || discriminate).
  assert (B2 : Forall (fun b => b <= 15) m_bits_table) by (repeat constructor; lia || discriminate).
  assert (B3 : Forall (fun b => b <= 15) d_bits_table) by (repeat constructor; lia || discriminate).
  eapply post_bind; [apply (P 0 20); lia | cbv beta]. intros fl [S1 N1].
  eapply post_bind; [apply (build_value_post 6 fl l_bits_table l_base_table); auto; lia | cbv beta]. intros lt G1.
  eapply post_bind; [apply (P 20 40); lia | cbv beta]. intros fm [S2 N2].
  eapply post_bind; [apply (build_value_post 6 fm m_bits_table m_base_table); auto; lia | cbv beta]. intros mt G2.
  eapply post_bind; [apply (P 40 104); lia | cbv beta]. intros fd [S3 N3].
  eapply post_bind; [apply (build_value_post 8 fd d_bits_table d_base_table); auto; lia | cbv beta]. intros dt G3.
  eapply post_bind; [apply (P 104 360); lia | cbv beta]. intros fu [S4 N4].
  eapply post_bind; [apply (build_table_post 10 fu); auto; lia | cbv beta]. intros ut G4.
  eapply post_bind; [apply (post_sub (len c) co Hco) | cbv beta]. intros r ->.
  eapply post_bind; [apply post_check | cbv beta]. intros _ C1. apply N.leb_le in C1.
  eapply post_bind; [apply read_literals_post; auto; lia | cbv beta]. intros lits _.
  eapply post_bind; [apply (post_sub (len c) (co + literals_size d)); lia | cbv beta]. intros r ->.
  eapply post_bind; [apply post_check | cbv beta]. intros _ C2. apply N.leb_le in C2.
  unfold read_lmd. eapply post_bind.
  - eapply post_bind; [apply padding_post |]. intros p Hp.
    destruct (fs_value_total c p _ Hwf Hp (FAt_good _ _ _ (FAt_start c (co + literals_size d + lmd_size d) ltac:(lia)))) as (v & s' & -> & _ & G). cbn [bind].
    apply (lmd_loop_post c lt mt dt lits Hwf G1 G2 G3); auto.
  - intros [b u] H. cbn. lia.
Qed.

(** ** Frequencies *)
Lemma read_frequencies_total c e bytes : wf_bytes c -> Lz_proofs.At c e bytes -> forall fs o value count rest R,
  small fs -> skipn (N.to_nat o) c = rest ++ bytes -> len rest = e - o -> o <= e ->
  value < 2 ^ count -> count <= 32 ->
  value + 2 ^ count * le_value rest = bits_value (flat_map frequency_bits fs ++ R) ->
  count + 8 * len rest = len (flat_map frequency_bits fs ++ R) ->
  exists q, read_frequencies (length fs) c o e value count = Ok (q, fs) /\ o <= q <= e.
Proof.
  intros Hwf Hat. induction fs as [| f fs IH]; intros o value count rest R HF HS HL Ho Hv Hc HV HN.
  - exists o. split; [reflexivity | lia].
  - apply Forall_cons_iff in HF as [Hf HF]. cbn [length flat_map] in *. rewrite <- app_assoc in HV, HN.
    rewrite read_frequencies_step.
    destruct (fill_ok c e bytes Hwf 6 o value count Hat Ho Hv Hc ltac:(lia)) as (rest0 & o' & v' & c' & S0 & L0 & -> & O' & C' & V' & D' & K' & W').
    rewrite HS in S0. apply app_inv_tail in S0. subst rest0. cbn [bind].
    set (rest' := skipn (N.to_nat (o' - o)) rest) in *.
    assert (LR' : len rest' = e - o') by (unfold rest'; rewrite len_skipn; lia).
    assert (HN' : c' + 8 * len rest' = len (frequency_bits f ++ flat_map frequency_bits fs ++ R)) by (rewrite <- HN, LR'; lia).
    rewrite len_app in HN'. fold (code_size f) in HN'. pose proof (code_size_range f Hf) as RS.
    assert (Hsz : code_size f <= c').
    { destruct D' as [D' | D']; [| lia]. rewrite LR', D', N.sub_diag in HN'. lia. }
    rewrite HV in W'. rewrite bits_value_app in W'. fold (code_value f) (code_size f) in W'.
    set (s := code_size f) in *. set (B := bits_value (flat_map frequency_bits fs ++ R)) in *.
    assert (CV : code_value f < 2 ^ s) by (unfold s, code_size, code_value; apply bits_value_bound).
    assert (Pc : 2 ^ c' = 2 ^ s * 2 ^ (c' - s)) by (rewrite <- N.pow_add_r; f_equal; lia).
    pose proof (pow2_pos s) as Ps.
    assert (EV : v' = code_value f + 2 ^ s * (v' / 2 ^ s)).
    { pose proof (N.div_mod v' (2 ^ s) ltac:(lia)) as DM. rewrite DM at 1. rewrite N.add_comm. f_equal.
      assert (E1 : (v' + 2 ^ c' * le_value rest') mod 2 ^ s = v' mod 2 ^ s).
      { rewrite Pc, <- N.mul_assoc, (N.mul_comm (2 ^ s)). apply N.mod_add. lia. }
      rewrite <- E1, W', (N.mul_comm (2 ^ s)), N.mod_add by lia. apply N.mod_small. exact CV. }
    assert (ED : decode_frequency v' = Ok (s, f)) by (rewrite EV; apply decode_frequency_ok; exact Hf).
    rewrite ED. cbn [bind]. unfold shr_chk. destruct (N.ltb_spec s 32); [| lia]. cbn [bind].
    unfold sub_chk. destruct (N.leb_spec s c'); [| lia]. cbn [bind]. rewrite N.shiftr_div_pow2.
    destruct (IH o' (v' / 2 ^ s) (c' - s) rest' R) as (q & -> & Q); auto; try lia.
    + unfold rest'. rewrite <- (firstn_skipn (N.to_nat (o' - o)) rest) in HS.
      assert (skipn (N.to_nat o') c = skipn (N.to_nat (o' - o)) (skipn (N.to_nat o) c)) as -> by (rewrite skipn_skipn; f_equal; lia).
      rewrite HS, <- app_assoc, skipn_app, skipn_all2 by (rewrite firstn_length; unfold len in *; lia).
      rewrite firstn_length. replace (N.to_nat (o' - o) - Nat.min (N.to_nat (o' - o)) (length rest))%nat with O by (unfold len in *; lia). reflexivity.
    + apply N.div_lt_upper_bound; [lia |]. rewrite <- Pc. exact V'.
    + fold B. rewrite EV in W'. rewrite Pc in W'. clear - W' Ps. nia.
    + exists q. split; [reflexivity | lia].
Qed.

Lemma read_v2_header_post data : len data = 24 ->
  post (fun '(h, d) => h = le_value (firstn 8 (skipn 16 data)) mod 2 ^ 32 /\ 32 <= h /\ len (literal_states d) = 4) (read_v2_header data).
Proof.
  intros L. unfold read_v2_header. eapply post_bind; [apply post_check | cbv beta]. intros _ _.
  eapply post_bind; [apply post_le_at; lia | cbv beta]. intros v1 _.
  eapply post_bind; [apply post_le_at; lia | cbv beta]. intros v2 _.
  eapply post_bind; [apply post_le_at; lia | cbv beta]. intros v3 ->. cbv zeta.
  eapply post_bind; [apply post_check | cbv beta]. intros _ C. apply andb_prop in C as [C _]. apply N.leb_le in C.
  cbn [post literal_states]. unfold bit_field in *. rewrite N.shiftr_0_r, N.land_ones in *. repeat split; auto.
Qed.

Lemma read_v2_post c i fs : wf_bytes c -> tables_complete c -> marker_at c i 0x32 -> length fs = 360%nat -> small fs ->
  post (fun '(o, d, fs') => N.of_nat i + 8 <= o /\ o <= len c /\ len (literal_states d) = 4 /\ length fs' = 360%nat /\ small fs')
    (read_block_v2 c (N.of_nat i + 8) fs).
Proof.
  intros Hwf HT HM L HS. unfold read_block_v2. eapply post_bind; [apply post_check | cbv beta]. intros _ C1. apply N.leb_le in C1.
  eapply post_bind; [apply post_slice; lia | cbv beta]. intros data [ED LD].
  eapply post_bind; [apply read_v2_header_post; lia | cbv beta]. intros [h d] (EH & H32 & L4).
  eapply post_bind; [apply post_sub; lia | cbv beta]. intros r ->.
  eapply post_bind; [apply post_check | cbv beta]. intros _ C2. apply N.leb_le in C2.
  assert (E3 : firstn 8 (skipn 16 data) = firstn 8 (skipn (i + 24) c)).
  { rewrite ED. replace (N.to_nat (N.of_nat i + 8 + 24 - (N.of_nat i + 8))) with 24%nat by lia.
    rewrite skipn_firstn_comm, firstn_firstn, skipn_skipn. f_equal. f_equal. lia. }
  rewrite E3 in EH.
  destruct (N.ltb_spec 32 h) as [H3 | H3]; [| cbn; repeat split; auto; lia].
  destruct (HT i h HM EH H3 ltac:(lia)) as (fs' & R & L' & F' & EB).
  set (o := N.of_nat i + 8 + 24) in *. set (e := o + (h - 32)).
  assert (HA : Lz_proofs.At c e (skipn (N.to_nat e) c)) by (split; [unfold e; lia | reflexivity]).
  replace (i + 32)%nat with (N.to_nat o) in EB by (unfold o; lia).
  set (t := firstn (N.to_nat (h - 32)) (skipn (N.to_nat o) c)) in *.
  assert (LT : len t = h - 32) by (unfold t, len in *; rewrite firstn_length, skipn_length; lia).
  destruct (read_frequencies_total c e _ Hwf HA fs' o 0 0 t R F') as (q & E & Q); try lia.
  - unfold t, e. rewrite <- (firstn_skipn (N.to_nat (h - 32)) (skipn (N.to_nat o) c)) at 1. f_equal. rewrite skipn_skipn. f_equal. lia.
  - rewrite <- EB, bits_value_bytes by (apply wf_bytes_firstn, wf_bytes_skipn; exact Hwf). rewrite N.pow_0_r. lia.
  - rewrite <- EB, len_bits_of. lia.
  - rewrite L' in E. rewrite E. cbn. repeat split; auto; unfold e in *; lia.
Qed.

(** ** Rounds *)
Definition good_state (n : N) (z : lzfse_state) : Prop :=
  len (z_buf z) = n /\ z_uo z <= n /\ length (z_frequencies z) = 360%nat /\ small (z_frequencies z).

Lemma marker_found c co x : wf_bytes c -> le_value (firstn 4 (skipn (N.to_nat co) c)) = le_value [0x62; 0x76; 0x78; x] -> x < 256 ->
  co + 4 <= len c -> marker_at c (N.to_nat co) x.
Proof.
  intros Hwf HV Hx HL. unfold marker_at. set (l := firstn 4 (skipn (N.to_nat co) c)) in *.
  assert (L : length l = 4%nat) by (unfold l, len in *; rewrite firstn_length, skipn_length; lia).
  assert (W : wf_bytes l) by (unfold l; apply wf_bytes_firstn, wf_bytes_skipn; exact Hwf).
  rewrite <- (le_bytes_le_value l W), L, HV. change 4%nat with (length [98; 118; 120; x]). apply le_bytes_le_value.
  repeat first [apply wf_bytes_cons; split | apply Forall_nil]; lia.
Qed.
Lemma write_at_post buf o d : o + len d <= len buf -> post (fun b => len b = len buf) (write_at buf o d).
Proof.
  intros H. unfold write_at. destruct (N.leb_spec (o + len d) (len buf)); [| lia]. cbn.
  unfold len in *. rewrite !app_length, firstn_length, skipn_length. lia.
Qed.

Lemma round_post c n z : wf_bytes c -> (forall i, ~ marker_at c i 0x31) -> tables_complete c -> good_state n z ->
  post (fun r => match r with inl z' => good_state n z' | inr z' => good_state n z' /\ z_co z < z_co z' /\ z_co z < len c end) (lzfse_round c z).
Proof.
  intros Hwf H1 HT (Hn & Hu & Hf & Hs). unfold lzfse_round. set (co := z_co z). cbv zeta.
  destruct (N.ltb_spec co (len c)) as [Hco | Hco]; cbn [negb]; [| cbn; split; auto].
  destruct (N.leb_spec (len (z_buf z)) (z_uo z)) as [Hfull | Hroom]; [cbn; split; auto |].
  eapply post_bind; [apply post_check | cbv beta]. intros _ C1. apply N.leb_le in C1.
  eapply post_bind; [apply post_le_at; lia | cbv beta]. intros m Em. change (N.to_nat 4) with 4%nat in Em.
  destruct (N.eqb_spec m marker_end) as [_ | _]; [cbn; split; auto |].
  eapply post_bind; [apply post_check | cbv beta]. intros _ CM.
  eapply post_bind; [apply post_sub; lia | cbv beta]. intros r ->.
  eapply post_bind; [apply post_check | cbv beta]. intros _ C2. apply N.leb_le in C2.
  eapply post_bind; [apply post_le_at; lia | cbv beta]. intros size _.
  eapply post_bind; [apply post_sub; lia | cbv beta]. intros r ->.
  eapply post_bind; [apply post_check | cbv beta]. intros _ C3. apply N.leb_le in C3.
  destruct (N.eqb_spec m marker_uncompressed) as [_ | N1].
  - eapply post_bind; [apply post_sub; lia |]. intros r ->.
    eapply post_bind; [apply post_check | cbv beta]. intros _ C4. apply N.leb_le in C4.
    eapply post_bind; [apply post_slice; lia | cbv beta]. intros bytes [_ LB].
    eapply post_bind; [apply write_at_post; lia | cbv beta]. intros b Lb. cbn. unfold good_state. cbn. repeat split; auto; lia.
  - destruct (N.eqb_spec m marker_lzvn) as [_ | N2].
    + eapply post_bind; [apply post_sub; lia |]. intros r ->.
      eapply post_bind; [apply post_check | cbv beta]. intros _ C4. apply N.leb_le in C4.
      eapply post_bind; [apply post_le_at; lia | cbv beta]. intros bs _.
      eapply post_bind; [apply post_sub; lia | cbv beta]. intros r ->.
      eapply post_bind; [apply post_check | cbv beta]. intros _ C5. apply N.leb_le in C5.
      eapply post_bind; [apply post_slice; lia | cbv beta]. intros block [EB LB].
      eapply post_bind; [apply post_slice; lia | cbv beta]. intros room [_ LR].
      assert (WB : wf_bytes block) by (rewrite EB; apply wf_bytes_firstn, wf_bytes_skipn; exact Hwf).
      pose proof (C07_no_panic block room WB) as NP.
      destruct (lzvn_decompress block room) as [[room' k] | |] eqn:EL; cbn [bind]; [| exact I | congruence].
      destruct (C07_output_is_the_meaning_partial block room room' k WB EL) as (ts & tr & _ & _ & _ & LR' & _).
      eapply post_bind; [apply write_at_post; lia | cbv beta]. intros b Lb. cbn. unfold good_state. cbn. repeat split; auto; lia.
    + destruct (N.eqb_spec m marker_v1) as [E1 | N3].
      { exfalso. apply (H1 (N.to_nat co)). apply marker_found; auto; try lia. rewrite <- Em, E1. reflexivity. }
      assert (E2 : m = marker_v2).
      { destruct (N.eqb_spec m marker_v2); [assumption |].
        apply N.eqb_neq in N1, N2, N3. rewrite ?N1, ?N2, ?N3 in CM. discriminate. }
      assert (HM : marker_at c (N.to_nat co) 0x32) by (apply marker_found; auto; try lia; rewrite <- Em, E2; reflexivity).
      pose proof (read_v2_post c (N.to_nat co) (z_frequencies z) Hwf HT HM Hf Hs) as HR. rewrite N2Nat.id in HR.
      replace (co + 4 + 4) with (co + 8) by lia.
      eapply post_bind; [exact HR | cbv beta]. intros [[o d] fs'] (O1 & O2 & L4 & L' & S').
      eapply post_bind; [apply decompress_post; auto; lia | cbv beta]. intros [[e b] u] (B1 & B2 & B3).
      cbn. unfold good_state. cbn. repeat split; auto; lia.
Qed.

Lemma loop_post c n : wf_bytes c -> (forall i, ~ marker_at c i 0x31) -> tables_complete c -> forall fuel z, good_state n z ->
  (N.to_nat (len c - z_co z) < fuel)%nat ->
  post (fun '(b, u) => len b = n /\ u <= n) (lzfse_loop fuel c z).
Proof.
  intros Hwf H1 HT. induction fuel as [| fuel IH]; intros z Hz Hf; [lia |]. cbn [lzfse_loop].
  eapply post_bind; [apply (round_post c n z Hwf H1 HT Hz) | cbv beta]. intros [z' | z'].
  - intros (A & B & _). cbn. auto.
  - intros (G & P & Q). apply IH; [exact G | lia].
Qed.
