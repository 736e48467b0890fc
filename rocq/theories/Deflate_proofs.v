From Verif Require Import Base BaseLemmas Lz_model Lz_spec Lz_proofs Lzvn_proofs.
From Verif Require Import Huffman_model Huffman_spec Huffman_proofs Deflate_model Deflate_spec.

(** ** Numbers as bits *)
Lemma bits_lsb_length n : forall v, length (bits_lsb n v) = n.
Proof. induction n; intros; cbn [bits_lsb length]; congruence. Qed.
Lemma bits_value_app a b : bits_value (a ++ b) = bits_value a + 2 ^ len a * bits_value b.
Proof.
  induction a as [| x a IH]; cbn [bits_value app]; [change (len (@nil bool)) with 0; rewrite N.pow_0_r; lia |].
  rewrite len_cons, IH, N.add_comm, N.pow_add_r. change (2 ^ 1) with 2. ring.
Qed.
Lemma bits_value_bound a : bits_value a < 2 ^ len a.
Proof.
  induction a as [| x a IH]; cbn [bits_value]; [cbn; lia |].
  rewrite len_cons, N.pow_add_r. change (2 ^ 1) with 2. destruct x; cbn [N.b2n]; lia.
Qed.
Lemma bits_value_lsb n : forall v, v < 2 ^ N.of_nat n -> bits_value (bits_lsb n v) = v.
Proof.
  induction n as [| n IH]; intros v H; cbn [bits_lsb bits_value].
  - cbn in H. lia.
  - rewrite Nat2N.inj_succ, N.pow_succ_r' in H. rewrite IH by (apply N.div_lt_upper_bound; lia).
    rewrite (N.div2_odd v) at 3. rewrite N.div2_div. lia.
Qed.
Lemma bits_of_cons b r : bits_of (b :: r) = bits_lsb 8 b ++ bits_of r.
Proof. reflexivity. Qed.
Lemma bits_of_app a b : bits_of (a ++ b) = bits_of a ++ bits_of b.
Proof. unfold bits_of. apply flat_map_app. Qed.
Lemma len_bits_of l : len (bits_of l) = 8 * len l.
Proof.
  induction l as [| b l IH]; [reflexivity |].
  rewrite bits_of_cons, len_app, IH, len_cons. unfold len. rewrite bits_lsb_length. lia.
Qed.
Lemma bits_value_bytes l : wf_bytes l -> bits_value (bits_of l) = le_value l.
Proof.
  induction l as [| b l IH]; intros H; [reflexivity |].
  inversion H; subst. rewrite bits_of_cons, bits_value_app, IH by assumption.
  rewrite bits_value_lsb by (change (2 ^ N.of_nat 8) with 256; assumption).
  unfold len. rewrite bits_lsb_length. cbn [le_value]. change (2 ^ N.of_nat 8) with 256. lia.
Qed.

Lemma byte_of_value data q : wf_bytes data -> q < len data ->
  idx data q = Ok ((le_value data / 2 ^ (8 * q)) mod 256).
Proof.
  intros Hwf Hq. rewrite (idx_ok data q 0) by exact Hq. f_equal.
  assert (Hn : (N.to_nat q < length data)%nat) by (unfold len in Hq; lia).
  replace (2 ^ (8 * q)) with (256 ^ N.of_nat (N.to_nat q)) by
    (rewrite N2Nat.id, N.pow_mul_r; reflexivity).
  clear Hq. revert Hn. generalize (N.to_nat q). clear q.
  induction Hwf as [| b l Hb Hwf IH]; intros n Hn; [cbn in Hn; lia |].
  cbn [le_value nth]. destruct n.
  - cbn [nth]. change (256 ^ N.of_nat 0) with 1. rewrite N.div_1_r. unfold byte_ok in Hb. lia.
  - cbn [length] in Hn. rewrite IH by lia.
    rewrite Nat2N.inj_succ, N.pow_succ_r', <- N.div_div by (try apply N.pow_nonzero; lia).
    do 2 f_equal. unfold byte_ok in Hb. lia.
Qed.
Lemma value_past_end data q : wf_bytes data -> len data <= q -> le_value data / 2 ^ (8 * q) = 0.
Proof.
  intros Hwf Hq. apply N.div_small. pose proof (le_value_bound data Hwf) as H.
  eapply N.lt_le_trans; [exact H |]. rewrite N.pow_mul_r. change (2 ^ 8) with 256.
  apply N.pow_le_mono_r; lia.
Qed.

(** ** The stream at bit position [p] *)
Definition RI (data : list N) (s : bitstream) (p : N) : Prop :=
  exists q, p + number_of_bits s = 8 * q /\ data_offset s = N.min q (len data) /\
    bits s = (le_value data / 2 ^ p) mod 2 ^ number_of_bits s.
Definition SR (data : list N) (s : bitstream) (p : N) : Prop :=
  number_of_bits s < 8 /\ RI data s p.

Lemma SR_start data o : o <= len data -> SR data (mk_bits o 0 0) (8 * o).
Proof.
  intros H. split; [cbn; lia |]. exists o. cbn. repeat split; lia.
Qed.

Ltac Zify.zify_post_hook ::= idtac.
Lemma mod_split a b c : (a mod 2 ^ b) + 2 ^ b * ((a / 2 ^ b) mod 2 ^ c) = a mod 2 ^ (b + c).
Proof.
  rewrite N.pow_add_r, N.mod_mul_r by (apply N.pow_nonzero; lia). reflexivity.
Qed.
Lemma lor_high k a b : b < 2 ^ k -> N.lor b (N.shiftl a k) = b + 2 ^ k * a.
Proof. intros H. rewrite N.lor_comm, lor_shl by exact H. lia. Qed.
Lemma div_pow_div a b c : a / 2 ^ b / 2 ^ c = a / 2 ^ (b + c).
Proof. rewrite N.div_div by (apply N.pow_nonzero; lia). now rewrite N.pow_add_r. Qed.

Lemma pow_pos k : 0 < 2 ^ k.
Proof. apply N.neq_0_lt_0, N.pow_nonzero. lia. Qed.

Lemma read_data_ok data n p : wf_bytes data -> n <= 24 -> forall fuel s,
  RI data s p -> n <= number_of_bits s + 8 * N.of_nat fuel -> number_of_bits s < n + 8 ->
  exists s', bs_read_data (S fuel) data n s = Ok s' /\ RI data s' p /\
    n <= number_of_bits s' < n + 8.
Proof.
  intros Hwf Hn. induction fuel as [| fuel IH]; intros s Hs Hf Hb.
  - cbn [bs_read_data]. destruct (N.ltb_spec (number_of_bits s) n); [lia |].
    exists s. repeat split; auto; lia.
  - remember (S fuel) as f. cbn [bs_read_data].
    destruct (N.ltb_spec (number_of_bits s) n); [| exists s; repeat split; auto; lia].
    destruct Hs as (q & Hq & Ho & Hv). subst f.
    assert (Hbound : bits s < 2 ^ number_of_bits s) by (rewrite Hv; apply N.mod_lt; pose proof (pow_pos (number_of_bits s)); lia).
    destruct (N.ltb_spec (data_offset s) (len data)) as [Hlt | Hge].
    + assert (Eq : data_offset s = q) by (clear - Ho Hlt; lia).
      rewrite Eq in *.
      rewrite byte_of_value by (auto; clear - Hlt; lia). cbn [bind].
      unfold shl_chk. destruct (N.ltb_spec (number_of_bits s) 32) as [_ | Hx]; [| clear - Hx H Hn; lia]. cbn [bind].
      set (b := (le_value data / 2 ^ (8 * q)) mod 256).
      assert (Hb256 : b < 256) by (apply N.mod_lt; discriminate).
      assert (Esm : N.shiftl b (number_of_bits s) mod 2 ^ 32 = N.shiftl b (number_of_bits s)).
      { apply N.mod_small. rewrite N.shiftl_mul_pow2. change (2 ^ 32) with (256 * 2 ^ 24).
        apply N.lt_le_trans with (256 * 2 ^ number_of_bits s).
        - apply N.mul_lt_mono_pos_r; [apply pow_pos | exact Hb256].
        - apply N.mul_le_mono_l, N.pow_le_mono_r; clear - H Hn; lia. }
      rewrite Esm.
      apply IH; cbn [number_of_bits]; try (clear - Hf Hb H; lia).
      exists (q + 1). cbn [data_offset number_of_bits bits].
      split; [clear - Hq; lia |]. split; [clear - Hlt; lia |].
      rewrite lor_high by exact Hbound. rewrite Hv, <- mod_split. do 2 f_equal.
      rewrite div_pow_div, Hq. reflexivity.
    + cbn [bind]. apply IH; cbn [number_of_bits]; try (clear - Hf Hb H; lia).
      exists (q + 1). cbn [data_offset number_of_bits bits].
      split; [clear - Hq; lia |]. split; [clear - Ho Hge; lia |].
      rewrite Hv, <- mod_split, div_pow_div, Hq, value_past_end by (auto; clear - Ho Hge; lia).
      rewrite N.mod_0_l by discriminate. rewrite N.mul_0_r, N.add_0_r. reflexivity.
Qed.

Lemma land_ones_le a r n : r <= n -> N.land (a mod 2 ^ n) (N.ones r) = a mod 2 ^ r.
Proof.
  intros H. rewrite N.land_ones. replace n with (r + (n - r)) by lia.
  rewrite <- mod_split, N.mul_comm, N.mod_add, N.mod_mod by (pose proof (pow_pos r); lia). reflexivity.
Qed.
Lemma shiftr_mod a r n : r <= n -> N.shiftr (a mod 2 ^ n) r = (a / 2 ^ r) mod 2 ^ (n - r).
Proof.
  intros H. rewrite N.shiftr_div_pow2. replace n with (r + (n - r)) at 1 by lia.
  rewrite <- mod_split, N.mul_comm, N.div_add by (pose proof (pow_pos r); lia).
  rewrite (N.div_small (a mod 2 ^ r)) by (apply N.mod_lt; pose proof (pow_pos r); lia). lia.
Qed.

Definition fetch (data : list N) (r : N) (s : bitstream) : res bitstream :=
  if number_of_bits s <? r then bs_read_data 4 data r s else Ok s.

Lemma round_ok data r s p : wf_bytes data -> r <= 24 -> SR data s p ->
  exists s1, fetch data r s = Ok s1 /\ r <= number_of_bits s1 /\
    N.land (bits s1) (N.ones r) = (le_value data / 2 ^ p) mod 2 ^ r /\
    SR data (mk_bits (data_offset s1) (N.shiftr (bits s1) r) (number_of_bits s1 - r)) (p + r).
Proof.
  intros Hwf Hr [H8 Hs].
  assert (Hx : exists s1, fetch data r s = Ok s1 /\ RI data s1 p /\ r <= number_of_bits s1 < r + 8).
  { unfold fetch. destruct (N.ltb_spec (number_of_bits s) r).
    - apply read_data_ok; auto; lia.
    - exists s. repeat split; auto; lia. }
  destruct Hx as (s1 & E1 & (q & Hq & Ho & Hv) & Hn).
  exists s1. split; [exact E1 |]. split; [lia |]. rewrite Hv. split; [apply land_ones_le; lia |].
  split; [cbn [number_of_bits]; lia |]. exists q. cbn [number_of_bits data_offset bits].
  split; [clear - Hq Hn; lia |]. split; [exact Ho |].
  rewrite shiftr_mod by (clear - Hn; lia). now rewrite div_pow_div.
Qed.

Lemma get_value_ok data n s p : wf_bytes data -> n <= 32 -> SR data s p ->
  exists s', get_value data n s = Ok ((le_value data / 2 ^ p) mod 2 ^ n, s') /\ SR data s' (p + n).
Proof.
  intros Hwf Hn Hs. unfold get_value. cbn [get_value_loop].
  destruct (N.ltb_spec 0 n) as [H0 | H0].
  2:{ assert (n = 0) by lia. subst n. exists s. rewrite N.mod_1_r, N.add_0_r. auto. }
  rewrite N.sub_0_r. destruct (N.ltb_spec 24 n) as [H24 | H24].
  - destruct (round_ok data 24 s p Hwf ltac:(lia) Hs) as (s1 & E1 & L1 & V1 & S1).
    unfold fetch in E1. rewrite E1. cbn [bind]. unfold sub_chk at 1.
    destruct (N.leb_spec 24 (number_of_bits s1)); [| lia]. cbn [bind].
    destruct (N.ltb_spec 0 0) as [Hx | _]; [lia |]. cbn [bind].
    rewrite N.add_0_l, N.lor_0_l, V1.
    destruct (N.ltb_spec 24 n) as [_ | Hx]; [| lia].
    destruct (N.ltb_spec 24 (n - 24)) as [Hx | _]; [lia |].
    edestruct (round_ok data (n - 24) _ _ Hwf ltac:(lia) S1) as (s2 & E2 & L2 & V2 & S2).
    unfold fetch in E2. rewrite E2. cbn [bind]. unfold sub_chk at 1.
    destruct (N.leb_spec (n - 24) (number_of_bits s2)); [| lia]. cbn [bind].
    rewrite V2. unfold shl_chk.
    destruct (N.ltb_spec 24 32) as [_ | Hx]; [| lia]. destruct (N.ltb_spec 0 24) as [_ | Hx]; [| lia].
    cbn [bind]. replace (24 + (n - 24)) with n by (clear - H24; lia).
    destruct (N.ltb_spec n n) as [Hx | _]; [lia |].
    eexists. split.
    + f_equal. f_equal.
      set (w := (le_value data / 2 ^ (p + 24)) mod 2 ^ (n - 24)).
      assert (Hw : w < 2 ^ (n - 24)) by (apply N.mod_lt; pose proof (pow_pos (n - 24)); lia).
      assert (Esm : N.shiftl w 24 mod 2 ^ 32 = N.shiftl w 24).
      { apply N.mod_small. rewrite N.shiftl_mul_pow2. change (2 ^ 32) with (2 ^ 8 * 2 ^ 24). apply N.mul_lt_mono_pos_r; [reflexivity |].
        eapply N.lt_le_trans; [exact Hw |]. apply N.pow_le_mono_r; clear - Hn; lia. }
      rewrite Esm.
      rewrite lor_high by (apply N.mod_lt; discriminate). unfold w.
      rewrite <- div_pow_div, mod_split. do 2 f_equal. clear - H24; lia.
    + replace (p + n) with (p + 24 + (n - 24)) by (clear - H24; lia). exact S2.
  - destruct (round_ok data n s p Hwf ltac:(lia) Hs) as (s1 & E1 & L1 & V1 & S1).
    unfold fetch in E1. rewrite E1. cbn [bind]. unfold sub_chk at 1.
    destruct (N.leb_spec n (number_of_bits s1)); [| lia]. cbn [bind].
    destruct (N.ltb_spec 0 0) as [Hx | _]; [lia |]. cbn [bind].
    rewrite N.add_0_l, N.lor_0_l, V1.
    destruct (N.ltb_spec n n) as [Hx | _]; [lia |].
    eexists. split; [reflexivity | exact S1].
Qed.

Lemma skip_bits_ok data n s p : wf_bytes data -> n <= 24 -> SR data s p ->
  exists s', skip_bits data n s = Ok s' /\ SR data s' (p + n).
Proof.
  intros Hwf Hn Hs. unfold skip_bits. cbn [skip_bits_loop].
  destruct (N.ltb_spec 0 n) as [H0 | H0].
  2:{ assert (n = 0) by lia. subst n. exists s. rewrite N.add_0_r. auto. }
  rewrite N.sub_0_r. destruct (N.ltb_spec 24 n) as [H24 | H24]; [lia |].
  destruct (round_ok data n s p Hwf ltac:(lia) Hs) as (s1 & E1 & L1 & V1 & S1).
  unfold fetch in E1. rewrite E1. cbn [bind]. unfold sub_chk at 1.
  destruct (N.leb_spec n (number_of_bits s1)); [| lia]. cbn [bind].
  rewrite N.add_0_l. destruct (N.ltb_spec n n) as [Hx | _]; [lia |].
  eexists. split; [reflexivity | exact S1].
Qed.

(** ** Reading what was written *)
Definition St (data : list N) (s : bitstream) (p : N) (r : list bool) : Prop :=
  SR data s p /\ exists pre, bits_of data = pre ++ r /\ len pre = p.

Lemma St_bits data s p bs r : wf_bytes data -> len bs <= 32 -> St data s p (bs ++ r) ->
  exists s', get_value data (len bs) s = Ok (bits_value bs, s') /\ St data s' (p + len bs) r.
Proof.
  intros Hwf Hl [Hs (pre & Hp & Hlp)].
  destruct (get_value_ok data (len bs) s p Hwf Hl Hs) as (s' & E & S').
  exists s'. split.
  - rewrite E. do 2 f_equal. rewrite <- bits_value_bytes, Hp by exact Hwf.
    rewrite !bits_value_app, <- Hlp.
    rewrite (N.mul_comm (2 ^ len pre)), N.div_add by (pose proof (pow_pos (len pre)); lia).
    rewrite N.div_small by apply bits_value_bound. rewrite N.add_0_l.
    rewrite N.mul_comm, N.mod_add by (pose proof (pow_pos (len bs)); lia).
    apply N.mod_small, bits_value_bound.
  - split; [exact S' |]. exists (pre ++ bs). rewrite len_app, <- app_assoc. split; [exact Hp | now rewrite Hlp].
Qed.
Lemma St_value data s p n v r : wf_bytes data -> (n <= 32)%nat -> v < 2 ^ N.of_nat n ->
  St data s p (bits_lsb n v ++ r) ->
  exists s', get_value data (N.of_nat n) s = Ok (v, s') /\ St data s' (p + N.of_nat n) r.
Proof.
  intros Hwf Hn Hv H. assert (L : len (bits_lsb n v) = N.of_nat n) by (unfold len; now rewrite bits_lsb_length).
  assert (L32 : len (bits_lsb n v) <= 32) by (rewrite L; lia).
  destruct (St_bits _ _ _ _ _ Hwf L32 H) as (s' & E & S').
  rewrite L, bits_value_lsb in E by exact Hv. rewrite L in S'. eauto.
Qed.
Lemma St_yields data r : wf_bytes data -> forall bs s p, St data s p (bs ++ r) ->
  exists s', yields (get_value data 1) s bs s' /\ St data s' (p + len bs) r.
Proof.
  intros Hwf. induction bs as [| b bs IH]; intros s p H.
  - exists s. change (len (@nil bool)) with 0. rewrite N.add_0_r. split; [constructor | exact H].
  - destruct (St_bits data s p [b] (bs ++ r) Hwf ltac:(cbn; lia) H) as (s1 & E1 & H1).
    destruct (IH _ _ H1) as (s2 & Y & H2). exists s2. split.
    + econstructor; [| exact Y]. change (len [b]) with 1 in E1. rewrite E1. cbn [bits_value].
      do 2 f_equal. lia.
    + rewrite len_cons. change (len [b]) with 1 in H2.
      replace (p + (len bs + 1)) with (p + 1 + len bs) by lia. exact H2.
Qed.
Lemma St_symbol data s p cs largest t sym r : wf_bytes data -> tree_for cs largest t -> coded cs sym ->
  St data s p (code_word cs sym ++ r) ->
  exists s', decode_symbol (get_value data 1) t s = Ok (sym, s') /\ St data s' (p + len (code_word cs sym)) r.
Proof.
  intros Hwf Ht Hc H. destruct (St_yields _ _ Hwf _ _ _ H) as (s' & Y & H').
  exists s'. split; [| exact H']. eapply decode_symbol_word; eauto.
Qed.

(** ** Symbols of any stream *)
Lemma SR_endless data : wf_bytes data -> endless (get_value data 1) (fun s => exists p, SR data s p).
Proof.
  intros Hwf s (p & Hs). destruct (get_value_ok data 1 s p Hwf ltac:(lia) Hs) as (s' & E & S').
  exists (N.odd (le_value data / 2 ^ p)), s'. split; [| eauto].
  rewrite E. do 2 f_equal. change (2 ^ 1) with 2. rewrite <- N.bit0_mod, N.bit0_odd. reflexivity.
Qed.
Lemma yields_SR data bs : wf_bytes data -> forall s s' p, SR data s p -> yields (get_value data 1) s bs s' ->
  SR data s' (p + len bs).
Proof.
  intros Hwf s s' p Hs Y. revert p Hs. induction Y as [| s b s1 bs s2 E Y IH]; intros p Hs.
  - change (len (@nil bool)) with 0. now rewrite N.add_0_r.
  - destruct (get_value_ok data 1 s p Hwf ltac:(lia) Hs) as (s1' & E' & S').
    rewrite E' in E. inversion E; subst. rewrite len_cons.
    replace (p + (len bs + 1)) with (p + 1 + len bs) by lia. apply IH. exact S'.
Qed.
Lemma symbol_cases data cs largest t s p : wf_bytes data -> tree_for cs largest t -> SR data s p ->
  decode_symbol (get_value data 1) t s = Err \/
  exists sym s', decode_symbol (get_value data 1) t s = Ok (sym, s') /\ coded cs sym /\
    SR data s' (p + length_of cs sym).
Proof.
  intros Hwf Ht Hs.
  destruct (decode_symbol_sound _ _ _ _ _ s (SR_endless data Hwf) Ht (ex_intro _ p Hs)) as [E | (sym & s' & E & C & Y & _)].
  - now left.
  - right. exists sym, s'. split; [exact E |]. split; [exact C |].
    apply (yields_SR _ _ Hwf _ _ _ Hs) in Y.
    replace (length_of cs sym) with (len (code_word cs sym)); [exact Y |].
    unfold code_word, len. assert (L : forall n v, length (bits_msb n v) = n).
    { induction n; intros; cbn [bits_msb length]; congruence. }
    rewrite L. lia.
Qed.

(** ** No input makes the decoder panic, and what it writes depends on the input only *)
From Verif Require Import P_C09.

Lemma build_either n cs : len cs <= n ->
  huffman_build (huffman_new n 15) cs = Err \/
  exists t, huffman_build (huffman_new n 15) cs = Ok t /\ tree_for cs 15 t.
Proof.
  intros H. pose proof (C09_build_no_panic n 15 cs ltac:(lia) H) as P.
  destruct (huffman_build (huffman_new n 15) cs) as [t | |] eqn:E; [right | now left | congruence].
  exists t. split; [reflexivity |]. now apply (build_new n 15 cs t ltac:(lia) H) in E as [T _].
Qed.

Lemma sequence_index i : i < 19 -> exists k, idx code_sizes_sequence i = Ok k /\ k < 19.
Proof.
  intros H. rewrite (idx_ok _ i 0) by exact H. eexists. split; [reflexivity |].
  assert (F : Forall (fun k => k < 19) code_sizes_sequence) by (repeat constructor).
  rewrite Forall_forall in F. apply F, nth_In. change (length code_sizes_sequence) with 19%nat. lia.
Qed.

Lemma read_code_sizes_safe data : wf_bytes data -> forall is cs s p, SR data s p ->
  len cs = 316 -> Forall (fun i => i < 19) is ->
  exists cs' s', read_code_sizes data is cs s = Ok (cs', s') /\ len cs' = 316 /\
    SR data s' (p + 3 * len is).
Proof.
  intros Hwf. induction is as [| i is IH]; intros cs s p Hs Hl Hf.
  - exists cs, s. change (len (@nil N)) with 0. rewrite N.mul_0_r, N.add_0_r. auto.
  - inversion Hf; subst. cbn [read_code_sizes].
    destruct (get_value_ok data 3 s p Hwf ltac:(lia) Hs) as (s1 & E1 & S1). rewrite E1. cbn [bind].
    destruct (sequence_index i ltac:(assumption)) as (k & Ek & Hk). rewrite Ek. cbn [bind].
    rewrite upd_ok by lia. cbn [bind].
    destruct (IH (set_nth cs (N.to_nat k) ((le_value data / 2 ^ p) mod 2 ^ 3)) s1 (p + 3)) as (cs' & s' & E & L & S');
      auto.
    { now rewrite len_set_nth. }
    exists cs', s'. split; [exact E |]. split; [exact L |]. rewrite len_cons.
    replace (p + 3 * (len is + 1)) with (p + 3 + 3 * len is) by lia. exact S'.
Qed.
Lemma clear_code_sizes_safe : forall is cs, len cs = 316 -> Forall (fun i => i < 19) is ->
  exists cs', clear_code_sizes is cs = Ok cs' /\ len cs' = 316.
Proof.
  induction is as [| i is IH]; intros cs Hl Hf; [exists cs; auto |].
  inversion Hf; subst. cbn [clear_code_sizes].
  destruct (sequence_index i ltac:(assumption)) as (k & Ek & Hk). rewrite Ek. cbn [bind].
  rewrite upd_ok by lia. cbn [bind]. apply IH; [now rewrite len_set_nth | assumption].
Qed.
Lemma repeat_code_size_safe v : forall n cs i, i + N.of_nat n <= len cs ->
  exists cs', repeat_code_size n cs i v = Ok cs' /\ len cs' = len cs.
Proof.
  induction n as [| n IH]; intros cs i H; cbn [repeat_code_size]; [exists cs; auto |].
  rewrite upd_ok by lia. cbn [bind].
  destruct (IH (set_nth cs (N.to_nat i) v) (i + 1)) as (cs' & E & L); [rewrite len_set_nth; lia |].
  exists cs'. split; [exact E |]. now rewrite L, len_set_nth.
Qed.

Lemma decode_code_sizes_safe data tree tcs n : wf_bytes data -> tree_for tcs 15 tree -> n <= 316 ->
  forall fuel cs i s p, SR data s p -> len cs = 316 -> i <= n -> n - i < N.of_nat fuel ->
  decode_code_sizes fuel data tree n cs i s = Err \/
  exists cs' s' p', decode_code_sizes fuel data tree n cs i s = Ok (cs', s') /\ len cs' = 316 /\
    SR data s' p' /\ p <= p'.
Proof.
  intros Hwf Ht Hn. induction fuel as [| fuel IH]; intros cs i s p Hs Hl Hi Hf; [lia |].
  cbn [decode_code_sizes].
  destruct (N.ltb_spec i n) as [Hin | Hin].
  2:{ right. exists cs, s, p. repeat split; auto; try apply Hs; lia. }
  destruct (symbol_cases data tcs 15 tree s p Hwf Ht Hs) as [E | (sym & s1 & E & _ & S1)]; rewrite E; cbn [bind];
    [now left |].
  set (p1 := p + length_of tcs sym) in *. assert (Hp1 : p <= p1) by (unfold p1; lia). clearbody p1.
  destruct (N.ltb_spec sym 16) as [H16 | H16].
  - rewrite upd_ok by lia. cbn [bind].
    destruct (IH (set_nth cs (N.to_nat i) sym) (i + 1) s1 p1) as [E1 | (cs' & s' & p' & E1 & L & S' & Hp)];
      auto; try (rewrite len_set_nth; auto); try lia.
    right. exists cs', s', p'. repeat split; auto; try apply S'; lia.
  - destruct (negb ((i =? 0) && (sym =? 16))) eqn:E0; cbn [check bind]; [| now left].
    destruct (N.leb_spec sym 18) as [H18 | H18]; cbn [check bind]; [| now left].
    assert (Hc : exists v, (if sym =? 16 then i0 <- sub_chk i 1 ;; idx cs i0 else Ok 0) = Ok v).
    { destruct (N.eqb_spec sym 16); [| eauto]. destruct (N.eqb_spec i 0); [discriminate E0 |].
      unfold sub_chk. destruct (N.leb_spec 1 i); [| lia]. cbn [bind].
      rewrite (idx_ok cs _ 0) by lia. eauto. }
    destruct Hc as (v & Ev). rewrite Ev. cbn [bind].
    assert (Hg : exists times s2 p2,
      (if sym =? 16 then '(v, s) <- get_value data 2 s1 ;; Ok (v + 3, s)
       else if sym =? 17 then '(v, s) <- get_value data 3 s1 ;; Ok (v + 3, s)
       else '(v, s) <- get_value data 7 s1 ;; Ok (v + 11, s)) = Ok (times, s2) /\ 3 <= times /\
      SR data s2 p2 /\ p1 <= p2).
    { destruct (sym =? 16); [| destruct (sym =? 17)].
      - destruct (get_value_ok data 2 s1 p1 Hwf ltac:(lia) S1) as (s2 & E2 & S2). rewrite E2. cbn [bind].
        eexists _, s2, (p1 + 2). split; [reflexivity |]. split; [apply N.le_trans with (0 + 3); [discriminate | apply N.add_le_mono; [apply N.le_0_l | discriminate]] |]. split; [exact S2 | lia].
      - destruct (get_value_ok data 3 s1 p1 Hwf ltac:(lia) S1) as (s2 & E2 & S2). rewrite E2. cbn [bind].
        eexists _, s2, (p1 + 3). split; [reflexivity |]. split; [apply N.le_trans with (0 + 3); [discriminate | apply N.add_le_mono; [apply N.le_0_l | discriminate]] |]. split; [exact S2 | lia].
      - destruct (get_value_ok data 7 s1 p1 Hwf ltac:(lia) S1) as (s2 & E2 & S2). rewrite E2. cbn [bind].
        eexists _, s2, (p1 + 7). split; [reflexivity |]. split; [apply N.le_trans with (0 + 3); [discriminate | apply N.add_le_mono; [apply N.le_0_l | discriminate]] |]. split; [exact S2 | lia]. }
    destruct Hg as (times & s2 & p2 & E2 & Ht3 & S2 & Hp2). rewrite E2. cbn [bind].
    destruct (N.leb_spec (i + times) n); cbn [check bind]; [| now left].
    destruct (repeat_code_size_safe v (N.to_nat times) cs i ltac:(lia)) as (cs1 & E3 & L3).
    rewrite E3. cbn [bind].
    destruct (IH cs1 (i + times) s2 p2) as [E4 | (cs' & s' & p' & E4 & L & S' & Hp)]; auto; try lia.
    right. exists cs', s', p'. repeat split; auto; try apply S'; lia.
Qed.

Lemma len_slice {A} (l : list A) a b : a <= b -> b <= len l ->
  exists r, slice l a b = Ok r /\ len r = b - a.
Proof.
  intros Ha Hb. rewrite slice_ok by assumption. eexists. split; [reflexivity |].
  unfold len in *. rewrite firstn_length, skipn_length. lia.
Qed.
Lemma Forall_seqN a n (b : N) : a + N.of_nat n <= b -> Forall (fun i => i < b) (seqN a n).
Proof. intros H. apply Forall_forall. intros x Hx. apply in_seqN in Hx. lia. Qed.
Lemma len_seqN a n : len (seqN a n) = N.of_nat n.
Proof. unfold len. rewrite seqN_length. reflexivity. Qed.

Lemma build_dynamic_safe data s p : wf_bytes data -> SR data s p ->
  build_dynamic data s = Err \/
  exists l d s' p' lcs dcs, build_dynamic data s = Ok (l, d, s') /\ tree_for lcs 15 l /\
    tree_for dcs 15 d /\ len lcs <= 286 /\ len dcs <= 30 /\ SR data s' p' /\ p <= p'.
Proof.
  intros Hwf Hs. unfold build_dynamic.
  destruct (get_value_ok data 14 s p Hwf ltac:(lia) Hs) as (s1 & E1 & S1). rewrite E1. cbn [bind].
  set (value := (le_value data / 2 ^ p) mod 2 ^ 14). 
  assert (Hv : value < 2 ^ 14) by (apply N.mod_lt; discriminate). clearbody value.
  set (nl := N.land value 31 + 257). set (nd := N.land (N.shiftr value 5) 31 + 1).
  assert (Hnc : N.shiftr (N.shiftr value 5) 5 + 4 <= 19).
  { rewrite N.shiftr_shiftr, N.shiftr_div_pow2. change (2 ^ (5 + 5)) with 1024. change (2 ^ 14) with 16384 in Hv.
    clear - Hv. Local Ltac Zify.zify_post_hook ::= Z.div_mod_to_equations. lia. }
  Local Ltac Zify.zify_post_hook ::= idtac.
  set (nc := N.shiftr (N.shiftr value 5) 5 + 4) in *. clearbody nc.
  destruct (N.leb_spec nl 286); cbn [check bind]; [| now left].
  destruct (N.leb_spec nd 30); cbn [check bind]; [| now left].
  destruct (read_code_sizes_safe data Hwf (seqN 0 (N.to_nat nc)) (repeat 0 316) s1 (p + 14) S1) as (cs1 & s2 & E2 & L2 & S2).
  { reflexivity. } { apply Forall_seqN. lia. }
  rewrite E2. cbn [bind].
  destruct (clear_code_sizes_safe (seqN nc (19 - N.to_nat nc)) cs1 L2) as (cs2 & E3 & L3).
  { apply Forall_seqN. lia. }
  rewrite E3. cbn [bind].
  destruct (len_slice cs2 0 19) as (f19 & E4 & L4); [lia | lia |]. rewrite E4. cbn [bind].
  destruct (build_either 19 f19 ltac:(lia)) as [E5 | (t & E5 & T)]; rewrite E5; cbn [bind]; [now left |].
  assert (Hsum : nl + nd <= 316) by lia.
  assert (Hnl : 257 <= nl) by (unfold nl; lia). assert (Hnd : 1 <= nd) by (unfold nd; lia).
  clearbody nl nd.
  destruct (decode_code_sizes_safe data t f19 (nl + nd) Hwf T Hsum (S (N.to_nat (nl + nd))) cs2 0 s2 _ S2 L3)
    as [E6 | (cs3 & s3 & p3 & E6 & L6 & S3 & Hp3)]; try lia; rewrite E6; cbn [bind]; [now left |].
  rewrite (idx_ok cs3 256 0) by lia. cbn [bind].
  destruct (negb (nth (N.to_nat 256) cs3 0 =? 0)); cbn [check bind]; [| now left].
  destruct (len_slice cs3 0 nl) as (l & E7 & L7); [lia | lia |]. rewrite E7. cbn [bind].
  destruct (build_either 288 l ltac:(lia)) as [E8 | (tl & E8 & T8)]; rewrite E8; cbn [bind]; [now left |].
  destruct (len_slice cs3 nl (nl + nd)) as (d & E9 & L9); [lia | lia |]. rewrite E9. cbn [bind].
  destruct (build_either 30 d ltac:(lia)) as [E10 | (td & E10 & T10)]; rewrite E10; cbn [bind]; [now left |].
  right. exists tl, td, s3, p3, l, d. split; [reflexivity |]. repeat split; try apply T8; try apply T10; try apply S3; lia.
Qed.

(** The outcome of a run that writes behind [out], where [n] bytes are free, whatever is
    in them. *)
Definition outcome (data out : list N) (n : nat) (p : N) (run : list N -> res (list N * N * bitstream)) : Prop :=
  (forall rest, length rest = n -> run rest = Err) \/
  exists w s' p', (length w <= n)%nat /\ SR data s' p' /\ p <= p' /\ (wf_bytes out -> wf_bytes w) /\
    forall rest, length rest = n ->
      run rest = Ok ((out ++ w) ++ skipn (length w) rest, len (out ++ w), s').

Lemma outcome_mono data out n p p' run : p <= p' -> outcome data out n p' run -> outcome data out n p run.
Proof.
  intros H [E | (w & s' & p1 & L & S & Hp & Hw & E)]; [now left |]. right. exists w, s', p1.
  repeat split; auto; try apply S. lia.
Qed.
Lemma outcome_ext data out n p run run' : (forall rest, length rest = n -> run' rest = run rest) ->
  outcome data out n p run -> outcome data out n p run'.
Proof.
  intros H [E | (w & s' & p1 & L & S & Hp & Hw & E)].
  - left. intros. rewrite H by assumption. auto.
  - right. exists w, s', p1. repeat split; auto; try apply S. intros. rewrite H by assumption. auto.
Qed.
(** First [a] is written, and the rest of the run follows. *)
Lemma outcome_write data out n p a run run' : (length a <= n)%nat -> (wf_bytes out -> wf_bytes a) ->
  (forall rest, length rest = n -> run' rest = run (skipn (length a) rest)) ->
  outcome data (out ++ a) (n - length a) p run -> outcome data out n p run'.
Proof.
  intros Ha Hwa H [E | (w & s' & p1 & L & S & Hp & Hw & E)].
  - left. intros. rewrite H by assumption. apply E. rewrite skipn_length. lia.
  - right. exists (a ++ w), s', p1. split; [rewrite app_length; lia |]. split; [exact S |]. split; [exact Hp |].
    split; [intros Ho; apply wf_bytes_app; split; [auto | apply Hw, wf_bytes_app; auto] |].
    intros rest Hr. rewrite H, E by (rewrite ?skipn_length; lia).
    rewrite skipn_skipn, app_length, <- !app_assoc. rewrite (Nat.add_comm (length w)). reflexivity.
Qed.

Lemma lz_copy_app d : forall n out, exists w, lz_copy out d n = out ++ w /\ length w = n.
Proof.
  induction n as [| n IH]; intros out; cbn [lz_copy]; [exists []; now rewrite app_nil_r |].
  destruct (IH (out ++ [nth (length out - N.to_nat d) out 0])) as (w & E & L).
  eexists. rewrite E, <- app_assoc. split; [reflexivity |]. cbn [app length]. congruence.
Qed.

Lemma lz_copy_wf d : forall n out, wf_bytes out -> wf_bytes (lz_copy out d n).
Proof.
  induction n as [| n IH]; intros out H; cbn [lz_copy]; [exact H |]. apply IH, wf_bytes_app. split; [exact H |].
  constructor; [| constructor].
  destruct (nth_in_or_default (length out - N.to_nat d) out 0) as [Hin | ->]; [| reflexivity].
  unfold wf_bytes in H. rewrite Forall_forall in H. auto.
Qed.

Lemma length_tables i : i < 29 -> exists e b, idx literal_codes_extra i = Ok e /\ idx literal_codes_base i = Ok b /\
  e <= 5 /\ e = length_extra (257 + i) /\ b = length_base (257 + i) /\ 3 <= b.
Proof.
  intros H. rewrite (idx_ok literal_codes_extra i 0), (idx_ok literal_codes_base i 0) by exact H.
  eexists _, _. split; [reflexivity |]. split; [reflexivity |].
  assert (F : Forall (fun i => nth (N.to_nat i) literal_codes_extra 0 <= 5 /\
     nth (N.to_nat i) literal_codes_extra 0 = length_extra (257 + i) /\
     nth (N.to_nat i) literal_codes_base 0 = length_base (257 + i) /\
     3 <= nth (N.to_nat i) literal_codes_base 0) (seqN 0 29)).
  { cbn [seqN]. repeat first [apply Forall_nil | apply Forall_cons]; repeat split; try reflexivity; discriminate. }
  rewrite Forall_forall in F. apply F, in_seqN. lia.
Qed.
Lemma distance_tables i : i < 30 -> exists e b, idx distance_codes_extra i = Ok e /\ idx distance_codes_base i = Ok b /\
  e <= 13 /\ e = distance_extra i /\ b = distance_base i /\ 1 <= b.
Proof.
  intros H. rewrite (idx_ok distance_codes_extra i 0), (idx_ok distance_codes_base i 0) by exact H.
  eexists _, _. split; [reflexivity |]. split; [reflexivity |].
  assert (F : Forall (fun i => nth (N.to_nat i) distance_codes_extra 0 <= 13 /\
     nth (N.to_nat i) distance_codes_extra 0 = distance_extra i /\
     nth (N.to_nat i) distance_codes_base 0 = distance_base i /\
     1 <= nth (N.to_nat i) distance_codes_base 0) (seqN 0 30)).
  { cbn [seqN]. repeat first [apply Forall_nil | apply Forall_cons]; repeat split; try reflexivity; discriminate. }
  rewrite Forall_forall in F. apply F, in_seqN. lia.
Qed.

Lemma huffman_block_safe data lcs dcs l d : wf_bytes data -> tree_for lcs 15 l -> tree_for dcs 15 d ->
  len dcs <= 30 -> forall fuel out n s p, SR data s p -> (n < fuel)%nat ->
  outcome data out n p (fun rest => huffman_block fuel data l d (out ++ rest) (len out) s).
Proof.
  intros Hwf Tl Td Hd. induction fuel as [| fuel IH]; intros out n s p Hs Hn; [lia |].
  cbn [huffman_block].
  destruct (symbol_cases data lcs 15 l s p Hwf Tl Hs) as [E | (sym & s1 & E & _ & S1)]; rewrite E; cbn [bind].
  { now left. }
  set (p1 := p + length_of lcs sym) in *. assert (Hp1 : p <= p1) by (unfold p1; lia). clearbody p1.
  destruct (N.eqb_spec sym 256).
  { right. exists [], s1, p1. split; [cbn; lia |]. split; [exact S1 |]. split; [exact Hp1 |]. split; [constructor |].
    intros. rewrite app_nil_r. reflexivity. }
  destruct (N.ltb_spec sym 256).
  - destruct n as [| n].
    + left. intros [|] Hr; [| discriminate Hr]. rewrite app_nil_r. destruct (N.ltb_spec (len out) (len out)); [lia | reflexivity].
    + apply outcome_write with (a := [sym])
        (run := fun rest => huffman_block fuel data l d ((out ++ [sym]) ++ rest) (len (out ++ [sym])) s1).
      * cbn; lia.
      * intros _. constructor; [assumption | constructor].
      * intros [| x rest] Hr; [discriminate Hr |]. rewrite len_app, len_cons.
        destruct (N.ltb_spec (len out) (len out + (len rest + 1))); [| lia]. cbn [check bind].
        rewrite upd_end. cbn [bind length skipn]. rewrite <- app_assoc, len_app. reflexivity.
      * apply outcome_mono with p1; [exact Hp1 |]. apply IH; [exact S1 | cbn; lia].
  - destruct (N.ltb_spec sym 286); [| now left].
    destruct (length_tables (sym - 257) ltac:(lia)) as (e & b & Ee & Eb & He & _ & _ & Hb).
    rewrite Ee, Eb. cbn [bind].
    destruct (get_value_ok data e s1 p1 Hwf ltac:(lia) S1) as (s2 & E2 & S2). rewrite E2. cbn [bind].
    destruct (symbol_cases data dcs 15 d s2 _ Hwf Td S2) as [E3 | (dsym & s3 & E3 & [Cd _] & S3)]; rewrite E3; cbn [bind].
    { now left. }
    destruct (distance_tables dsym ltac:(lia)) as (de & db & Ede & Edb & Hde & _ & _ & Hdb).
    rewrite Ede, Edb. cbn [bind].
    destruct (get_value_ok data de s3 _ Hwf ltac:(lia) S3) as (s4 & E4 & S4). rewrite E4. cbn [bind].
    set (size := b + (le_value data / 2 ^ p1) mod 2 ^ e). 
    assert (Hsz : 3 <= size) by (unfold size; apply N.le_trans with b; [exact Hb | apply N.le_add_r]). clearbody size.
    match goal with |- context [check (?x <=? _)] => set (dist := x) end.
    assert (Hdist : 1 <= dist) by (unfold dist; apply N.le_trans with db; [exact Hdb | apply N.le_add_r]). clearbody dist.
    set (p4 := p1 + e + length_of dcs dsym + de) in *. assert (Hp4 : p <= p4) by (unfold p4; clear - Hp1; lia).
    clearbody p4.
    destruct (N.leb_spec dist (len out)); cbn [check bind]; [| now left].
    destruct (Nat.leb_spec (N.to_nat size) n) as [Hr | Hr].
    + destruct (lz_copy_app dist (N.to_nat size) out) as (w & Ew & Lw).
      apply outcome_write with (a := w)
        (run := fun rest => huffman_block fuel data l d ((out ++ w) ++ rest) (len (out ++ w)) s4).
      * clear - Hr Lw. lia.
      * intros Ho. assert (Hw : wf_bytes (out ++ w)) by (rewrite <- Ew; apply lz_copy_wf, Ho).
        now apply wf_bytes_app in Hw.
      * intros rest Hl. rewrite len_app. unfold sub_chk at 1.
        destruct (N.leb_spec (len out) (len out + len rest)); [| lia]. cbn [bind].
        destruct (N.leb_spec size (len out + len rest - len out)) as [_ | Hx]; [| unfold len in Hx; lia].
        cbn [check bind]. unfold sub_chk. destruct (N.leb_spec dist (len out)); [| lia]. cbn [bind].
        rewrite copy_end by lia. cbn [bind]. rewrite Ew, Lw, len_app.
        do 2 f_equal. unfold len. lia.
      * apply outcome_mono with p4; [exact Hp4 |]. apply IH; [exact S4 | lia].
    + left. intros rest Hl. rewrite len_app. unfold sub_chk at 1.
      destruct (N.leb_spec (len out) (len out + len rest)); [| lia]. cbn [bind].
      destruct (N.leb_spec size (len out + len rest - len out)) as [Hx | _]; [unfold len in Hx; lia | reflexivity].
Qed.

Lemma fixed_trees : exists l d, build_fixed = Ok (l, d) /\ tree_for fixed_literals 15 l /\
  tree_for fixed_distances 15 d.
Proof.
  unfold build_fixed.
  change (slice fixed_code_sizes 0 288) with (Ok fixed_literals).
  change (slice fixed_code_sizes 288 318) with (Ok fixed_distances). cbn [bind].
  destruct (C09_accepts_the_rest 288 15 fixed_literals) as (l & El); try (apply N.leb_le; reflexivity).
  { apply Forall_forall. intros x Hx. unfold fixed_literals in Hx. apply in_map_iff in Hx as (y & <- & _).
    destruct (y <? 144), (y <? 256), (y <? 280); lia. }
  { exists 0. split; reflexivity. }
  { unfold over_subscribed. intros Hx. vm_compute in Hx. discriminate. }
  destruct (C09_accepts_the_rest 30 15 fixed_distances) as (d & Ed); try (apply N.leb_le; reflexivity).
  { apply Forall_forall. intros x Hx. apply repeat_spec in Hx. subst. lia. }
  { exists 0. split; reflexivity. }
  { unfold over_subscribed. intros Hx. vm_compute in Hx. discriminate. }
  exists l, d. rewrite El, Ed. split; [reflexivity |]. split.
  - eapply build_new in El; [apply El | lia | apply N.leb_le; reflexivity].
  - eapply build_new in Ed; [apply Ed | lia | apply N.leb_le; reflexivity].
Qed.

Lemma nb_aligned data s p : SR data s p -> p mod 8 = 0 -> number_of_bits s = 0.
Proof.
  intros [H8 (q & Hq & _)] Hp. clear - H8 Hq Hp.
  Local Ltac Zify.zify_post_hook ::= Z.div_mod_to_equations. lia.
Qed.
Local Ltac Zify.zify_post_hook ::= idtac.

Lemma skip_to_byte data s p : wf_bytes data -> SR data s p ->
  let skip := N.land (number_of_bits s) 7 in
  exists s' q, (if 0 <? skip then skip_bits data skip s else Ok s) = Ok s' /\ SR data s' (8 * q) /\
    p <= 8 * q < p + 8.
Proof.
  intros Hwf Hs skip. pose proof Hs as [H8 (q & Hq & _)].
  assert (Esk : skip = number_of_bits s).
  { unfold skip. change 7 with (N.ones 3). rewrite N.land_ones. apply N.mod_small. exact H8. }
  rewrite Esk. exists (if 0 <? number_of_bits s then match skip_bits data (number_of_bits s) s with Ok x => x | _ => s end else s), q.
  destruct (N.ltb_spec 0 (number_of_bits s)).
  - destruct (skip_bits_ok data (number_of_bits s) s p Hwf ltac:(lia) Hs) as (s' & E & S').
    rewrite E. split; [reflexivity |]. rewrite Hq in S'. split; [exact S' | lia].
  - split; [reflexivity |]. replace (8 * q) with p by lia. split; [exact Hs | lia].
Qed.

Lemma block_content_safe data ty out n s p : wf_bytes data -> SR data s p ->
  outcome data out n p (fun rest => block_content data ty (out ++ rest) (len out) s).
Proof.
  intros Hwf Hs. unfold block_content. destruct (ty =? 0); [| destruct (ty =? 1); [| destruct (ty =? 2)]].
  - destruct (skip_to_byte data s p Hwf Hs) as (s1 & q & E1 & S1 & Hq). cbv zeta in *. rewrite E1. cbn [bind].
    destruct (get_value_ok data 32 s1 _ Hwf ltac:(lia) S1) as (s2 & E2 & S2). rewrite E2. cbn [bind].
    set (value := (le_value data / 2 ^ (8 * q)) mod 2 ^ 32). clearbody value.
    destruct (N.land value 65535 =? N.lxor (N.shiftr value 16) 65535); cbn [check bind]; [| now left].
    set (size := N.land value 65535). clearbody size.
    destruct (N.ltb_spec 0 size) as [H0 | H0].
    + unfold copy_bytes. destruct (N.leb_spec (data_offset s2 + size) (len data)) as [Hd | Hd]; cbn [check bind]; [| now left].
      destruct (Nat.leb_spec (N.to_nat size) n) as [Hr | Hr].
      * destruct (len_slice data (data_offset s2) (data_offset s2 + size)) as (w & Ew & Lw); [lia | lia |].
        right. exists w, (mk_bits (data_offset s2 + size) 0 0), (8 * (data_offset s2 + size)).
        split; [unfold len in Lw; lia |]. split; [apply SR_start; exact Hd |].
        split.
        { destruct S2 as [N2 (q2 & Hq2 & Ho2 & _)]. clear - H0 Hd Hq Hq2 Ho2 N2.
          assert (q2 <= len data) by lia. lia. }
        split.
        { intros _. rewrite slice_ok in Ew by lia. injection Ew as <-. now apply wf_bytes_firstn, wf_bytes_skipn. }
        intros rest Hl. rewrite len_app.
        destruct (N.leb_spec (len out + size) (len out + len rest)) as [_ | Hx]; [| unfold len in Hx; lia].
        cbn [check bind]. rewrite Ew. cbn [bind].
        rewrite write_end by (unfold len in *; lia). cbn [bind]. rewrite <- app_assoc, len_app, Lw.
        do 2 f_equal. f_equal. lia.
      * left. intros rest Hl. rewrite len_app.
        destruct (N.leb_spec (len out + size) (len out + len rest)) as [Hx | _]; [unfold len in Hx; lia | reflexivity].
    + right. exists [], s2, (8 * q + 32). split; [cbn; lia |]. split; [exact S2 |]. split; [lia |]. split; [constructor |].
      intros. rewrite app_nil_r. reflexivity.
  - destruct fixed_trees as (l & d & E & Tl & Td). rewrite E. cbn [bind].
    eapply outcome_ext; [| eapply (huffman_block_safe data _ _ l d Hwf Tl Td ltac:(apply N.leb_le; reflexivity) (S n) out n s p Hs); lia].
    intros rest Hr. cbv beta. f_equal. unfold block_fuel. rewrite app_length. unfold len. lia.
  - destruct (build_dynamic_safe data s p Hwf Hs) as [E | (l & d & s' & p' & lcs & dcs & E & Tl & Td & _ & Hd & S' & Hp)];
      rewrite E; cbn [bind]; [now left |].
    eapply outcome_ext; [| eapply outcome_mono; [exact Hp | eapply (huffman_block_safe data _ _ l d Hwf Tl Td Hd (S n) out n s' p' S'); lia]].
    intros rest Hr. cbv beta. f_equal. unfold block_fuel. rewrite app_length. unfold len. lia.
  - now left.
Qed.

Lemma deflate_loop_safe data : wf_bytes data -> forall fuel out n s p, SR data s p ->
  8 * len data - p < N.of_nat fuel ->
  outcome data out n p (fun rest => deflate_loop fuel data (out ++ rest) (len out) s).
Proof.
  intros Hwf. induction fuel as [| fuel IH]; intros out n s p Hs Hf; [lia |].
  cbn [deflate_loop]. destruct (N.ltb_spec (data_offset s) (len data)) as [Hlt | Hge].
  2:{ right. exists [], s, p. split; [cbn; lia |]. split; [exact Hs |]. split; [lia |]. split; [constructor |].
      intros. rewrite app_nil_r. reflexivity. }
  assert (Hp : p < 8 * len data) by (destruct Hs as [_ (q & Hq & Ho & _)]; clear - Hq Ho Hlt; lia).
  unfold deflate_block.
  destruct (get_value_ok data 3 s p Hwf ltac:(lia) Hs) as (s1 & E1 & S1). rewrite E1. cbn [bind].
  match goal with |- context [block_content data ?t _ _ _] => set (ty := t) end.
  match goal with |- context [negb ?t] => set (fl := negb t) end. clearbody ty fl.
  destruct (block_content_safe data ty out n s1 _ Hwf S1) as [E | (w & s2 & p2 & L & S2 & Hp2 & Hww & E)].
  { left. intros rest Hr. rewrite E by exact Hr. reflexivity. }
  destruct fl.
  - right. exists w, s2, p2. split; [exact L |]. split; [exact S2 |]. split; [lia |]. split; [exact Hww |].
    intros rest Hr. rewrite E by exact Hr. reflexivity.
  - apply outcome_write with (a := w) (run := fun rest => deflate_loop fuel data ((out ++ w) ++ rest) (len (out ++ w)) s2).
    + exact L.
    + exact Hww.
    + intros rest Hr. rewrite E by exact Hr. reflexivity.
    + apply outcome_mono with p2; [lia |]. apply IH; [exact S2 | lia].
Qed.

(** ** Whatever an encoder wrote is decoded *)
Definition sent_at (i : N) : N := nth (N.to_nat i) code_length_order 0.
Definition Sent (cl cs : list N) (done : N -> Prop) : Prop :=
  len cs = 316 /\ forall i, i < 19 -> done i -> nth (N.to_nat (sent_at i)) cs 0 = length_of cl (sent_at i).

Lemma sequence_sent i : i < 19 -> idx code_sizes_sequence i = Ok (sent_at i) /\ sent_at i < 19.
Proof.
  intros H. destruct (sequence_index i H) as (k & E & Hk).
  assert (E' : idx code_sizes_sequence i = Ok (sent_at i)) by (rewrite (idx_ok _ i 0) by exact H; reflexivity).
  rewrite E' in E. injection E as <-. auto.
Qed.
Lemma nth_set_nth {A} (l : list A) i j v d : (i < length l)%nat ->
  nth j (set_nth l i v) d = if Nat.eqb i j then v else nth j l d.
Proof.
  intros H. destruct (Nat.eqb_spec i j) as [-> | Hne].
  - apply nth_error_nth. now apply nth_error_set_nth_eq.
  - assert (E : nth_error (set_nth l i v) j = nth_error l j) by (now apply nth_error_set_nth_neq).
    destruct (nth_error l j) eqn:El.
    + rewrite (nth_error_nth _ _ _ E). symmetry. now apply nth_error_nth.
    + rewrite !nth_overflow; [reflexivity | |]; now apply nth_error_None.
Qed.
Lemma Sent_step cl cs done i : Sent cl cs done -> i < 19 ->
  Sent cl (set_nth cs (N.to_nat (sent_at i)) (length_of cl (sent_at i))) (fun j => done j \/ j = i).
Proof.
  intros [L H] Hi. split; [now rewrite len_set_nth |]. intros j Hj Hd.
  destruct (sequence_sent i Hi) as [_ Hs].
  rewrite nth_set_nth by (unfold len in L; lia).
  destruct (Nat.eqb_spec (N.to_nat (sent_at i)) (N.to_nat (sent_at j))) as [E | E].
  - apply N2Nat.inj in E. now rewrite E.
  - destruct Hd as [Hd | ->]; [auto | congruence].
Qed.

Lemma read_code_sizes_rt data cl r : wf_bytes data -> Forall (fun l => l < 8) cl -> forall is cs s p done,
  Forall (fun i => i < 19) is -> Sent cl cs done ->
  St data s p (flat_map (fun i => bits_lsb 3 (length_of cl (sent_at i))) is ++ r) ->
  exists cs' s', read_code_sizes data is cs s = Ok (cs', s') /\
    Sent cl cs' (fun i => done i \/ In i is) /\ St data s' (p + 3 * len is) r.
Proof.
  intros Hwf H8. induction is as [| i is IH]; intros cs s p done Hf Hsent Hst.
  - exists cs, s. change (len (@nil N)) with 0. rewrite N.mul_0_r, N.add_0_r. split; [reflexivity |].
    split; [| exact Hst]. destruct Hsent as [L H]. split; [exact L |]. intros i Hi [Hd | []]. auto.
  - inversion Hf; subst. cbn [read_code_sizes flat_map] in *. rewrite <- app_assoc in Hst.
    assert (Hl : length_of cl (sent_at i) < 8).
    { unfold length_of. destruct (nth_in_or_default (N.to_nat (sent_at i)) cl 0) as [Hin | ->]; [| lia].
      rewrite Forall_forall in H8. auto. }
    destruct (St_value data s p 3 _ _ Hwf ltac:(lia) Hl Hst) as (s1 & E1 & S1).
    change (N.of_nat 3) with 3 in *. rewrite E1. cbn [bind].
    destruct (sequence_sent i ltac:(assumption)) as [Ek Hk]. rewrite Ek. cbn [bind].
    rewrite upd_ok by (destruct Hsent as [L _]; lia). cbn [bind].
    destruct (IH _ _ _ _ ltac:(assumption) (Sent_step _ _ _ i Hsent ltac:(assumption)) S1) as (cs' & s' & E & Hs' & S').
    exists cs', s'. split; [exact E |]. split.
    + destruct Hs' as [L H]. split; [exact L |]. intros j Hj [Hd | [-> | Hin]]; apply H; auto.
    + rewrite len_cons. replace (p + 3 * (len is + 1)) with (p + 3 + 3 * len is) by lia. exact S'.
Qed.
Lemma clear_code_sizes_rt cl : forall is cs done, Forall (fun i => i < 19) is ->
  Forall (fun i => length_of cl (sent_at i) = 0) is -> Sent cl cs done ->
  exists cs', clear_code_sizes is cs = Ok cs' /\ Sent cl cs' (fun i => done i \/ In i is).
Proof.
  induction is as [| i is IH]; intros cs done Hf Hz Hsent.
  - exists cs. split; [reflexivity |]. destruct Hsent as [L H]. split; [exact L |]. intros i Hi [Hd | []]. auto.
  - apply Forall_cons_iff in Hf as [Hi Hf]. apply Forall_cons_iff in Hz as [Hz0 Hz]. cbn [clear_code_sizes].
    destruct (sequence_sent i ltac:(assumption)) as [Ek Hk]. rewrite Ek. cbn [bind].
    rewrite upd_ok by (destruct Hsent as [L _]; lia). cbn [bind].
    rewrite <- Hz0.
    destruct (IH _ _ ltac:(assumption) ltac:(assumption) (Sent_step _ _ _ i Hsent ltac:(assumption))) as (cs' & E & [L H]).
    exists cs'. split; [exact E |]. split; [exact L |]. intros j Hj [Hd | [-> | Hin]]; apply H; auto.
Qed.
Lemma Sent_all cl cs (done : N -> Prop) : Sent cl cs done -> (forall i, i < 19 -> done i) -> length cl = 19%nat ->
  slice cs 0 19 = Ok cl.
Proof.
  intros [L H] Hd Hc. rewrite slice_ok by lia. f_equal. change (N.to_nat 0) with 0%nat. cbn [skipn].
  apply nth_ext with 0 0.
  - rewrite firstn_length. unfold len in L. lia.
  - rewrite firstn_length. intros k Hk. 
    rewrite <- (firstn_skipn 19 cs) in H. unfold len in L.
    assert (Hi : exists i, i < 19 /\ N.to_nat (sent_at i) = k).
    { assert (F : Forall (fun k => exists i, i < 19 /\ N.to_nat (sent_at i) = k) (seq 0 19)).
      { cbn [seq]. 
        repeat first [apply Forall_nil | apply Forall_cons];
        [exists 3 | exists 17 | exists 15 | exists 13 | exists 11 | exists 9 | exists 7 | exists 5 | exists 4
        | exists 6 | exists 8 | exists 10 | exists 12 | exists 14 | exists 16 | exists 18 | exists 0 | exists 1 | exists 2];
        split; reflexivity. }
      rewrite Forall_forall in F. apply F, in_seq. lia. }
    destruct Hi as (i & Hi & <-). specialize (H i Hi (Hd i Hi)).
    rewrite app_nth1 in H by (rewrite firstn_length; lia). exact H.
Qed.

Lemma repeat_code_size_rt v : forall n acc tl, (n <= length tl)%nat ->
  repeat_code_size n (acc ++ tl) (len acc) v = Ok (acc ++ repeat v n ++ skipn n tl).
Proof.
  induction n as [| n IH]; intros acc tl H; cbn [repeat_code_size repeat app skipn]; [reflexivity |].
  destruct tl as [| x tl]; [cbn in H; lia |]. rewrite upd_end. cbn [bind].
  change (acc ++ v :: tl) with (acc ++ [v] ++ tl). rewrite app_assoc.
  replace (len acc + 1) with (len (acc ++ [v])) by (rewrite len_app; reflexivity).
  rewrite IH by (cbn in H; lia). rewrite <- app_assoc. reflexivity.
Qed.

Lemma expand_grows : forall is acc total, expand acc is = Some total ->
  Forall (fun i => instruction_valid i) is -> len acc + len is <= len total.
Proof.
  induction is as [| i is IH]; intros acc total H Hv.
  - injection H as <-. change (len (@nil length_instruction)) with 0. lia.
  - inversion Hv; subst. rewrite len_cons. cbn [expand] in H.
    destruct i; cbn [instruction_valid] in *.
    + apply IH in H; [| assumption]. rewrite len_app, len_cons in H. lia.
    + destruct (rev acc); [discriminate |]. apply IH in H; [| assumption].
      rewrite len_app in H. unfold len in *. rewrite repeat_length in H. lia.
    + apply IH in H; [| assumption]. rewrite len_app in H. unfold len in *. rewrite repeat_length in H. lia.
    + apply IH in H; [| assumption]. rewrite len_app in H. unfold len in *. rewrite repeat_length in H. lia.
Qed.

Lemma idx_last (acc : list N) l r tl : rev acc = l :: r -> idx (acc ++ tl) (len acc - 1) = Ok l.
Proof.
  intros H. assert (E : acc = rev r ++ [l]) by (rewrite <- (rev_involutive acc), H; reflexivity).
  subst acc. rewrite len_app. change (len [l]) with 1. rewrite N.add_sub, <- app_assoc.
  unfold idx, len. rewrite Nat2N.id, nth_error_app2, Nat.sub_diag by lia. reflexivity.
Qed.

Lemma decode_code_sizes_rt data tree cl total r : wf_bytes data -> tree_for cl 15 tree -> len total <= 316 ->
  forall is fuel acc tl s p, Forall (fun i => instruction_valid i /\ coded cl (instruction_symbol i)) is ->
  expand acc is = Some total -> len acc + len tl = 316 -> len total - len acc < N.of_nat fuel ->
  St data s p (flat_map (instruction_bits cl) is ++ r) ->
  exists tl' s', decode_code_sizes fuel data tree (len total) (acc ++ tl) (len acc) s = Ok (total ++ tl', s') /\
    St data s' (p + len (flat_map (instruction_bits cl) is)) r.
Proof.
  intros Hwf Ht H316. induction is as [| i is IH]; intros fuel acc tl s p Hv He Hl Hf Hst.
  - injection He as <-. destruct fuel; [lia |]. cbn [decode_code_sizes].
    destruct (N.ltb_spec (len acc) (len acc)); [lia |]. exists tl, s.
    change (len (flat_map (instruction_bits cl) [])) with 0. rewrite N.add_0_r. auto.
  - inversion Hv as [| ? ? [Hi Hc] Hvs]; subst. 
    assert (Hvs' : Forall (fun i => instruction_valid i) is) by (eapply Forall_impl; [| exact Hvs]; cbn; tauto).
    assert (Hg : len acc < len total).
    { apply expand_grows in He; [| constructor; assumption]. rewrite len_cons in He. lia. }
    destruct fuel as [| fuel]; [lia |]. cbn [decode_code_sizes].
    destruct (N.ltb_spec (len acc) (len total)) as [_ | ?]; [| lia].
    cbn [flat_map] in Hst. unfold instruction_bits in Hst at 1. rewrite <- !app_assoc in Hst.
    destruct (St_symbol _ _ _ _ _ _ _ _ Hwf Ht Hc Hst) as (s1 & E1 & S1). rewrite E1. cbn [bind].
    assert (Hlen : forall x, len (flat_map (instruction_bits cl) (i :: is)) =
      len (code_word cl (instruction_symbol i)) + (len (instruction_bits cl i) - len (code_word cl (instruction_symbol i))) + 
      len (flat_map (instruction_bits cl) is) + x - x).
    { intros x. cbn [flat_map]. rewrite len_app. unfold instruction_bits at 1 3. rewrite !len_app. lia. }
    specialize (Hlen 0). rewrite N.add_0_r, N.sub_0_r in Hlen. rewrite Hlen. clear Hlen.
    assert (Next : forall acc' tl' s2 n, expand acc' is = Some total -> len acc' + len tl' = 316 ->
      len acc < len acc' -> n = len (instruction_bits cl i) - len (code_word cl (instruction_symbol i)) ->
      St data s2 (p + len (code_word cl (instruction_symbol i)) + n) (flat_map (instruction_bits cl) is ++ r) ->
      exists tl'' s', decode_code_sizes fuel data tree (len total) (acc' ++ tl') (len acc') s2 = Ok (total ++ tl'', s') /\
        St data s' (p + (len (code_word cl (instruction_symbol i)) + (len (instruction_bits cl i) - len (code_word cl (instruction_symbol i))) + 
      len (flat_map (instruction_bits cl) is))) r).
    { intros acc' tl' s2 n He' Hl' Hlt -> Hst'. 
      destruct (IH fuel acc' tl' s2 _ Hvs He' Hl' ltac:(lia) Hst') as (tl'' & s' & E & S').
      exists tl'', s'. split; [exact E |]. rewrite !N.add_assoc in *. exact S'. }
    assert (Many : forall n v s2 m, 3 <= n -> expand (acc ++ repeat v (N.to_nat n)) is = Some total ->
      m = len (instruction_bits cl i) - len (code_word cl (instruction_symbol i)) ->
      St data s2 (p + len (code_word cl (instruction_symbol i)) + m) (flat_map (instruction_bits cl) is ++ r) ->
      exists tl'' s',
      (check (len acc + n <=? len total) ;;;
       code_sizes <- repeat_code_size (N.to_nat n) (acc ++ tl) (len acc) v ;;
       decode_code_sizes fuel data tree (len total) code_sizes (len acc + n) s2) = Ok (total ++ tl'', s') /\
        St data s' (p + (len (code_word cl (instruction_symbol i)) + (len (instruction_bits cl i) - len (code_word cl (instruction_symbol i))) + 
      len (flat_map (instruction_bits cl) is))) r).
    { intros n v s2 m Hn He' Hm Hst'.
      pose proof (expand_grows _ _ _ He' Hvs') as G. rewrite len_app in G.
      assert (Lr : len (repeat v (N.to_nat n)) = n) by (unfold len; rewrite repeat_length; lia).
      rewrite Lr in G.
      destruct (N.leb_spec (len acc + n) (len total)); [| lia]. cbn [check bind].
      rewrite repeat_code_size_rt by (unfold len in *; lia). cbn [bind].
      rewrite app_assoc.
      replace (len acc + n) with (len (acc ++ repeat v (N.to_nat n))) by (rewrite len_app, Lr; reflexivity).
      eapply Next; [exact He' | | | exact Hm | exact Hst'].
      - rewrite len_app, Lr, len_skipn. unfold len in *. lia.
      - rewrite len_app, Lr. lia. }
    destruct i as [l | n | n | n]; cbn [instruction_symbol instruction_valid] in *.
    + destruct (N.ltb_spec l 16); [| lia]. destruct tl as [| x tl]; [change (len (@nil N)) with 0 in Hl; lia |].
      rewrite upd_end. cbn [bind]. change (acc ++ l :: tl) with (acc ++ [l] ++ tl). rewrite app_assoc.
      replace (len acc + 1) with (len (acc ++ [l])) by (rewrite len_app; reflexivity).
      eapply Next with (n := 0); [exact He | | | | ].
      * rewrite len_app. rewrite len_cons in Hl. change (len [l]) with 1. lia.
      * rewrite len_app. change (len [l]) with 1. lia.
      * unfold instruction_bits. rewrite app_nil_r. cbn [instruction_symbol]. lia.
      * rewrite N.add_0_r. exact S1.
    + cbn [expand] in He. destruct (rev acc) as [| l rr] eqn:Er; [discriminate |].
      assert (Hacc : 1 <= len acc). { unfold len. rewrite <- rev_length, Er. cbn [length]. lia. }
      change (16 <? 16) with false. cbv iota. destruct (N.eqb_spec (len acc) 0); [lia |].
      change (16 <=? 18) with true. change (16 =? 16) with true. cbn [andb negb check bind]. cbv iota.
      unfold sub_chk at 1. destruct (N.leb_spec 1 (len acc)); [| lia]. cbn [bind].
      rewrite (idx_last acc l rr tl Er). cbn [bind].
      assert (Hb : n - 3 < 2 ^ N.of_nat 2) by (change (2 ^ N.of_nat 2) with 4; lia).
      destruct (St_value _ _ _ _ _ _ Hwf (ltac:(lia) : (2 <= 32)%nat) Hb S1) as (s2 & E2 & S2).
      change (N.of_nat 2) with 2 in *. rewrite E2. cbn [bind]. rewrite N.sub_add by lia.
      eapply Many; [lia | exact He | | exact S2].
      unfold instruction_bits. cbn [instruction_symbol]. rewrite len_app. change (len (bits_lsb 2 (n - 3))) with 2. lia.
    + cbn [expand] in He.
      change (17 <? 16) with false. change (17 =? 16) with false. cbv iota. rewrite andb_false_r.
      change (17 <=? 18) with true. change (17 =? 17) with true. cbn [andb negb check bind]. cbv iota.
      assert (Hb : n - 3 < 2 ^ N.of_nat 3) by (change (2 ^ N.of_nat 3) with 8; lia).
      destruct (St_value _ _ _ _ _ _ Hwf (ltac:(lia) : (3 <= 32)%nat) Hb S1) as (s2 & E2 & S2).
      change (N.of_nat 3) with 3 in *. rewrite E2. cbn [bind]. rewrite N.sub_add by lia.
      eapply Many; [lia | exact He | | exact S2].
      unfold instruction_bits. cbn [instruction_symbol]. rewrite len_app. change (len (bits_lsb 3 (n - 3))) with 3. lia.
    + cbn [expand] in He.
      change (18 <? 16) with false. change (18 =? 16) with false. cbv iota. rewrite andb_false_r.
      change (18 <=? 18) with true. change (18 =? 17) with false. cbn [andb negb check bind]. cbv iota.
      assert (Hb : n - 11 < 2 ^ N.of_nat 7) by (change (2 ^ N.of_nat 7) with 128; lia).
      destruct (St_value _ _ _ _ _ _ Hwf (ltac:(lia) : (7 <= 32)%nat) Hb S1) as (s2 & E2 & S2).
      change (N.of_nat 7) with 7 in *. rewrite E2. cbn [bind]. rewrite N.sub_add by lia.
      eapply Many; [lia | exact He | | exact S2].
      unfold instruction_bits. cbn [instruction_symbol]. rewrite len_app. change (len (bits_lsb 7 (n - 11))) with 7. lia.
Qed.

Lemma expand_small : forall is acc total, expand acc is = Some total ->
  Forall (fun i => instruction_valid i) is -> Forall (fun l => l <= 15) acc -> Forall (fun l => l <= 15) total.
Proof.
  assert (R : forall v n, v <= 15 -> Forall (fun l => l <= 15) (repeat v n)).
  { intros v n H. apply Forall_forall. intros x Hx. apply repeat_spec in Hx. now subst. }
  induction is as [| i is IH]; intros acc total H Hv Ha.
  - now injection H as <-.
  - apply Forall_cons_iff in Hv as [Hi Hv]. cbn [expand] in H.
    destruct i; cbn [instruction_valid] in *.
    + apply IH in H; auto. apply Forall_app. auto.
    + destruct (rev acc) as [| v rr] eqn:Er; [discriminate |]. apply IH in H; auto.
      apply Forall_app. split; [exact Ha |]. apply R.
      rewrite Forall_forall in Ha. apply Ha. apply in_rev. rewrite Er. now left.
    + apply IH in H; auto. apply Forall_app. split; [exact Ha |]. apply R. lia.
    + apply IH in H; auto. apply Forall_app. split; [exact Ha |]. apply R. lia.
Qed.

Lemma build_rt n cs : 1 <= n <= 65535 -> len cs <= n -> Forall (fun l => l <= 15) cs -> (exists s, coded cs s) ->
  ~ over_subscribed 15 cs -> exists t, huffman_build (huffman_new n 15) cs = Ok t /\ tree_for cs 15 t.
Proof.
  intros Hn Hl Hf Hc Ho. destruct (C09_accepts_the_rest n 15 cs) as (t & E); auto; try lia.
  exists t. split; [exact E |]. now apply (build_new n 15 cs t ltac:(lia) Hl) in E as [T _].
Qed.

Lemma build_dynamic_rt data s p h r : wf_bytes data -> header_valid h ->
  (exists x, coded (distance_lengths h) x) -> St data s p (header_bits h ++ r) ->
  exists l d s', build_dynamic data s = Ok (l, d, s') /\ tree_for (literal_lengths h) 15 l /\
    tree_for (distance_lengths h) 15 d /\ St data s' (p + len (header_bits h)) r.
Proof.
  intros Hwf (Hnl & Hnd & Hns & Hlcl & H8 & Hz & Hocl & Hin & Hex & Hll & Hld & Hol & Hod & H256) Hdc Hst.
  unfold build_dynamic, header_bits in *.
  set (nl := number_of_literals h) in *. set (nd := number_of_distances h) in *. set (ns := number_sent h) in *.
  set (cl := code_length_lengths h) in *.
  set (b14 := bits_lsb 5 (nl - 257) ++ bits_lsb 5 (nd - 1) ++ bits_lsb 4 (ns - 4)).
  set (bcl := flat_map (fun i => bits_lsb 3 (length_of cl (nth (N.to_nat i) code_length_order 0))) (seqN 0 (N.to_nat ns))) in *.
  set (bin := flat_map (instruction_bits cl) (instructions h)) in *.
  assert (L14 : len b14 = 14) by reflexivity.
  assert (Hst' : St data s p (b14 ++ bcl ++ bin ++ r)).
  { unfold b14. rewrite <- !app_assoc in *. exact Hst. }
  assert (Hlen : len (bits_lsb 5 (nl - 257) ++ bits_lsb 5 (nd - 1) ++ bits_lsb 4 (ns - 4) ++ bcl ++ bin) =
     14 + len bcl + len bin).
  { rewrite !len_app. change (len (bits_lsb 5 (nl - 257))) with 5. change (len (bits_lsb 5 (nd - 1))) with 5.
    change (len (bits_lsb 4 (ns - 4))) with 4. lia. }
  rewrite Hlen. clear Hlen Hst.
  destruct (St_bits data s p b14 _ Hwf ltac:(rewrite L14; lia) Hst') as (s1 & E1 & S1). rewrite L14 in *.
  rewrite E1. cbn [bind].
  assert (V : bits_value b14 = (nl - 257) + 32 * (nd - 1) + 1024 * (ns - 4)).
  { unfold b14. rewrite !bits_value_app.
    rewrite !bits_value_lsb; [| change (2 ^ N.of_nat 4) with 16; lia | change (2 ^ N.of_nat 5) with 32; lia
      | change (2 ^ N.of_nat 5) with 32; lia].
    change (len (bits_lsb 5 (nl - 257))) with 5. change (len (bits_lsb 5 (nd - 1))) with 5.
    change (2 ^ 5) with 32. lia. }
  rewrite V.
  assert (V1 : N.land (nl - 257 + 32 * (nd - 1) + 1024 * (ns - 4)) 31 = nl - 257).
  { change 31 with (N.ones 5). rewrite N.land_ones. change (2 ^ 5) with 32. clear - Hnl Hnd Hns.
    Local Ltac Zify.zify_post_hook ::= Z.div_mod_to_equations. lia. }
  assert (V2 : N.shiftr (nl - 257 + 32 * (nd - 1) + 1024 * (ns - 4)) 5 = nd - 1 + 32 * (ns - 4)).
  { rewrite N.shiftr_div_pow2. change (2 ^ 5) with 32. clear - Hnl Hnd Hns. lia. }
  assert (V3 : N.land (nd - 1 + 32 * (ns - 4)) 31 = nd - 1).
  { change 31 with (N.ones 5). rewrite N.land_ones. change (2 ^ 5) with 32. clear - Hnd Hns. lia. }
  assert (V4 : N.shiftr (nd - 1 + 32 * (ns - 4)) 5 = ns - 4).
  { rewrite N.shiftr_div_pow2. change (2 ^ 5) with 32. clear - Hnd Hns. lia. }
  Local Ltac Zify.zify_post_hook ::= idtac.
  rewrite V1, V2, V3, V4. clear V V1 V2 V3 V4. rewrite !N.sub_add by lia.
  destruct (N.leb_spec nl 286); [| lia]. destruct (N.leb_spec nd 30); [| lia]. cbn [check bind].
  destruct (read_code_sizes_rt data cl (bin ++ r) Hwf H8 (seqN 0 (N.to_nat ns)) (repeat 0 316) s1 (p + 14)
    (fun _ => False)) as (cs1 & s2 & E2 & Sent2 & S2).
  { apply Forall_seqN. lia. } { split; [reflexivity | intros ? ? []]. } { exact S1. }
  rewrite E2. cbn [bind].
  assert (F1 : Forall (fun i => i < 19) (seqN ns (19 - N.to_nat ns))) by (apply Forall_seqN; lia).
  assert (F2 : Forall (fun i => length_of cl (sent_at i) = 0) (seqN ns (19 - N.to_nat ns))).
  { apply Forall_forall. intros i Hi. apply in_seqN in Hi. apply Hz. lia. }
  destruct (clear_code_sizes_rt cl _ cs1 _ F1 F2 Sent2) as (cs2 & E3 & Sent3).
  rewrite E3. cbn [bind].
  assert (E4 : slice cs2 0 19 = Ok cl).
  { apply (Sent_all cl cs2 _ Sent3); [| exact Hlcl]. intros i Hi. destruct (N.ltb_spec i ns).
    - left. right. apply in_seqN. lia.
    - right. apply in_seqN. lia. }
  rewrite E4. cbn [bind].
  assert (Hv : Forall (fun i => instruction_valid i) (instructions h)) by (eapply Forall_impl; [| exact Hin]; cbn; tauto).
  set (total := literal_lengths h ++ distance_lengths h) in *.
  assert (Hlt : len total = nl + nd) by (unfold total; rewrite len_app; lia).
  assert (Hccl : exists x, coded cl x).
  { destruct (instructions h) as [| i0 is0].
    - injection Hex as Hex. rewrite <- Hex in Hlt. change (len (@nil N)) with 0 in Hlt. lia.
    - apply Forall_cons_iff in Hin as [[_ Hc] _]. eauto. }
  destruct (build_rt 19 cl) as (tree & E5 & T); auto; try (unfold len; lia).
  { eapply Forall_impl; [| exact H8]. cbn. intros; lia. }
  rewrite E5. cbn [bind]. rewrite <- Hlt.
  destruct Sent3 as [L3 _].
  destruct (decode_code_sizes_rt data tree cl total r Hwf T ltac:(lia) (instructions h) (S (N.to_nat (len total)))
    [] cs2 s2 _ Hin Hex ltac:(change (len (@nil N)) with 0; lia) ltac:(change (len (@nil N)) with 0; lia) S2)
    as (tl & s3 & E6 & S3).
  change (len (@nil N)) with 0 in E6. cbn [app] in E6. rewrite E6. cbn [bind].
  assert (Ht15 : Forall (fun l => l <= 15) total) by (eapply expand_small; eauto).
  apply Forall_app in Ht15 as [Hl15 Hd15].
  assert (E256 : idx (total ++ tl) 256 = Ok (length_of (literal_lengths h) 256)).
  { unfold total. rewrite <- app_assoc. rewrite (idx_ok _ 256 0) by (rewrite len_app; lia). f_equal.
    unfold length_of. apply app_nth1. unfold len in Hll. lia. }
  rewrite E256. cbn [bind]. destruct H256 as [H256a H256b].
  destruct (N.eqb_spec (length_of (literal_lengths h) 256) 0); [lia |]. cbn [negb check bind].
  assert (E7 : slice (total ++ tl) 0 nl = Ok (literal_lengths h)).
  { rewrite slice_ok by (rewrite ?len_app; lia). f_equal. change (N.to_nat 0) with 0%nat. cbn [skipn].
    unfold total. rewrite <- app_assoc. apply firstn_skipn_app. unfold len in Hll. lia. }
  rewrite E7. cbn [bind].
  destruct (build_rt 288 (literal_lengths h)) as (tl' & E8 & T8); auto; try lia.
  { exists 256. split; assumption. }
  rewrite E8. cbn [bind].
  assert (E9 : slice (total ++ tl) nl (len total) = Ok (distance_lengths h)).
  { rewrite slice_ok by (rewrite ?len_app; lia). f_equal. unfold total. rewrite <- app_assoc.
    assert (Hln : N.to_nat nl = length (literal_lengths h)) by (clear - Hll; unfold len in Hll; lia).
    rewrite (proj2 (firstn_skipn_app (literal_lengths h) (distance_lengths h ++ tl) _ Hln)).
    apply firstn_skipn_app. rewrite len_app, Hll, Hld, N.add_comm, N.add_sub. clear - Hld. unfold len in Hld. lia. }
  rewrite E9. cbn [bind].
  destruct (build_rt 30 (distance_lengths h)) as (td & E10 & T10); auto; try lia.
  rewrite E10. cbn [bind]. exists tl', td, s3. split; [reflexivity |]. split; [exact T8 |]. split; [exact T10 |].
  assert (Lb : len bcl = 3 * len (seqN 0 (N.to_nat ns))).
  { unfold bcl. generalize (seqN 0 (N.to_nat ns)). induction l as [| a l IHl]; [reflexivity |].
    cbn [flat_map]. rewrite len_app, len_cons, IHl. unfold len at 1. rewrite bits_lsb_length. lia. }
  rewrite Lb. rewrite !N.add_assoc. exact S3.
Qed.

(** *** Tokens *)
Lemma token_meaning_app out t : exists w, token_meaning out t = out ++ w.
Proof. destruct t; cbn [token_meaning]; [eauto |]. destruct (lz_copy_app (match_distance distance_code extra_distance) (N.to_nat (match_length length_code extra_length)) out) as (w & E & _). eauto. Qed.
Lemma tokens_meaning_app ts : forall out, exists w, tokens_meaning out ts = out ++ w.
Proof.
  induction ts as [| t ts IH]; intros out; [exists []; now rewrite app_nil_r |].
  cbn [tokens_meaning fold_left]. destruct (token_meaning_app out t) as (w & E).
  destruct (IH (token_meaning out t)) as (w' & E'). unfold tokens_meaning in E'. rewrite E', E, <- app_assoc. eauto.
Qed.

Lemma skipn_grow {A} (out w rest : list A) n :
  (out ++ w) ++ skipn (n + length w) rest = (out ++ w) ++ skipn n (skipn (length w) rest).
Proof. now rewrite skipn_skipn. Qed.

Lemma huffman_block_rt data lcs dcs l d r : wf_bytes data -> tree_for lcs 15 l -> tree_for dcs 15 d ->
  coded lcs 256 -> forall ts fuel out rest s p, tokens_valid lcs dcs out ts ->
  len (tokens_meaning out ts) <= len out + len rest -> (length rest < fuel)%nat ->
  St data s p (tokens_bits lcs dcs ts ++ r) ->
  exists s', huffman_block fuel data l d (out ++ rest) (len out) s =
    Ok (tokens_meaning out ts ++ skipn (length (tokens_meaning out ts) - length out) rest,
        len (tokens_meaning out ts), s') /\
    St data s' (p + len (tokens_bits lcs dcs ts)) r.
Proof.
  intros Hwf Tl Td C256. unfold tokens_bits.
  induction ts as [| t ts IH]; intros fuel out rest s p Hv Hl Hf Hst.
  - destruct fuel; [lia |]. cbn [huffman_block map concat app] in *.
    destruct (St_symbol _ _ _ _ _ _ _ _ Hwf Tl C256 Hst) as (s1 & E1 & S1). rewrite E1. cbn [bind].
    change (256 =? 256) with true. cbv iota. exists s1. cbn [tokens_meaning fold_left]. rewrite Nat.sub_diag. auto.
  - destruct fuel as [| fuel]; [lia |]. cbn [tokens_valid] in Hv. destruct Hv as [Hvt Hv].
    change (tokens_meaning out (t :: ts)) with (tokens_meaning (token_meaning out t) ts) in *.
    cbn [map concat] in *. rewrite <- !app_assoc in Hst.
    destruct (tokens_meaning_app ts (token_meaning out t)) as (w2 & Ew2).
    assert (Next : forall w s2, token_meaning out t = out ++ w -> (1 <= length w <= length rest)%nat ->
      St data s2 (p + len (token_bits lcs dcs t)) ((concat (map (token_bits lcs dcs) ts) ++ code_word lcs 256) ++ r) ->
      exists s', huffman_block fuel data l d ((out ++ w) ++ skipn (length w) rest) (len (out ++ w)) s2 =
        Ok (tokens_meaning (token_meaning out t) ts ++
            skipn (length (tokens_meaning (token_meaning out t) ts) - length out) rest,
        len (tokens_meaning (token_meaning out t) ts), s') /\
        St data s' (p + len ((token_bits lcs dcs t ++ concat (map (token_bits lcs dcs) ts)) ++ code_word lcs 256)) r).
    { intros w s2 Ew Hw Hst2. rewrite Ew in *.
      assert (H1 : len (tokens_meaning (out ++ w) ts) <= len (out ++ w) + len (skipn (length w) rest)).
      { rewrite Ew2 in Hl |- *. rewrite !len_app in Hl. rewrite !len_app. unfold len in Hl |- *.
        rewrite skipn_length. clear - Hl Hw. lia. }
      assert (H2 : (length (skipn (length w) rest) < fuel)%nat) by (rewrite skipn_length; lia).
      destruct (IH fuel (out ++ w) (skipn (length w) rest) s2 _ Hv H1 H2 Hst2) as (s' & E & S').
      - exists s'. rewrite E. split.
        + do 4 f_equal. rewrite skipn_skipn. f_equal. rewrite Ew2, !app_length. lia.
        + rewrite <- app_assoc, len_app, N.add_assoc. exact S'. }
    cbn [huffman_block]. destruct t as [b | lc le dc de].
    + cbn [token_valid token_bits token_meaning] in *. destruct Hvt as [Hb Hc].
      destruct (St_symbol _ _ _ _ _ _ _ _ Hwf Tl Hc Hst) as (s1 & E1 & S1). rewrite E1. cbn [bind].
      destruct (N.eqb_spec b 256); [lia |]. destruct (N.ltb_spec b 256); [| lia].
      assert (Hr : 1 <= len rest).
      { rewrite Ew2, !len_app in Hl. change (len [b]) with 1 in Hl. lia. }
      destruct rest as [| x rest]; [change (len (@nil N)) with 0 in Hr; lia |].
      rewrite len_app. destruct (N.ltb_spec (len out) (len out + len (x :: rest))); [| lia]. cbn [check bind].
      rewrite upd_end. cbn [bind].
      replace (len out + 1) with (len (out ++ [b])) by (rewrite len_app; reflexivity).
      change (out ++ b :: rest) with (out ++ [b] ++ skipn (length [b]) (x :: rest)). rewrite app_assoc.
      apply Next; [reflexivity | cbn [length]; lia | rewrite <- app_assoc; exact S1].
    + cbn [token_valid token_bits] in *.
      destruct Hvt as (Hlc & Hcl & Hle & Hdc & Hcd & Hde & Hdist).
      rewrite <- !app_assoc in Hst.
      destruct (St_symbol _ _ _ _ _ _ _ _ Hwf Tl Hcl Hst) as (s1 & E1 & S1). rewrite E1. cbn [bind].
      destruct (N.eqb_spec lc 256); [lia |]. destruct (N.ltb_spec lc 256); [lia |]. destruct (N.ltb_spec lc 286); [| lia].
      destruct (length_tables (lc - 257) ltac:(lia)) as (e & b & Ee & Eb & He & Ele & Elb & Hb).
      rewrite Ee, Eb. cbn [bind].
      replace (257 + (lc - 257)) with lc in * by lia.
      rewrite <- Ele in Hle, S1.
      assert (Hn1 : (N.to_nat e <= 32)%nat) by (clear - He; lia).
      assert (Hle' : le < 2 ^ N.of_nat (N.to_nat e)) by (rewrite N2Nat.id; exact Hle).
      destruct (St_value _ _ _ _ _ _ Hwf Hn1 Hle' S1) as (s2 & E2 & S2).
      rewrite N2Nat.id in E2, S2. rewrite E2. cbn [bind].
      destruct (St_symbol _ _ _ _ _ _ _ _ Hwf Td Hcd S2) as (s3 & E3 & S3). rewrite E3. cbn [bind].
      destruct (distance_tables dc ltac:(lia)) as (e' & db & Ede & Edb & Hde' & Edx & Edxb & Hdb).
      rewrite Ede, Edb. cbn [bind]. rewrite <- Edx in Hde, S3.
      assert (Hn2 : (N.to_nat e' <= 32)%nat) by (clear - Hde'; lia).
      assert (Hde2 : de < 2 ^ N.of_nat (N.to_nat e')) by (rewrite N2Nat.id; exact Hde).
      destruct (St_value _ _ _ _ _ _ Hwf Hn2 Hde2 S3) as (s4 & E4 & S4).
      rewrite N2Nat.id in E4, S4. rewrite E4. cbn [bind].
      assert (Hml : b + le = match_length lc le) by (unfold match_length; now rewrite Elb).
      assert (Hmd : db + de = match_distance dc de) by (unfold match_distance; now rewrite Edxb).
      rewrite Hml, Hmd.
      assert (Hml3 : 3 <= match_length lc le) by (rewrite <- Hml; lia).
      assert (Hmd1 : 1 <= match_distance dc de) by (rewrite <- Hmd; lia).
      set (ml := match_length lc le) in *. set (md := match_distance dc de) in *.
      assert (Em : token_meaning out (DMatch lc le dc de) = lz_copy out md (N.to_nat ml)) by reflexivity.
      destruct (lz_copy_app md (N.to_nat ml) out) as (w & Ew & Lw).
      assert (Hr : ml <= len rest).
      { rewrite Ew2, Em, Ew, !len_app in Hl. assert (len w = ml) by (unfold len; lia). lia. }
      destruct (N.leb_spec md (len out)); [| lia]. cbn [check bind].
      rewrite len_app. unfold sub_chk at 1. destruct (N.leb_spec (len out) (len out + len rest)); [| lia]. cbn [bind].
      destruct (N.leb_spec ml (len out + len rest - len out)); [| lia]. cbn [check bind].
      unfold sub_chk. destruct (N.leb_spec md (len out)); [| lia]. cbn [bind].
      rewrite copy_end by (unfold len in *; lia). cbn [bind]. rewrite Ew.
      replace (len out + ml) with (len (out ++ w)) by (rewrite len_app; unfold len; lia).
      rewrite <- Lw. apply Next.
      * rewrite Em. exact Ew.
      * rewrite Lw. unfold len in *. lia.
      * rewrite !len_app.
        replace (len (bits_lsb (N.to_nat (length_extra lc)) le)) with e by (unfold len; rewrite bits_lsb_length; lia).
        replace (len (bits_lsb (N.to_nat (distance_extra dc)) de)) with e' by (unfold len; rewrite bits_lsb_length; lia).
        rewrite <- app_assoc. rewrite !N.add_assoc. exact S4.
Qed.
