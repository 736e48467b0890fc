From Verif Require Import Base BaseLemmas Lz_model Checksums_model Checksums_spec Checksums_proofs Huffman_model Huffman_spec Huffman_proofs
  Bzip2_model Bzip2_spec Bzip2_proofs Bzip2_block_proofs Bzip2_bwt_proofs.
Ltac Zify.zify_post_hook ::= idtac.

(** [safe P o]: a result meets [P], and a panic is one of the three overflows *)
Section Safe.
Context (overflow : res unit).
Definition safe {A} (P : A -> Prop) (o : res A) : Prop := match o with Ok a => P a | Err => True | Panic => overflow = Panic end.
Lemma safe_bind {A B} (P : A -> Prop) (Q : B -> Prop) m k : safe P m -> (forall a, P a -> safe Q (k a)) -> safe Q (bind m k).
Proof. destruct m as [a | |]; cbn [safe bind]; intros H1 H2; [now apply H2 | exact I | exact H1]. Qed.
Lemma safe_check {B} (Q : B -> Prop) b k : (b = true -> safe Q (k tt)) -> safe Q (bind (check b) k).
Proof. destruct b; cbn [check bind safe]; auto. Qed.
Lemma safe_impl {A} (P Q : A -> Prop) o : (forall a, P a -> Q a) -> safe P o -> safe Q o.
Proof. destruct o; cbn [safe]; auto. Qed.
Lemma safe_idx {A B} (Q : B -> Prop) (P : A -> Prop) l i k : i < len l -> Forall P l -> (forall a, P a -> safe Q (k a)) -> safe Q (bind (idx l i) k).
Proof.
  intros Hi Hf Hk. unfold idx. destruct (nth_error l (N.to_nat i)) as [a |] eqn:E.
  - cbn [bind]. apply Hk. rewrite Forall_forall in Hf. apply Hf. eapply nth_error_In; exact E.
  - apply nth_error_None in E. unfold len in Hi. lia.
Qed.
Lemma set_nth_forall {A} (P : A -> Prop) x : forall l i, Forall P l -> P x -> Forall P (set_nth l i x).
Proof.
  induction l as [| y l IH]; intros i Hl Hx; [destruct i; exact Hl |]. apply Forall_cons_iff in Hl. destruct Hl as [Hy Hl].
  destruct i; cbn [set_nth]; constructor; auto.
Qed.
Lemma safe_upd {A B} (Q : B -> Prop) (P : A -> Prop) l i x k : i < len l -> Forall P l -> P x ->
  (forall l', len l' = len l -> Forall P l' -> safe Q (k l')) -> safe Q (bind (upd l i x) k).
Proof.
  intros Hi Hf Hx Hk. unfold upd. destruct (N.ltb_spec i (len l)); [| lia]. cbn [bind]. apply Hk; [apply len_set_nth | now apply set_nth_forall].
Qed.
Definition tr {A} (_ : A) : Prop := True.
Lemma tr_all {A} (l : list A) : Forall tr l.
Proof. apply Forall_forall. intros; exact I. Qed.

(** [G o s]: a position from [o] on *)
Definition G (o : N) (s : bz_stream) : Prop := bz_good s /\ o <= bz_offset s.
Definition G2 {A} (o : N) (P : A -> Prop) (x : A * bz_stream) : Prop := P (fst x) /\ G o (snd x).

Section Total.
  Context (data : list N) (Hwf : wf_bytes data).

  Lemma safe_overflow {B} (Q : B -> Prop) b k : safe Q (k tt) -> safe Q (bind (unless_overflow overflow b) k).
  Proof. intros H. unfold unless_overflow. destruct b; [exact H |]. destruct overflow as [[] | |] eqn:Eo; [exact H | exact I | exact Eo]. Qed.

  Lemma value_safe o n s : n <= 32 -> G o s -> safe (G2 o (fun v => v < 2 ^ n)) (bz_value data n s).
  Proof.
    intros Hn [Hg Ho]. destruct (bz_value_ok data n s Hwf Hn Hg) as (v & s' & k & E & Hg' & Hv & _ & _ & Hm & _). rewrite E.
    cbn [safe]. split; [exact Hv |]. split; [exact Hg' | cbn [snd]; lia].
  Qed.

  Lemma header_safe o s : G o s -> bz_offset s < len data ->
    safe (fun '(sig, c, origin, s') => G o s' /\ bz_offset s < bz_offset s') (bz_header data s).
  Proof.
    intros [Hg Ho] Hoff. unfold bz_header.
    destruct (bz_value_ok data 24 s Hwf ltac:(lia) Hg) as (v & s1 & k & E & Hg1 & Hv & _ & _ & Hm & Hst). rewrite E. cbn [bind].
    specialize (Hst ltac:(lia) Hoff).
    assert (G1 : G (bz_offset s1) s1) by (split; [exact Hg1 | lia]).
    eapply safe_bind; [apply (value_safe (bz_offset s1) 24 s1); [lia | exact G1] |]. intros [lower s2] [_ G2']. cbn [fst snd] in *. cbv zeta.
    destruct (_ =? 0x177245385090).
    - eapply safe_bind; [apply (value_safe (bz_offset s1) 32 s2); [lia | exact G2'] |]. intros [c s3] [_ [G3 O3]]. cbn [fst snd safe] in *. split; [split; [exact G3 | lia] | lia].
    - destruct (_ =? 0x314159265359); [| exact I].
      eapply safe_bind; [apply (value_safe (bz_offset s1) 32 s2); [lia | exact G2'] |]. intros [c s3] [_ G3]. cbn [fst snd] in *.
      eapply safe_bind; [apply (value_safe (bz_offset s1) 1 s3); [lia | exact G3] |]. intros [c' s4] [_ G4]. cbn [fst snd] in *.
      eapply safe_bind; [apply (value_safe (bz_offset s1) 24 s4); [lia | exact G4] |]. intros [c'' s5] [_ [G5 O5]]. cbn [fst snd safe] in *.
      split; [split; [exact G5 | lia] | lia].
  Qed.

  (** Symbol stack *)
  Definition stack_ok (stk : list N) : Prop := len stk = 256 /\ wf_bytes stk.
  Lemma level2_safe v g : g < 16 -> forall n mask i stk ix, i + N.of_nat n = 16 -> ix + N.of_nat n <= 256 -> stack_ok stk ->
    safe (fun '(stk', ix') => stack_ok stk' /\ ix' <= ix + N.of_nat n) (bz_level2 n v mask g i stk ix).
  Proof.
    intros Hg. induction n as [| n IH]; intros mask i stk ix Hi Hx Hs; cbn [bz_level2].
    - cbn [safe]. split; [exact Hs | lia].
    - apply (safe_bind (fun '(stk', ix') => stack_ok stk' /\ ix' <= ix + 1)).
      + destruct (negb _); [| cbn [safe]; split; [exact Hs | lia]]. destruct Hs as [Hl Hw].
        destruct (N.ltb_spec 256 ix); [lia |]. cbn [negb check bind].
        apply (safe_upd _ byte_ok); [lia | exact Hw | unfold byte_ok; lia |]. intros l' Hl' Hw'. cbn [safe].
        split; [split; [lia | exact Hw'] | lia].
      + intros [stk' ix'] [Hs' Hx']. eapply safe_impl; [| apply IH; [lia | lia | exact Hs']]. intros [s2 i2] [A1 A2]. split; [exact A1 | lia].
  Qed.
  Lemma level1_safe o v : forall n mask g stk ix s, g + N.of_nat n = 16 -> ix + 16 * N.of_nat n <= 256 -> stack_ok stk -> G o s ->
    safe (fun '(stk', ix', s') => stack_ok stk' /\ ix' <= 256 /\ G o s') (bz_level1 n data v mask g stk ix s).
  Proof.
    induction n as [| n IH]; intros mask g stk ix s Hg Hx Hs HG; cbn [bz_level1].
    - cbn [safe]. split; [exact Hs |]. split; [lia | exact HG].
    - apply (safe_bind (fun '(stk', ix', s') => stack_ok stk' /\ ix' <= ix + 16 /\ G o s')).
      + destruct (negb _); [| cbn [safe]; split; [exact Hs |]; split; [lia | exact HG]].
        eapply safe_bind; [apply (value_safe o 16 s); [lia | exact HG] |]. intros [v2 s2] [_ HG2]. cbn [fst snd] in *.
        eapply safe_bind; [apply (level2_safe v2 g ltac:(lia) 16 0x8000 0 stk ix); [reflexivity | lia | exact Hs] |].
        intros [stk' ix'] [Hs' Hx']. cbn [safe]. split; [exact Hs' |]. split; [lia | exact HG2].
      + intros [[stk' ix'] s'] [Hs' [Hx' HG']]. apply IH; auto; lia.
  Qed.
  Lemma symbol_stack_safe o stk s : stack_ok stk -> G o s ->
    safe (fun '(stk', n, s') => stack_ok stk' /\ 2 <= n <= 258 /\ G o s') (bz_symbol_stack data stk s).
  Proof.
    intros Hs HG. unfold bz_symbol_stack. eapply safe_bind; [apply (value_safe o 16 s); [lia | exact HG] |].
    intros [v s2] [_ HG2]. cbn [fst snd] in *.
    eapply safe_bind; [apply (level1_safe o v 16 0x8000 0 stk 0 s2); [reflexivity | lia | exact Hs | exact HG2] |].
    intros [[stk' ix'] s'] [Hs' [Hx' HG']]. cbn [safe]. split; [exact Hs' |]. split; [lia | exact HG'].
  Qed.

  (** Selectors *)
  Lemma unary_safe o : forall n t s, G o s -> safe (G2 o tr) (bz_unary n data t s).
  Proof.
    induction n as [| n IH]; intros t s HG; cbn [bz_unary]; [split; [exact I | exact HG] |].
    eapply safe_bind; [apply (value_safe o 1 s); [lia | exact HG] |]. intros [v s2] [_ HG2]. cbn [fst snd] in *.
    destruct (v =? 0); [split; [exact I | exact HG2] |]. now apply IH.
  Qed.
  Lemma shift_up_safe : forall i stk, N.of_nat i < len stk -> wf_bytes stk ->
    safe (fun stk' => len stk' = len stk /\ wf_bytes stk') (shift_up i stk).
  Proof.
    induction i as [| i IH]; intros stk Hi Hw; cbn [shift_up]; [split; auto |].
    apply (safe_idx _ byte_ok); [lia | exact Hw |]. intros v Hv.
    apply (safe_upd _ byte_ok); [lia | exact Hw | exact Hv |]. intros l' Hl' Hw'.
    eapply safe_impl; [| apply IH; [lia | exact Hw']]. intros l [A1 A2]. split; [lia | exact A2].
  Qed.
  Lemma to_front_safe stk i : i < len stk -> wf_bytes stk ->
    safe (fun '(v, stk') => byte_ok v /\ len stk' = len stk /\ wf_bytes stk') (to_front stk i).
  Proof.
    intros Hi Hw. unfold to_front. apply (safe_idx _ byte_ok); [exact Hi | exact Hw |]. intros v Hv.
    eapply safe_bind; [apply shift_up_safe; [lia | exact Hw] |]. intros l [Hl Hw'].
    apply (safe_upd _ byte_ok); [lia | exact Hw' | exact Hv |]. intros l' Hl' Hw''. cbn [safe]. split; [exact Hv |]. split; [lia | exact Hw''].
  Qed.
  Lemma selectors_loop_safe o trees : trees <= 7 -> forall n stk s, len stk = 7 -> wf_bytes stk -> G o s ->
    safe (G2 o (fun l => length l = n)) (bz_selectors_loop n data trees stk s).
  Proof.
    intros Ht. induction n as [| n IH]; intros stk s Hl Hw HG; cbn [bz_selectors_loop]; [split; [reflexivity | exact HG] |].
    eapply safe_bind; [apply (unary_safe o); exact HG |]. intros [t s2] [_ HG2]. cbn [fst snd] in *.
    apply safe_check. intros Hc. destruct (N.leb_spec trees t); [discriminate |].
    eapply safe_bind; [apply to_front_safe; [lia | exact Hw] |]. intros [v stk'] [_ [Hl' Hw']].
    eapply safe_bind; [apply (IH stk' s2); [lia | exact Hw' | exact HG2] |]. intros [l s3] [Hn HG3]. cbn [fst snd] in *.
    split; [cbn [fst length]; lia | exact HG3].
  Qed.
  Lemma selectors_safe o nsel trees old s : trees <= 7 -> nsel <= 32767 -> len old <= 32767 -> G o s ->
    safe (G2 o (fun l => len l <= 32767)) (bz_selectors data nsel trees old s).
  Proof.
    intros Ht Hn Ho HG. unfold bz_selectors.
    eapply safe_bind; [apply (selectors_loop_safe o trees Ht); [reflexivity | repeat constructor | exact HG] |].
    intros [l s2] [Hl HG2]. cbn [fst snd] in *. split; [| exact HG2]. cbn [fst]. rewrite len_app. unfold len in *. rewrite skipn_length. lia.
  Qed.
  Lemma selector_at_safe sel i : i <= 32767 -> safe tr (selector_at sel i).
  Proof.
    intros Hi. unfold selector_at. destruct (N.ltb_spec i (len sel)).
    - unfold idx. destruct (nth_error sel (N.to_nat i)) eqn:E; [exact I |]. apply nth_error_None in E. unfold len in H. lia.
    - destruct (N.ltb_spec i 32769); [exact I | lia].
  Qed.

  (** Trees *)
  Fixpoint trues (l : list bool) : nat := match l with [] => 0 | b :: l => (if b then 1 else 0) + trues l end.
  Lemma trues_app a b : trues (a ++ b) = (trues a + trues b)%nat.
  Proof. induction a as [| x a IH]; [reflexivity |]. cbn [app trues]. rewrite IH. lia. Qed.
  Lemma trues_false k : trues (repeat false k) = 0%nat.
  Proof. induction k; [reflexivity |]. cbn [repeat trues]. exact IHk. Qed.
  Lemma trues_le l : (trues l <= length l)%nat.
  Proof. induction l as [| b l IH]; [reflexivity |]. cbn [trues length]. destruct b; lia. Qed.
  Lemma bit_safe o s : G o s -> safe (fun '(v, s') => G o s' /\ trues (view data s) = ((if (v =? 0)%N then 0 else 1) + trues (view data s'))%nat) (bz_value data 1 s).
  Proof.
    intros [Hg Ho]. destruct (bz_value_ok data 1 s Hwf ltac:(lia) Hg) as (v & s' & k & E & Hg' & Hv & V & _ & Hm & _). rewrite E.
    cbn [safe]. split; [split; [exact Hg' | lia] |]. apply (f_equal trues) in V. rewrite !trues_app, trues_false in V.
    change (2 ^ 1) with 2 in Hv. assert (v = 0 \/ v = 1) as [-> | ->] by lia; [change (trues (bits_msb (N.to_nat 1) 0)) with 0%nat in V | change (trues (bits_msb (N.to_nat 1) 1)) with 1%nat in V]; cbn [N.eqb]; lia.
  Qed.
  Lemma code_size_safe o : forall fuel c s, c < 32 -> G o s -> (trues (view data s) < fuel)%nat ->
    safe (G2 o (fun c' => c' < 32)) (bz_code_size overflow fuel data c s).
  Proof.
    induction fuel as [| fuel IH]; intros c s Hc HG Hf; [lia |]. cbn [bz_code_size]. destruct (N.ltb_spec c 20); [| split; [exact Hc | exact HG]].
    eapply safe_bind; [apply (bit_safe o); exact HG |]. intros [v s2] [HG2 T2].
    destruct (v =? 0); [split; [exact Hc | exact HG2] |].
    eapply safe_bind; [apply (bit_safe o); exact HG2 |]. intros [v' s3] [HG3 T3].
    destruct (v' =? 0); [apply IH; [lia | exact HG3 | lia] |]. apply safe_overflow. apply IH; [lia | exact HG3 | lia].
  Qed.
  Lemma code_sizes_safe o : forall n c lg s, c < 32 -> lg < 32 -> G o s ->
    safe (fun '(cs, lg', s') => length cs = n /\ lg <= lg' < 32 /\ Forall (fun x => x <= lg') cs /\ G o s') (bz_code_sizes overflow n data c lg s).
  Proof.
    induction n as [| n IH]; intros c lg s Hc Hlg HG; cbn [bz_code_sizes].
    - cbn [safe length]. split; [reflexivity |]. split; [lia |]. split; [constructor | exact HG].
    - eapply safe_bind; [apply (code_size_safe o); [exact Hc | exact HG |] |].
      { pose proof (view_length data s (proj1 HG)). pose proof (trues_le (view data s)). lia. }
      intros [c' s2] [Hc' HG2]. cbn [fst snd] in *. apply safe_check. intros _.
      eapply safe_bind; [apply (IH c' (N.max c' lg) s2); [lia | lia | exact HG2] |].
      intros [[cs lg'] s3] (A1 & A2 & A3 & A4). cbn [safe length]. split; [lia |]. split; [lia |]. split; [constructor; [lia | exact A3] | exact A4].
  Qed.
  Lemma check_value_safe lg : lg < 32 -> forall cs v, Forall (fun x => x <= lg) cs -> safe tr (bz_check_value overflow lg cs v).
  Proof.
    intros Hlg. induction cs as [| c cs IH]; intros v Hf; [exact I |]. apply Forall_cons_iff in Hf. destruct Hf as [Hc Hf].
    cbn [bz_check_value]. unfold sub_chk. destruct (N.leb_spec c lg); [| lia]. cbn [bind]. unfold shl_chk.
    destruct (N.ltb_spec (lg - c) 32); [| lia]. cbn [bind]. apply safe_overflow. now apply IH.
  Qed.
  Definition tree_ok (n : N) (t : huffman_tree) : Prop := exists cs, len cs = n /\ tree_for cs 20 t.
  Lemma tree_safe o n s : 1 <= n <= 65535 -> G o s -> safe (G2 o (tree_ok n)) (bz_tree overflow data n s).
  Proof.
    intros Hn HG. unfold bz_tree. eapply safe_bind; [apply (value_safe o 5 s); [lia | exact HG] |]. intros [c s2] [Hc HG2]. cbn [fst snd] in *.
    change (2 ^ 5) with 32 in Hc. eapply safe_bind; [apply (code_sizes_safe o); [exact Hc | exact Hc | exact HG2] |].
    intros [[cs lg] s3] (A1 & A2 & A3 & A4). apply safe_check. intros _. unfold shl_chk at 1. destruct (N.ltb_spec lg 32); [| lia]. cbn [bind].
    eapply safe_bind; [apply check_value_safe; [lia | exact A3] |]. intros v _. apply safe_check. intros _.
    destruct (build_cases (huffman_new n 20) cs) as [(t & E & T & _) | (E & _)].
    - reflexivity.
    - cbn. lia.
    - unfold huffman_new. cbn [symbols]. unfold len. rewrite repeat_length. lia.
    - unfold len. lia.
    - rewrite E. cbn [bind safe]. split; [| exact A4]. exists cs. split; [unfold len; lia | exact T].
    - rewrite E. exact I.
  Qed.
  Lemma trees_safe o n : 1 <= n <= 65535 -> forall k s, G o s -> safe (G2 o (Forall (tree_ok n))) (bz_trees overflow k data n s).
  Proof.
    intros Hn. induction k as [| k IH]; intros s HG; cbn [bz_trees]; [split; [constructor | exact HG] |].
    eapply safe_bind; [apply (tree_safe o); [exact Hn | exact HG] |]. intros [t s2] [Ht HG2]. cbn [fst snd] in *.
    eapply safe_bind; [apply IH; exact HG2 |]. intros [ts s3] [Hts HG3]. cbn [fst snd] in *. split; [constructor; [exact Ht | exact Hts] | exact HG3].
  Qed.
  Lemma G_endless o : endless (bz_value data 1) (G o).
  Proof.
    intros s [Hg Ho]. destruct (bz_value_ok data 1 s Hwf ltac:(lia) Hg) as (v & s' & k & E & Hg' & Hv & _ & _ & Hm & _).
    change (2 ^ 1) with 2 in Hv. exists (N.odd v), s'. split; [| split; [exact Hg' | lia]]. rewrite E. do 2 f_equal.
    assert (v = 0 \/ v = 1) as [-> | ->] by lia; reflexivity.
  Qed.
  Lemma decode_safe o n t s : tree_ok n t -> G o s -> safe (G2 o (fun sym => sym < n)) (decode_symbol (bz_value data 1) t s).
  Proof.
    intros (cs & Hn & Ht) HG. destruct (decode_symbol_sound _ _ _ _ _ s (G_endless o) Ht HG) as [E | (sym & s' & E & [Hc _] & _ & HG')]; rewrite E; [exact I |].
    split; [cbn [fst]; lia | exact HG'].
  Qed.

  (** Block data *)
  Definition block_ok (b : block_state) : Prop := stack_ok (bl_stack b) /\ len (bl_out b) <= bzip2_block_size /\ wf_bytes (bl_out b).
  Lemma flush_safe sym b : block_ok b -> safe block_ok (bz_flush overflow sym b).
  Proof.
    intros Hb. pose proof Hb as ([Hl Hw] & Ho & Hwo). unfold bz_flush. destruct (_ && _); [| exact Hb]. apply safe_overflow.
    unfold sub_chk. destruct (N.leb_spec 1 (N.lor (2 ^ bl_run_symbols b) (bl_run_value b))) as [_ | Hz].
    2:{ assert (E : N.lor (2 ^ bl_run_symbols b) (bl_run_value b) = 0) by lia. apply N.lor_eq_0_iff in E. destruct E as [E _].
        pose proof (pow2_pos (bl_run_symbols b)). lia. }
    cbn [bind]. destruct (N.leb_spec (len (bl_out b)) bzip2_block_size); [| lia]. cbn [bind]. apply safe_check. intros Hc.
    destruct (N.ltb_spec (bzip2_block_size - len (bl_out b)) (N.lor (2 ^ bl_run_symbols b) (bl_run_value b) - 1)); [discriminate |].
    apply (safe_idx _ byte_ok); [lia | exact Hw |]. intros v Hv. cbn [safe]. split; [split; assumption |]. cbn [bl_out]. split.
    - rewrite len_app. unfold len at 2. rewrite repeat_length. lia.
    - apply wf_bytes_app. split; [exact Hwo |]. apply Forall_forall. intros x Hx. apply repeat_spec in Hx. now subst.
  Qed.
  Lemma symbol_safe eob sym b : eob <= 257 -> block_ok b -> safe block_ok (bz_symbol overflow eob sym b).
  Proof.
    intros He Hb. pose proof Hb as ([Hl Hw] & Ho & Hwo). unfold bz_symbol. destruct (_ || _) eqn:E01.
    - apply safe_overflow. cbn [safe]. exact Hb.
    - destruct (N.ltb_spec sym eob); [| exact I]. apply orb_false_iff in E01. destruct E01 as [E0 E1]. apply N.eqb_neq in E0, E1.
      eapply safe_bind; [apply to_front_safe; [lia | exact Hw] |]. intros [v stk'] (Hv & Hl' & Hw'). apply safe_check. intros Hc.
      destruct (N.leb_spec bzip2_block_size (len (bl_out b))); [discriminate |]. cbn [safe]. split; [split; [cbn [bl_stack]; lia | exact Hw'] |].
      cbn [bl_out]. split; [rewrite len_app; change (len [v]) with 1; lia |]. apply wf_bytes_app. split; [exact Hwo |]. constructor; [exact Hv | constructor].
  Qed.
  Lemma loop_safe o trees sel nsel eob : nsel <= 32767 -> eob <= 257 -> Forall (tree_ok (eob + 1)) trees ->
    forall fuel i ti b s, N.of_nat fuel + i = 50 * (nsel + 1) + 1 -> i < 50 * (nsel + 1) -> block_ok b -> G o s ->
    safe (G2 o block_ok) (bz_block_loop overflow fuel data trees sel nsel eob i ti b s).
  Proof.
    intros Hn He Ht. induction fuel as [| fuel IH]; intros i ti b s Hf Hi Hb HG; [lia |]. cbn [bz_block_loop].
    apply safe_check. intros Hc. destruct (N.leb_spec (len trees) ti); [discriminate |].
    apply (safe_idx _ (tree_ok (eob + 1))); [lia | exact Ht |]. intros t Htt.
    eapply safe_bind; [apply (decode_safe o (eob + 1)); [exact Htt | exact HG] |]. intros [sym s2] [Hsym HG2]. cbn [fst snd] in *.
    eapply safe_bind; [apply flush_safe; exact Hb |]. intros b2 Hb2. destruct (sym =? eob); [split; [exact Hb2 | exact HG2] |].
    eapply safe_bind; [apply symbol_safe; [exact He | exact Hb2] |]. intros b3 Hb3. cbv zeta.
    apply (safe_bind (fun _ => i + 1 < 50 * (nsel + 1))).
    - destruct (N.eqb_spec ((i + 1) mod 50) 0) as [Em | Em].
      + apply safe_check. intros Hc2. destruct (N.ltb_spec nsel ((i + 1) / 50)) as [| Hle]; [discriminate |].
        eapply safe_impl; [| apply selector_at_safe; lia]. intros _ _. pose proof (N.div_mod' (i + 1) 50). lia.
      + cbn [safe]. pose proof (N.div_mod' (i + 1) 50) as D. pose proof (N.mod_lt (i + 1) 50 ltac:(lia)) as M.
        destruct (N.lt_ge_cases (i + 1) (50 * (nsel + 1))) as [| Hge]; [assumption |]. exfalso.
        assert (E : i + 1 = 50 * (nsel + 1)) by lia. apply Em. rewrite E, N.mul_comm. apply N.mod_mul. lia.
    - intros ti' Hi'. apply IH; auto. lia.
  Qed.
  Lemma block_data_safe o trees sel nsel stk n s : nsel <= 32767 -> 1 <= n <= 258 -> Forall (tree_ok n) trees -> stack_ok stk -> G o s ->
    safe (fun '(out, stk', s') => len out <= bzip2_block_size /\ wf_bytes out /\ stack_ok stk' /\ G o s')
      (bz_block_data overflow data trees sel nsel stk n s).
  Proof.
    intros Hn Hs Ht Hstk HG. unfold bz_block_data, sub_chk. destruct (N.leb_spec 1 n); [| lia]. cbn [bind].
    eapply safe_bind; [apply selector_at_safe; lia |]. intros ti _.
    eapply safe_bind; [apply (loop_safe o trees sel nsel (n - 1)) |].
    - exact Hn.
    - lia.
    - replace (n - 1 + 1) with n by lia. exact Ht.
    - lia.
    - lia.
    - split; [exact Hstk |]. cbn [bl_out]. split; [cbn; lia | constructor].
    - exact HG.
    - intros [b s2] [(A1 & A2 & A3) HG2]. cbn [fst snd] in *. cbn [safe]. auto.
  Qed.

  (** Output *)
  Definition out_ok (size : N) (buf : list N) (off : N) : Prop := len buf = size /\ wf_bytes buf /\ off <= size.
  Lemma wf_firstn n l : wf_bytes l -> wf_bytes (firstn n l).
  Proof. intros H. rewrite <- (firstn_skipn n l) in H. apply wf_bytes_app in H. tauto. Qed.
  Lemma wf_skipn n l : wf_bytes l -> wf_bytes (skipn n l).
  Proof. intros H. rewrite <- (firstn_skipn n l) in H. apply wf_bytes_app in H. tauto. Qed.
  Lemma put_safe size v buf off lb num : byte_ok v -> byte_ok lb -> num <= 4 -> out_ok size buf off ->
    safe (fun '(buf', off', lb', num') => out_ok size buf' off' /\ byte_ok lb' /\ num' <= 4) (bz_put v buf off lb num).
  Proof.
    intros Hv Hlb Hnum (Hl & Hw & Ho). unfold bz_put. destruct (N.eqb_spec num 4) as [-> | Hne].
    - unfold sub_chk. destruct (N.leb_spec off (len buf)); [| lia]. cbn [bind]. apply safe_check. intros Hc.
      destruct (N.ltb_spec (len buf - off) v); [discriminate |]. unfold write_at.
      assert (Hr : len (repeat lb (N.to_nat v)) = v) by (unfold len; rewrite repeat_length; lia). rewrite Hr.
      destruct (N.leb_spec (off + v) (len buf)); [| lia]. cbn [bind safe]. split; [| split; [unfold byte_ok; lia | lia]].
      split; [| split; [| lia]].
      + rewrite !len_app, Hr. unfold len in *. rewrite firstn_length, skipn_length. lia.
      + apply wf_bytes_app. split; [now apply wf_firstn |]. apply wf_bytes_app. split; [| now apply wf_skipn].
        apply Forall_forall. intros x Hx. apply repeat_spec in Hx. now subst.
    - cbv zeta. apply safe_check. intros Hc. destruct (N.leb_spec (len buf) off); [discriminate |].
      apply (safe_upd _ byte_ok); [lia | exact Hw | exact Hv |]. intros l' Hl' Hw'. cbn [safe].
      split; [split; [lia | split; [exact Hw' | lia]] |]. split; [exact Hv |]. destruct (v =? lb); lia.
  Qed.
  Lemma sorted_positions_len l : wf_bytes l -> len (sorted_positions l) = len l.
  Proof.
    intros Hw. pose proof (half_sorted_below l [] 256) as H. rewrite app_nil_r in H. unfold below in H.
    assert (Ef : filter (fun x => x <? N.of_nat 256) l = l).
    { clear - Hw. induction l as [| x l IH]; [reflexivity |]. apply wf_bytes_cons in Hw. destruct Hw as [Hx Hw]. unfold byte_ok in Hx.
      cbn [filter]. destruct (N.ltb_spec x (N.of_nat 256)); [| lia]. f_equal. now apply IH. }
    rewrite Ef in H. rewrite <- H. unfold sorted_positions. f_equal. apply flat_map_ext_in. intros b _. unfold half_sorted.
    change (count_of b []) with 0. cbn [N.to_nat repeat]. now rewrite app_nil_r.
  Qed.
  Lemma permutation_safe l i : wf_bytes l -> 0 < len l -> i < bzip2_block_size -> safe (fun j => j < len l) (permutation_at (sorted_positions l) i).
  Proof.
    intros Hw Hl Hi. unfold permutation_at. destruct (N.ltb_spec i (len (sorted_positions l))).
    - unfold idx. destruct (nth_error (sorted_positions l) (N.to_nat i)) eqn:E; [| apply nth_error_None in E; unfold len in H; lia].
      cbn [safe]. apply nth_error_In in E. now apply sorted_positions_range.
    - destruct (N.ltb_spec i bzip2_block_size); [exact Hl | lia].
  Qed.
  Lemma output_safe size l : wf_bytes l -> len l <= bzip2_block_size -> forall n pv buf off lb num,
    (n <> 0%nat -> pv < len l) -> byte_ok lb -> num <= 4 -> out_ok size buf off ->
    safe (fun '(buf', off') => out_ok size buf' off') (bz_output n l (sorted_positions l) pv buf off lb num).
  Proof.
    intros Hw Hl. induction n as [| n IH]; intros pv buf off lb num Hpv Hlb Hnum Ho; [exact Ho |]. cbn [bz_output].
    specialize (Hpv ltac:(discriminate)). apply (safe_idx _ byte_ok); [exact Hpv | exact Hw |]. intros v Hv.
    eapply safe_bind; [apply (put_safe size); eassumption |]. intros [[[buf' off'] lb'] num'] (A1 & A2 & A3).
    eapply safe_bind; [apply permutation_safe; [exact Hw | lia | lia] |]. intros pv' Hpv'. apply IH; auto.
  Qed.
  Lemma reverse_bwt_safe size l origin buf off : wf_bytes l -> len l <= bzip2_block_size -> origin < bzip2_block_size -> out_ok size buf off ->
    safe (fun '(buf', off') => out_ok size buf' off') (bz_reverse_bwt l origin buf off).
  Proof.
    intros Hw Hl Hor Ho. unfold bz_reverse_bwt. pose proof (permutations_ok _ Hw) as E.
    apply bind_Ok_inv in E. destruct E as (d & E1 & E). rewrite E1. cbn [bind].
    apply bind_Ok_inv in E. destruct E as (d' & E2 & E). rewrite E2. cbn [bind]. rewrite E. cbn [bind].
    destruct l as [| x l].
    - apply (safe_bind tr); [| intros pv _; exact Ho]. unfold permutation_at.
      assert (E0 : len (sorted_positions []) = 0) by (apply sorted_positions_len; exact Hw). rewrite E0.
      destruct (N.ltb_spec origin 0); [lia |]. destruct (N.ltb_spec origin bzip2_block_size); [exact I | lia].
    - eapply safe_bind; [apply permutation_safe; [exact Hw | rewrite len_cons; lia | exact Hor] |]. intros pv Hpv.
      apply (output_safe size _ Hw Hl); auto; [unfold byte_ok; lia | lia].
  Qed.

  (** Streams *)
  Lemma block_safe o size origin buf off sel stk s : origin < bzip2_block_size -> out_ok size buf off -> len sel <= 32767 -> stack_ok stk -> G o s ->
    safe (fun '(buf', off', sel', stk', s') => out_ok size buf' off' /\ len sel' <= 32767 /\ stack_ok stk' /\ G o s')
      (bz_block overflow data origin buf off sel stk s).
  Proof.
    intros Hor Ho Hsel Hstk HG. unfold bz_block.
    eapply safe_bind; [apply (symbol_stack_safe o); [exact Hstk | exact HG] |]. intros [[stk1 n] s1] (S1 & N1 & G1).
    eapply safe_bind; [apply (value_safe o 3 s1); [lia | exact G1] |]. intros [nt s2] [Hnt G2']. cbn [fst snd] in *. change (2 ^ 3) with 8 in Hnt.
    eapply safe_bind; [apply (value_safe o 15 s2); [lia | exact G2'] |]. intros [ns s3] [Hns G3]. cbn [fst snd] in *. change (2 ^ 15) with 32768 in Hns.
    eapply safe_bind; [apply (selectors_safe o); [lia | lia | exact Hsel | exact G3] |]. intros [sel4 s4] [Hs4 G4]. cbn [fst snd] in *.
    eapply safe_bind; [apply (trees_safe o n ltac:(lia)); exact G4 |]. intros [ts s5] [Hts G5]. cbn [fst snd] in *.
    eapply safe_bind; [apply (block_data_safe o); [lia | lia | exact Hts | exact S1 | exact G5] |]. intros [[l stk6] s6] (L6 & W6 & S6 & G6).
    eapply safe_bind; [apply (reverse_bwt_safe size); [exact W6 | exact L6 | exact Hor | exact Ho] |]. intros [buf7 off7] O7.
    cbn [safe]. auto.
  Qed.
  Lemma blocks_safe size : forall fuel buf off sel stk ck s, len data - bz_offset s < N.of_nat fuel -> out_ok size buf off ->
    len sel <= 32767 -> stack_ok stk -> bz_good s ->
    safe (fun '(buf', off', _) => out_ok size buf' off') (bz_blocks overflow fuel data buf off sel stk ck s).
  Proof.
    induction fuel as [| fuel IH]; intros buf off sel stk ck s Hf Ho Hsel Hstk Hg; [lia |]. cbn [bz_blocks].
    destruct (N.ltb_spec (bz_offset s) (len data)) as [Hoff | Hoff]; [| exact Ho].
    eapply safe_bind; [apply (header_safe 0 s); [split; [exact Hg | lia] | exact Hoff] |]. intros [[[sig c] origin] s1] [[Hg1 _] Hlt].
    destruct (sig =? 0x177245385090); [exact Ho |]. apply safe_check. intros Hc.
    destruct (N.leb_spec bzip2_block_size origin); [discriminate |].
    eapply safe_bind; [apply (block_safe (bz_offset s1) size); [assumption | exact Ho | exact Hsel | exact Hstk | split; [exact Hg1 | lia]] |].
    intros [[[[buf' off'] sel'] stk'] s2] (A1 & A2 & A3 & A4 & A5). apply IH; auto. lia.
  Qed.
  Lemma decompress_safe buf : wf_bytes buf ->
    safe (fun '(buf', n) => len buf' = len buf /\ wf_bytes buf' /\ n <= len buf) (bzip2_decompress_with overflow data buf).
  Proof.
    intros Hb. unfold bzip2_decompress_with. apply safe_check. intros Hc. destruct (N.ltb_spec (len data) 14); [discriminate |].
    rewrite (slice_ok data 0 2) by lia. cbn [bind]. apply safe_check. intros _.
    apply (safe_idx _ tr); [lia | apply tr_all |]. intros level _. apply safe_check. intros _. unfold bz_bitstream.
    eapply safe_bind.
    - apply (blocks_safe (len buf)).
      + unfold len. lia.
      + split; [reflexivity |]. split; [exact Hb | lia].
      + cbn. lia.
      + split; [reflexivity |]. apply Forall_forall. intros x Hx. apply repeat_spec in Hx. subst. unfold byte_ok. lia.
      + repeat split; cbn; lia.
    - intros [[buf' off] ck] (A1 & A2 & A3). rewrite (slice_ok buf' 0 off) by lia. cbn [bind].
      destruct (crc_forward_ok 0x04c11db7 0 [firstn (N.to_nat (off - 0)) (skipn (N.to_nat 0) buf')] eq_refl eq_refl) as (c & c' & Ec & _).
      { constructor; [| constructor]. apply wf_firstn. now apply wf_skipn. }
      cbn [crc_updates] in Ec. apply bind_Ok_inv in Ec. destruct Ec as (c0 & Ec & E0). injection E0 as ->.
      rewrite Ec. cbn [bind]. apply safe_check. intros _. cbn [safe]. auto.
  Qed.
End Total.
End Safe.

Lemma bzip2_total overflow data buf : wf_bytes data -> wf_bytes buf ->
  match bzip2_decompress_with overflow data buf with
  | Ok (buf', n) => len buf' = len buf /\ wf_bytes buf' /\ n <= len buf
  | Err => True
  | Panic => overflow = Panic
  end.
Proof.
  intros Hd Hb. pose proof (decompress_safe overflow data Hd buf Hb) as H.
  destruct (bzip2_decompress_with overflow data buf) as [[? ?] | |]; exact H.
Qed.
