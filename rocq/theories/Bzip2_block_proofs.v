From Coq Require Import Permutation Sorted.
From Verif Require Import Base BaseLemmas Lz_model Huffman_model Huffman_spec Huffman_proofs Bzip2_model Bzip2_spec Bzip2_proofs.
Ltac Zify.zify_post_hook ::= idtac.

(** ** Huffman tables *)
Lemma view_length data s : bz_good s -> (length (view data s) <= 8 * length data + 7)%nat.
Proof.
  intros [H _]. unfold view. rewrite app_length, bits_msb_length. unfold bytes_bits.
  assert (Hf : forall l : list N, length (flat_map (bits_msb 8) l) = (8 * length l)%nat).
  { induction l as [| x l IH]; [reflexivity |]. cbn [flat_map]. rewrite app_length, bits_msb_length, IH. cbn [length]. lia. }
  rewrite Hf, skipn_length. lia.
Qed.

Lemma steps_range limit l m bits : steps limit l m bits -> 1 <= l <= limit /\ 1 <= m <= limit.
Proof. induction 1; tauto. Qed.
Lemma bz_code_size_ok overflow data limit l m bits : wf_bytes data -> limit <= 19 -> steps limit l m bits ->
  forall fuel s r, (length bits < 2 * fuel)%nat -> At data s (bits ++ r) ->
  exists s', bz_code_size overflow fuel data l s = Ok (m, s') /\ At data s' r.
Proof.
  intros Hwf Hlim Hst. induction Hst as [l Hl | l m bits Hl Hst IH | l m bits Hl Hst IH]; intros fuel s r Hf H;
    (destruct fuel as [| fuel]; [cbn [length] in Hf; lia |]); cbn [bz_code_size];
    (destruct (N.ltb_spec l 20); [| lia]); cbn [app] in H.
  - destruct (At_bit data false s r Hwf H) as (s1 & E1 & H1). cbn [N.b2n] in E1. rewrite E1. cbn [bind].
    change (0 =? 0) with true. eauto.
  - destruct (At_bit data true s _ Hwf H) as (s1 & E1 & H1). cbn [N.b2n] in E1. rewrite E1. cbn [bind].
    change (1 =? 0) with false. cbv iota.
    destruct (At_bit data false s1 _ Hwf H1) as (s2 & E2 & H2). cbn [N.b2n] in E2. rewrite E2. cbn [bind].
    change (0 =? 0) with true. cbv iota. apply IH; [cbn [length] in Hf; lia | exact H2].
  - destruct (At_bit data true s _ Hwf H) as (s1 & E1 & H1). cbn [N.b2n] in E1. rewrite E1. cbn [bind].
    change (1 =? 0) with false. cbv iota.
    destruct (At_bit data true s1 _ Hwf H1) as (s2 & E2 & H2). cbn [N.b2n] in E2. rewrite E2. cbn [bind].
    change (1 =? 0) with false. cbv iota. destruct (N.eqb_spec l 0); [lia |]. cbn [negb unless_overflow bind].
    apply IH; [cbn [length] in Hf; lia | exact H2].
Qed.

Lemma bz_code_sizes_ok overflow data limit : wf_bytes data -> limit <= 19 ->
  forall l lengths bits, lengths_bits limit l lengths bits ->
  forall largest s r, At data s (bits ++ r) ->
  exists lg s', bz_code_sizes overflow (length lengths) data l largest s = Ok (lengths, lg, s') /\ At data s' r /\
    largest <= lg /\ Forall (fun c => 1 <= c <= lg) lengths /\ (lg = largest \/ In lg lengths).
Proof.
  intros Hwf Hlim l lengths bits Hb. induction Hb as [l | l m lengths bits rest Hst Hb IH]; intros largest s r H.
  - exists largest, s. split; [reflexivity |]. split; [exact H |]. split; [lia |]. split; [constructor | now left].
  - rewrite <- app_assoc in H. cbn [length bz_code_sizes].
    destruct (bz_code_size_ok overflow data limit l m bits Hwf Hlim Hst (S (8 * length data + 8)) s (rest ++ r)) as (s1 & E1 & H1).
    { pose proof (view_length data s (proj1 H)) as Hv. rewrite (proj2 H), app_length in Hv. lia. }
    { exact H. }
    rewrite E1. cbn [bind]. pose proof (steps_range _ _ _ _ Hst) as [Hl Hm].
    destruct (N.leb_spec 20 m); [lia |]. cbn [negb check bind].
    destruct (IH (N.max m largest) s1 r H1) as (lg & s2 & E2 & H2 & G & F & I). rewrite E2. cbn [bind].
    exists lg, s2. split; [reflexivity |]. split; [exact H2 |]. split; [lia |]. split; [constructor; [lia | exact F] |].
    destruct I as [-> | I]; [| right; now right].
    destruct (N.max_spec m largest) as [[_ ->] | [_ ->]]; [now left | right; now left].
Qed.
Lemma lengths_range limit l lengths bits : lengths_bits limit l lengths bits ->
  Forall (fun c => 1 <= c <= limit) lengths /\ (lengths <> [] -> l <= limit).
Proof.
  induction 1 as [l | l m lengths bits rest Hst Hb IH]; [split; [constructor | congruence] |].
  pose proof (steps_range _ _ _ _ Hst). split; [constructor; tauto | intros _; lia].
Qed.

Lemma kraft_scale largest cs : largest <= 20 -> Forall (fun c => 1 <= c <= largest) cs ->
  kraft 20 cs = 2 ^ (20 - largest) * kraft largest cs.
Proof.
  intros Hl. induction cs as [| c cs IH]; intros Hf; [cbn; lia |]. apply Forall_cons_iff in Hf. destruct Hf as [Hc Hf].
  unfold kraft in *. cbn [fold_right]. destruct (N.eqb_spec c 0); [lia |]. rewrite IH by assumption.
  rewrite N.mul_add_distr_l, <- N.pow_add_r. f_equal. f_equal. lia.
Qed.
Lemma bz_check_value_ok overflow largest cs : largest <= 31 -> forall v, Forall (fun c => 1 <= c <= largest) cs ->
  kraft largest cs <= v -> bz_check_value overflow largest cs v = Ok (v - kraft largest cs).
Proof.
  intros Hl. induction cs as [| c cs IH]; intros v Hf Hv; [cbn; f_equal; lia |].
  apply Forall_cons_iff in Hf. destruct Hf as [Hc Hf]. cbn [bz_check_value].
  unfold kraft in *. cbn [fold_right] in *. destruct (N.eqb_spec c 0); [lia |].
  unfold sub_chk. destruct (N.leb_spec c largest); [| lia]. cbn [bind]. unfold shl_chk.
  destruct (N.ltb_spec (largest - c) 32); [| lia]. cbn [bind]. rewrite N.shiftl_1_l.
  rewrite N.mod_small by (apply N.pow_lt_mono_r; lia).
  destruct (N.leb_spec (2 ^ (largest - c)) v) as [_ | Hx]; [| lia]. cbn [unless_overflow bind].
  rewrite IH by (auto; lia). f_equal. lia.
Qed.

Lemma bz_tree_ok overflow data limit t bits s r : wf_bytes data -> limit <= 19 -> table_bits limit t bits ->
  1 <= len t <= 65535 -> At data s (bits ++ r) ->
  exists tree s', bz_tree overflow data (len t) s = Ok (tree, s') /\ tree_for t 20 tree /\ At data s' r.
Proof.
  intros Hwf Hlim (start & rest & -> & Hs & Hb & Hk) Ht H. rewrite <- app_assoc in H. unfold bz_tree.
  destruct (At_value data 5 start s _ Hwf ltac:(lia) Hs H) as (s1 & E1 & H1). change (N.of_nat 5) with 5 in E1.
  rewrite E1. cbn [bind].
  replace (N.to_nat (len t)) with (length t) by (unfold len; lia).
  destruct (bz_code_sizes_ok overflow data limit Hwf Hlim _ _ _ Hb start s1 r H1) as (lg & s2 & E2 & H2 & G & F & I).
  rewrite E2. cbn [bind]. pose proof (lengths_range _ _ _ _ Hb) as [R1 R2].
  assert (Hne : t <> []) by (intros ->; cbn in Ht; lia). specialize (R2 Hne).
  assert (Hlg : lg <= 19). { destruct I as [-> | I]; [lia |]. rewrite Forall_forall in R1. specialize (R1 lg I). lia. }
  destruct (N.ltb_spec 32 lg); [lia |]. cbn [negb check bind]. unfold shl_chk at 1. destruct (N.ltb_spec lg 32); [| lia].
  cbn [bind]. rewrite N.shiftl_1_l, N.mod_small by (apply N.pow_lt_mono_r; lia).
  assert (Hkl : kraft lg t = 2 ^ lg).
  { unfold complete in Hk. rewrite (kraft_scale lg) in Hk by (auto; lia).
    apply (N.mul_cancel_l _ _ (2 ^ (20 - lg))); [apply N.pow_nonzero; lia |].
    rewrite Hk, <- N.pow_add_r. f_equal. lia. }
  rewrite bz_check_value_ok by (auto; lia). cbn [bind]. rewrite Hkl, N.sub_diag. change (0 =? 0) with true. cbn [check bind].
  assert (H20 : Forall (fun x => x <= 20) t). { eapply Forall_impl; [| exact F]. intros x Hx. cbv beta in Hx. lia. }
  destruct (build_cases (huffman_new (len t) 20) t) as [(tree & E & T & _) | (E & Bad)].
  - reflexivity.
  - cbn. lia.
  - unfold huffman_new. cbn [symbols]. unfold len. rewrite repeat_length. lia.
  - lia.
  - rewrite E. cbn [bind]. exists tree, s2. split; [reflexivity |]. split; [exact T | exact H2].
  - exfalso. cbn [largest_code_size huffman_new] in Bad. destruct Bad as [Bad | [Bad | (j & Hj & Bad)]].
    + now apply Bad.
    + destruct t as [| c t]; [congruence |]. apply Forall_cons_iff in F. destruct F as [Fc _].
      rewrite count_of_cons in Bad. destruct (N.eqb_spec c 0); [lia |].
      assert (count_of 0 t <= len t) by (unfold count_of; apply filter_le).
      rewrite len_cons in Bad. lia.
    + pose proof (used_mono t j (N.to_nat 20 - j)) as Hm. replace (j + (N.to_nat 20 - j))%nat with (N.to_nat 20) in Hm by lia.
      rewrite used_is_kraft in Hm by exact H20. unfold complete in Hk. rewrite Hk in Hm.
      apply (N.mul_lt_mono_pos_r (2 ^ N.of_nat (N.to_nat 20 - j))) in Bad; [| apply N.neq_0_lt_0, N.pow_nonzero; lia].
      rewrite <- N.pow_add_r in Bad. replace (N.of_nat j + N.of_nat (N.to_nat 20 - j)) with 20 in Bad by lia. lia.
Qed.
Lemma bz_trees_ok overflow data limit n : wf_bytes data -> limit <= 19 -> 1 <= n <= 65535 ->
  forall tables bits, Forall2 (table_bits limit) tables bits -> Forall (fun t => len t = n) tables ->
  forall s r, At data s (concat bits ++ r) ->
  exists trees s', bz_trees overflow (length tables) data n s = Ok (trees, s') /\
    Forall2 (fun t tree => tree_for t 20 tree) tables trees /\ At data s' r.
Proof.
  intros Hwf Hlim Hn tables bits H2. induction H2 as [| t b tables bits Hb H2 IH]; intros Hf s r H.
  - exists [], s. auto.
  - apply Forall_cons_iff in Hf. destruct Hf as [Ht Hf]. cbn [concat] in H. rewrite <- app_assoc in H.
    cbn [length bz_trees].
    destruct (bz_tree_ok overflow data limit t b s _ Hwf Hlim Hb ltac:(lia) H) as (tree & s1 & E1 & T & H1).
    rewrite Ht in E1. rewrite E1. cbn [bind]. destruct (IH Hf s1 r H1) as (trees & s2 & E2 & F & H3).
    rewrite E2. cbn [bind]. exists (tree :: trees), s2. auto.
Qed.

(** ** The symbols of a block *)
Fixpoint digits_value (ds : list N) : N :=
  match ds with [] => 0 | d :: ds => d + 2 * digits_value ds end.
Lemma digits_value_lt ds : Forall (fun s => s < 2) ds -> digits_value ds < 2 ^ len ds.
Proof.
  induction ds as [| d ds IH]; intros H; [cbn; lia |]. apply Forall_cons_iff in H. destruct H as [Hd H].
  specialize (IH H). replace (len (d :: ds)) with (N.succ (len ds)) by (rewrite len_cons; lia). rewrite N.pow_succ_r'. cbn [digits_value]. lia.
Qed.
Lemma run_length_value ds : run_length ds + 1 = 2 ^ len ds + digits_value ds.
Proof.
  induction ds as [| d ds IH]; [reflexivity |]. cbn [run_length digits_value].
  replace (len (d :: ds)) with (N.succ (len ds)) by (rewrite len_cons; lia). rewrite N.pow_succ_r'. lia.
Qed.

Lemma selector_at_ok sel old j : j < len sel -> selector_at (sel ++ old) j = Ok (nth (N.to_nat j) sel 0).
Proof.
  intros H. unfold selector_at. destruct (N.ltb_spec j (len (sel ++ old))) as [_ | Hx]; [| rewrite len_app in Hx; lia].
  unfold idx. rewrite nth_error_app1 by (unfold len in H; lia).
  rewrite (nth_error_nth' sel 0) by (unfold len in H; lia). reflexivity.
Qed.
Lemma idx_head (x : N) l : idx (x :: l) 0 = Ok x.
Proof. reflexivity. Qed.

Lemma bz_flush_ok overflow sym stk out rs rv v : 1 < sym -> rs < 64 -> rv < 2 ^ rs -> idx stk 0 = Ok v -> len out <= bzip2_block_size ->
  bz_flush overflow sym {| bl_stack := stk; bl_out := out; bl_run_symbols := rs; bl_run_value := rv |} =
  if len out + (2 ^ rs + rv - 1) <=? bzip2_block_size
  then Ok {| bl_stack := stk; bl_out := out ++ repeat v (N.to_nat (2 ^ rs + rv - 1)); bl_run_symbols := 0; bl_run_value := 0 |}
  else Err.
Proof.
  intros Hs Hrs Hrv Hv Ho. unfold bz_flush. cbn [bl_stack bl_out bl_run_symbols bl_run_value].
  destruct (N.ltb_spec 1 sym); [| lia]. rewrite andb_true_r. destruct (N.eqb_spec rs 0) as [-> | Hne]; cbn [negb].
  - change (2 ^ 0) with 1 in *. replace rv with 0 by lia. replace (1 + 0 - 1) with 0 by lia. rewrite N.add_0_r.
    destruct (N.leb_spec (len out) bzip2_block_size); [| lia]. cbn [N.to_nat repeat]. now rewrite app_nil_r.
  - destruct (N.ltb_spec rs 64); [| lia]. cbn [unless_overflow bind].
    assert (El : N.lor (2 ^ rs) rv = 2 ^ rs + rv).
    { rewrite <- (N.mul_1_l (2 ^ rs)) at 2. rewrite <- lor_add by exact Hrv. now rewrite N.shiftl_1_l. }
    rewrite El. pose proof (pow2_pos rs). unfold sub_chk. destruct (N.leb_spec 1 (2 ^ rs + rv)); [| lia]. cbn [bind].
    destruct (N.leb_spec (len out) bzip2_block_size); [| lia]. cbn [bind].
    destruct (N.leb_spec (len out + (2 ^ rs + rv - 1)) bzip2_block_size) as [Hle | Hgt];
      destruct (N.ltb_spec (bzip2_block_size - len out) (2 ^ rs + rv - 1)) as [Hlt | Hge]; try lia; cbn [negb check bind]; [| reflexivity].
    rewrite Hv. reflexivity.
Qed.
Lemma bz_flush_small overflow sym b : sym <= 1 -> bz_flush overflow sym b = Ok b.
Proof. intros H. unfold bz_flush. destruct (N.ltb_spec 1 sym); [lia |]. now rewrite andb_false_r. Qed.

Lemma mtf_zeros l : forall n L rest, l <> [] -> NoDup l -> Forall (fun x => In x l) L -> mtf l L = repeat 0 n ++ rest ->
  exists L', L = repeat (hd 0 l) n ++ L' /\ mtf l L' = rest.
Proof.
  intros n L rest Hne Hnd. revert L rest. induction n as [| n IH]; intros L rest Hf E; [exists L; auto |].
  destruct l as [| y l]; [congruence |]. destruct L as [| x L]; [discriminate |]. cbn [mtf repeat app] in E.
  pose proof (f_equal (hd 1) E) as E1. pose proof (f_equal (@tl N) E) as E2. cbn [hd tl] in E1, E2.
  cbn [index_of] in E1. destruct (N.eqb_spec x y) as [-> | Hxy]; [| lia].
  apply Forall_cons_iff in Hf. destruct Hf as [_ Hf].
  assert (Ef : front y (y :: l) = y :: l).
  { unfold front. f_equal. cbn [filter]. rewrite N.eqb_refl. cbn [negb]. apply filter_out. now inversion Hnd. }
  rewrite Ef in E2. destruct (IH L rest Hf E2) as (L' & -> & E3). exists L'. split; [reflexivity | exact E3].
Qed.

Lemma Forall2_len {A B} (P : A -> B -> Prop) l m : Forall2 P l m -> length l = length m.
Proof. induction 1; cbn [length]; congruence. Qed.

Section BlockLoop.
  Context (overflow : res unit) (data : list N) (tables : list (list N)) (trees : list huffman_tree)
    (sel old : list N) (eob : N).
  Context (Hwf : wf_bytes data) (Htrees : Forall2 (fun t tree => tree_for t 20 tree) tables trees)
    (Hsel : Forall (fun i => i < len tables) sel)
    (Hlen : Forall (fun t => len t = eob + 1 /\ Forall (fun c => 1 <= c) t) tables).
  Definition tab (i : N) : list N := nth (N.to_nat (nth (N.to_nat (i / 50)) sel 0)) tables [].
  Definition tix (i : N) : N := nth (N.to_nat (i / 50)) sel 0.
  Definition the_loop (fuel : nat) (i ti : N) (b : block_state) (s : bz_stream) :=
    bz_block_loop overflow fuel data trees (sel ++ old) (len sel) eob i ti b s.

  Lemma tab_ok i : i < 50 * len sel -> exists tree, tix i < len trees /\ idx trees (tix i) = Ok tree /\ tree_for (tab i) 20 tree /\
    len (tab i) = eob + 1 /\ Forall (fun c => 1 <= c) (tab i).
  Proof.
    intros Hi. assert (Hj : i / 50 < len sel) by (apply N.div_lt_upper_bound; lia).
    assert (Ht : tix i < len tables).
    { unfold tix. rewrite Forall_forall in Hsel. apply Hsel. apply nth_In. unfold len in Hj. lia. }
    assert (Hl : length tables = length trees) by (eapply Forall2_len; exact Htrees).
    unfold tab. fold (tix i).
    assert (Hg : forall n (ts : list (list N)) (rs : list huffman_tree), Forall2 (fun t tree => tree_for t 20 tree) ts rs -> (n < length ts)%nat ->
      exists tree, nth_error rs n = Some tree /\ tree_for (nth n ts []) 20 tree).
    { intros n ts rs H2. revert n. induction H2 as [| t r ts rs Ht2 H2 IH]; intros n Hn; [cbn in Hn; lia |].
      destruct n; [exists r; auto |]. cbn [length] in Hn. apply IH. lia. }
    destruct (Hg (N.to_nat (tix i)) tables trees Htrees) as (tree & En & Tf); [unfold len in Ht; lia |].
    exists tree. split; [unfold len in *; lia |]. split; [unfold idx; now rewrite En |]. split; [exact Tf |].
    rewrite Forall_forall in Hlen. apply Hlen. apply nth_In. unfold len in Ht. lia.
  Qed.
  Lemma tix_next i : i + 1 < 50 * len sel ->
    (if (i + 1) mod 50 =? 0 then
       check (negb (len sel <? (i + 1) / 50)) ;;; selector_at (sel ++ old) ((i + 1) / 50)
     else Ok (tix i)) = Ok (tix (i + 1)).
  Proof.
    intros Hi. assert (Hj : (i + 1) / 50 < len sel) by (apply N.div_lt_upper_bound; lia).
    destruct (N.eqb_spec ((i + 1) mod 50) 0) as [E | E].
    - destruct (N.ltb_spec (len sel) ((i + 1) / 50)); [lia |]. cbn [negb check bind]. rewrite selector_at_ok by exact Hj. reflexivity.
    - unfold tix. do 3 f_equal. pose proof (N.div_mod' (i + 1) 50) as D1. pose proof (N.div_mod' i 50) as D2.
      pose proof (N.mod_lt (i + 1) 50 ltac:(lia)). pose proof (N.mod_lt i 50 ltac:(lia)). clear - E D1 D2 H H0.
      generalize dependent ((i + 1) mod 50). generalize dependent (i mod 50). generalize dependent (i / 50). generalize dependent ((i + 1) / 50).
      intros. f_equal. lia.
  Qed.
  Lemma loop_step fuel i b s sym r : i < 50 * len sel -> sym <= eob ->
    At data s (code_word (tab i) sym ++ r) ->
    exists s', At data s' r /\
      the_loop (S fuel) i (tix i) b s =
      (b <- bz_flush overflow sym b ;;
       if sym =? eob then Ok (b, s')
       else
         b <- bz_symbol overflow eob sym b ;;
         ti <- (if (i + 1) mod 50 =? 0 then
                  check (negb (len sel <? (i + 1) / 50)) ;;; selector_at (sel ++ old) ((i + 1) / 50)
                else Ok (tix i)) ;;
         the_loop fuel (i + 1) ti b s').
  Proof.
    intros Hi Hs H. destruct (tab_ok i Hi) as (tree & Hlt & Ei & Tf & Hl & Hf).
    destruct (At_yields data _ Hwf s r H) as (s' & Y & H'). exists s'. split; [exact H' |].
    unfold the_loop at 1. cbn [bz_block_loop]. destruct (N.leb_spec (len trees) (tix i)); [lia |]. cbn [negb check bind].
    rewrite Ei. cbn [bind]. rewrite (decode_symbol_word (bz_value data 1) _ 20 tree sym s s' Tf); [reflexivity | | exact Y].
    split; [lia |]. unfold length_of.
    rewrite Forall_forall in Hf. assert (1 <= nth (N.to_nat sym) (tab i) 0); [| lia]. apply Hf, nth_In. unfold len in Hl. lia.
  Qed.

  Lemma loop_digits ds : Forall (fun s => s < 2) ds -> 2 <= eob -> forall fuel i stk out rs rv s rest r,
    i + len ds < 50 * len sel -> rs + len ds <= 64 -> rv < 2 ^ rs ->
    At data s (symbols_bits tables sel i (ds ++ rest) ++ r) ->
    exists s', At data s' (symbols_bits tables sel (i + len ds) rest ++ r) /\
      the_loop (length ds + fuel) i (tix i) {| bl_stack := stk; bl_out := out; bl_run_symbols := rs; bl_run_value := rv |} s =
      the_loop fuel (i + len ds) (tix (i + len ds))
        {| bl_stack := stk; bl_out := out; bl_run_symbols := rs + len ds; bl_run_value := rv + 2 ^ rs * digits_value ds |} s'.
  Proof.
    intros Hd He. induction ds as [| d ds IH]; intros fuel i stk out rs rv s rest r Hi Hrs Hrv H.
    - exists s. rewrite len_nil in *. cbn [digits_value length Nat.add]. rewrite N.mul_0_r, !N.add_0_r. auto.
    - apply Forall_cons_iff in Hd. destruct Hd as [Hd1 Hd]. rewrite len_cons in *. cbn [app symbols_bits] in H.
      rewrite <- app_assoc in H. fold (tab i) in H.
      destruct (loop_step (length ds + fuel) i {| bl_stack := stk; bl_out := out; bl_run_symbols := rs; bl_run_value := rv |} s d _ ltac:(lia) ltac:(lia) H) as (s1 & H1 & E1).
      cbn [length Nat.add]. rewrite E1. rewrite bz_flush_small by lia. cbn [bind].
      destruct (N.eqb_spec d eob); [lia |]. unfold bz_symbol.
      assert (Ed : (d =? 0) || (d =? 1) = true) by (destruct (N.eqb_spec d 0), (N.eqb_spec d 1); cbn; lia || reflexivity).
      rewrite Ed. cbn [bl_stack bl_out bl_run_symbols bl_run_value]. destruct (N.ltb_spec rs 64); [| lia]. cbn [unless_overflow bind].
      rewrite tix_next by lia. cbn [bind].
      assert (Ev : N.lor rv (N.shiftl d rs mod two64) = rv + 2 ^ rs * d).
      { rewrite N.mod_small.
        - rewrite N.lor_comm, lor_add by exact Hrv. lia.
        - rewrite N.shiftl_mul_pow2. change two64 with (2 ^ 64).
          assert (2 ^ rs <= 2 ^ 63) by (apply N.pow_le_mono_r; lia). change (2 ^ 64) with (2 * 2 ^ 63).
          clear - Hd1 H2. nia. }
      rewrite Ev.
      destruct (IH Hd fuel (i + 1) stk out (rs + 1) (rv + 2 ^ rs * d) s1 rest r) as (s' & H' & E'); try lia.
      + rewrite N.add_1_r, N.pow_succ_r'. clear - Hrv Hd1. nia.
      + exact H1.
      + replace (i + (len ds + 1)) with (i + 1 + len ds) by lia. exists s'. split; [exact H' |]. rewrite E'.
        unfold the_loop. do 2 f_equal; [lia |]. cbn [digits_value]. rewrite (N.add_1_r rs), N.pow_succ_r'. clear. nia.
  Qed.

  Definition loop_result (total : list N) (r : list bool) (o : res (block_state * bz_stream)) : Prop :=
    if len total <=? bzip2_block_size
    then exists stk s', At data s' r /\ len stk = 256 /\
        o = Ok ({| bl_stack := stk; bl_out := total; bl_run_symbols := 0; bl_run_value := 0 |}, s')
    else o = Err.

  Lemma loop_ok I syms : rle2 I syms -> 2 <= eob -> forall fuel l t L i out rs rv s r,
    mtf l L = I -> NoDup l -> Forall (fun x => In x l) L -> len l + 1 = eob -> len (l ++ t) = 256 ->
    rs < 64 -> rv < 2 ^ rs -> (rs <> 0 -> hd 1 I <> 0) ->
    len out <= bzip2_block_size -> len L < 2 ^ 40 ->
    i + len syms < 50 * len sel -> (length syms < fuel)%nat ->
    At data s (symbols_bits tables sel i (syms ++ [eob]) ++ r) ->
    loop_result (out ++ repeat (hd 0 l) (N.to_nat (2 ^ rs + rv - 1)) ++ L) r
      (the_loop fuel i (tix i) {| bl_stack := l ++ t; bl_out := out; bl_run_symbols := rs; bl_run_value := rv |} s).
  Proof.
    intros Hz He. induction Hz as [| digits rest symbols Hne Hd Hhd Hz IH | j rest symbols Hj Hz IH];
      intros fuel l t L i out rs rv s r Em Hnd HL Hl Ht Hrs Hrv Hp Ho Hb Hi Hf H.
    - destruct L; [| discriminate]. rewrite app_nil_r. cbn [app symbols_bits] in H. rewrite app_nil_r in H. fold (tab i) in H.
      rewrite len_nil in Hi. destruct fuel as [| fuel]; [cbn in Hf; lia |].
      destruct (loop_step fuel i {| bl_stack := l ++ t; bl_out := out; bl_run_symbols := rs; bl_run_value := rv |} s eob r ltac:(lia) ltac:(lia) H) as (s1 & H1 & E1).
      rewrite E1. destruct l as [| x l]; [cbn in Hl; lia |].
      rewrite (bz_flush_ok overflow eob _ out rs rv x) by (auto; lia). unfold loop_result.
      rewrite len_app. unfold len at 2. rewrite repeat_length, N2Nat.id. cbn [hd].
      destruct (N.leb_spec (len out + (2 ^ rs + rv - 1)) bzip2_block_size); cbn [bind]; [| reflexivity].
      rewrite N.eqb_refl. eexists _, s1. split; [exact H1 |]. split; [exact Ht | reflexivity].
    - (* a run *)
      assert (Hrun : 1 <= run_length digits). { destruct digits as [| d ds]; [congruence |]. cbn [run_length]. lia. }
      assert (rs = 0) as ->.
      { destruct (N.eq_dec rs 0) as [-> | Hr]; [reflexivity |]. exfalso. apply (Hp Hr).
        replace (N.to_nat (run_length digits)) with (S (N.to_nat (run_length digits) - 1)) by lia. reflexivity. }
      change (2 ^ 0) with 1 in *. replace rv with 0 in * by lia. replace (1 + 0 - 1) with 0 by lia. cbn [N.to_nat repeat app].
      assert (Hlne : l <> []) by (intros ->; cbn in Hl; lia).
      destruct (mtf_zeros l _ L rest Hlne Hnd HL Em) as (L' & -> & Em').
      pose proof (run_length_value digits) as Hrl. pose proof (digits_value_lt digits Hd) as Hdv.
      assert (Hk : len digits <= 40).
      { rewrite len_app in Hb. unfold len in Hb at 1. rewrite repeat_length, N2Nat.id in Hb.
        destruct (N.le_gt_cases (len digits) 40) as [| Hgt]; [assumption |]. exfalso.
        assert (2 ^ 41 <= 2 ^ len digits) by (apply N.pow_le_mono_r; lia). change (2 ^ 41) with (2 * 2 ^ 40) in *. lia. }
      rewrite <- app_assoc in H. rewrite len_app in Hi. rewrite app_length in Hf.
      destruct (loop_digits digits Hd He (fuel - length digits) i (l ++ t) out 0 0 s _ r ltac:(lia) ltac:(lia) ltac:(cbn; lia) H) as (s1 & H1 & E1).
      replace (length digits + (fuel - length digits))%nat with fuel in E1 by lia. rewrite E1, !N.add_0_l.
      change (2 ^ 0) with 1. rewrite N.mul_1_l.
      replace (run_length digits) with (2 ^ len digits + digits_value digits - 1) by lia.
      rewrite <- (N.add_0_l (len digits)) at 1. rewrite N.add_0_l.
      apply IH; auto; try lia.
      + apply Forall_app in HL. tauto.
      + rewrite len_app in Hb. lia.
    - (* another index *)
      destruct L as [| x L]; [discriminate |]. cbn [mtf] in Em. injection Em as Ej Em.
      apply Forall_cons_iff in HL. destruct HL as [Hx HL]. pose proof (index_lt x l Hx) as Hjl.
      cbn [app symbols_bits] in H. rewrite <- app_assoc in H. fold (tab i) in H.
      rewrite len_cons in Hi, Hb. destruct fuel as [| fuel]; [lia |]. cbn [length] in Hf.
      destruct (loop_step fuel i {| bl_stack := l ++ t; bl_out := out; bl_run_symbols := rs; bl_run_value := rv |} s (j + 1) _ ltac:(lia) ltac:(lia) H) as (s1 & H1 & E1).
      rewrite E1. assert (Hh : idx (l ++ t) 0 = Ok (hd 0 l)) by (destruct l as [| y l]; [destruct Hx | reflexivity]).
      rewrite (bz_flush_ok overflow (j + 1) _ out rs rv _ ltac:(lia) Hrs Hrv Hh Ho).
      set (run := 2 ^ rs + rv - 1) in *.
      destruct (N.leb_spec (len out + run) bzip2_block_size) as [Hle | Hgt]; cbn [bind].
      + destruct (N.eqb_spec (j + 1) eob); [lia |]. unfold bz_symbol.
        destruct (N.eqb_spec (j + 1) 0); [lia |]. destruct (N.eqb_spec (j + 1) 1); [lia |]. cbn [orb].
        destruct (N.ltb_spec (j + 1) eob); [| lia]. cbn [bl_stack bl_out bl_run_symbols bl_run_value].
        rewrite N.add_sub, <- Ej, to_front_ok by auto. cbn [bind].
        assert (Hlr : len (out ++ repeat (hd 0 l) (N.to_nat run)) = len out + run)
          by (rewrite len_app; unfold len at 2; now rewrite repeat_length, N2Nat.id).
        rewrite Hlr. destruct (N.leb_spec bzip2_block_size (len out + run)) as [Hfull | Hroom]; cbn [negb check bind].
        * unfold loop_result. rewrite app_assoc, len_app, Hlr, len_cons.
          destruct (N.leb_spec (len out + run + (len L + 1)) bzip2_block_size); [lia | reflexivity].
        * rewrite tix_next by lia. cbn [bind].
          specialize (IH fuel (front x l) t L (i + 1) ((out ++ repeat (hd 0 l) (N.to_nat run)) ++ [x]) 0 0 s1 r).
          change (2 ^ 0 + 0 - 1) with 0 in IH. cbn [N.to_nat repeat app] in IH.
          replace (out ++ repeat (hd 0 l) (N.to_nat run) ++ x :: L) with (((out ++ repeat (hd 0 l) (N.to_nat run)) ++ [x]) ++ L)
            by (rewrite <- !app_assoc; reflexivity).
          apply IH; auto; try lia.
          -- now apply front_nodup.
          -- eapply Forall_impl; [| exact HL]. intros y. apply front_in.
          -- rewrite front_len by auto. exact Hl.
          -- rewrite len_app, front_len by auto. rewrite len_app in Ht. exact Ht.
          -- rewrite len_app, Hlr. change (len [x]) with 1. lia.
      + unfold loop_result. rewrite !len_app. unfold len at 2. rewrite repeat_length, N2Nat.id.
        destruct (N.leb_spec (len out + (run + len (x :: L))) bzip2_block_size); [lia | reflexivity].
  Qed.
End BlockLoop.
