From Verif Require Import Base BaseLemmas BlockTree_model BlockTree_spec.
Ltac Zify.zify_post_hook ::= idtac.

Section Proofs.
  Context {V : Type}.
  Implicit Types (c m : slot_map V) (v : V).

  Lemma idx_app_nth {A} (l : list A) i a : nth_error l (N.to_nat i) = Some a -> idx l i = Ok a.
  Proof. unfold idx. intros ->. reflexivity. Qed.

  Lemma nth_error_repeat {A} (a : A) n i : (i < n)%nat -> nth_error (repeat a n) i = Some a.
  Proof. revert i; induction n; intros [|i] H; cbn; try lia; auto. apply IHn. lia. Qed.

  Lemma len_repeat {A} (a : A) n : len (repeat a n) = N.of_nat n.
  Proof. unfold len. rewrite repeat_length. auto. Qed.

  Lemma len_set_nth {A} (l : list A) i a : len (set_nth l i a) = len l.
  Proof. unfold len. rewrite set_nth_length. auto. Qed.

  (** ** Filling *)
  Lemma fill_outside k : forall u v c x, (x < u \/ u + N.of_nat k <= x) -> fst (fill k u v c) x = c x.
  Proof.
    induction k as [|k IH]; intros u v c x Hx; cbn [fill]; auto.
    destruct (c u) eqn:E; auto. rewrite IH by lia. unfold slot_set.
    replace (x =? u) with false by lia. auto.
  Qed.

  Lemma fill_ext k : forall u v c c', (forall x, c x = c' x) ->
    snd (fill k u v c) = snd (fill k u v c') /\ forall x, fst (fill k u v c) x = fst (fill k u v c') x.
  Proof.
    induction k as [|k IH]; intros u v c c' H; cbn [fill]; auto.
    rewrite <- H. destruct (c u); auto. apply IH. intros x. unfold slot_set. rewrite H. auto.
  Qed.

  (** coarse filling against fine filling *)
  Lemma fill_app a : forall b u v c,
    fill (a + b) u v c = let '(c', r) := fill a u v c in
      if r then fill b (u + N.of_nat a) v c' else (c', false).
  Proof.
    induction a as [|a IH]; intros b u v c; cbn [fill Nat.add].
    - replace (u + N.of_nat 0) with u by lia. auto.
    - destruct (c u); auto. rewrite IH. replace (u + 1 + N.of_nat a) with (u + N.of_nat (S a)) by lia. auto.
  Qed.

  Lemma fill_free k : forall u v c, (forall x, u <= x < u + N.of_nat k -> c x = None) ->
    snd (fill k u v c) = true /\
    forall x, fst (fill k u v c) x = if (u <=? x) && (x <? u + N.of_nat k) then Some v else c x.
  Proof.
    induction k as [|k IH]; intros u v c H; cbn [fill].
    - split; auto. intros x. replace ((u <=? x) && (x <? u + N.of_nat 0)) with false by lia. auto.
    - rewrite (H u) by lia. destruct (IH (u + 1) v (slot_set c u v)) as [H1 H2].
      { intros x Hx. unfold slot_set. replace (x =? u) with false by lia. apply H; lia. }
      split; auto. intros x. rewrite H2. unfold slot_set.
      destruct (x =? u) eqn:E1;
        destruct ((u + 1 <=? x) && (x <? u + 1 + N.of_nat k)) eqn:E2;
        destruct ((u <=? x) && (x <? u + N.of_nat (S k))) eqn:E3; auto; lia.
  Qed.

  Lemma fill_blow q k : forall u v c m, 0 < q -> (forall x, m x = c (x / q)) ->
    snd (fill (k * N.to_nat q) (u * q) v m) = snd (fill k u v c) /\
    forall x, fst (fill (k * N.to_nat q) (u * q) v m) x = fst (fill k u v c) (x / q).
  Proof.
    induction k as [|k IH]; intros u v c m Hq H; cbn [Nat.mul fill]; auto.
    rewrite fill_app. destruct (c u) as [w|] eqn:E.
    - assert (Hf : fill (N.to_nat q) (u * q) v m = (m, false)).
      { destruct (N.to_nat q) eqn:Eq; [lia|]. cbn [fill]. rewrite H, N.div_mul, E by lia. auto. }
      rewrite Hf. auto.
    - destruct (fill_free (N.to_nat q) (u * q) v m) as [H1 H2].
      { intros x Hx. rewrite H. replace (x / q) with u; auto.
        apply (N.div_unique _ _ _ (x - u * q)); lia. }
      destruct (fill (N.to_nat q) (u * q) v m) as [m1 b1] eqn:F. cbn [fst snd] in *. subst b1.
      replace (u * q + N.of_nat (N.to_nat q)) with ((u + 1) * q) by lia.
      apply IH; auto. intros x. rewrite H2. unfold slot_set.
      replace ((u * q <=? x) && (x <? u * q + N.of_nat (N.to_nat q))) with (x / q =? u).
      + destruct (x / q =? u); auto.
      + rewrite N2Nat.id. destruct (x / q =? u) eqn:Ex.
        * symmetry. apply andb_true_iff. rewrite N.leb_le, N.ltb_lt. apply N.eqb_eq in Ex. subst u.
          pose proof (N.div_mod x q ltac:(lia)). pose proof (N.mod_lt x q ltac:(lia)). lia.
        * symmetry. apply andb_false_iff. rewrite N.leb_gt, N.ltb_ge. apply N.eqb_neq in Ex.
          destruct (N.lt_ge_cases x (u * q)); auto. right.
          destruct (N.le_gt_cases (u * q + q) x); auto. exfalso. apply Ex.
          symmetry. apply (N.div_unique _ _ _ (x - u * q)); lia.
  Qed.

  (** ** Leaf values *)
  Definition repr_list (vals : list (option V)) (base : N) (c : slot_map V) : Prop :=
    forall i, i < len vals -> nth_error vals (N.to_nat i) = Some (c (base + i)).

  Lemma nth_error_lt_len {A} (l : list A) i a : nth_error l (N.to_nat i) = Some a -> i < len l.
  Proof.
    intros H. assert (nth_error l (N.to_nat i) <> None) by congruence.
    apply nth_error_Some in H0. unfold len. lia.
  Qed.

  Lemma set_nth_repr vals base c i v : repr_list vals base c -> i < len vals ->
    repr_list (set_nth vals (N.to_nat i) (Some v)) base (slot_set c (base + i) v).
  Proof.
    intros H Hi j Hj. rewrite len_set_nth in Hj. unfold slot_set.
    destruct (N.eq_dec i j) as [->|Hne].
    - rewrite nth_error_set_nth_eq by (unfold len in *; lia). rewrite N.eqb_refl. auto.
    - rewrite nth_error_set_nth_neq by lia. replace (base + j =? base + i) with false by lia. auto.
  Qed.

  Lemma set_values_ok k : forall f vals base c v,
    repr_list vals base c -> f + N.of_nat k <= len vals ->
    exists vals', bt_set_values k f vals v = (vals', accepted (snd (fill k (base + f) v c))) /\
      len vals' = len vals /\ repr_list vals' base (fst (fill k (base + f) v c)).
  Proof.
    induction k as [|k IH]; intros f vals base c v Hr Hf; cbn [bt_set_values fill].
    - exists vals. auto.
    - rewrite (idx_app_nth _ _ _ (Hr f ltac:(lia))).
      destruct (c (base + f)) eqn:E.
      + exists vals. auto.
      + destruct (IH (f + 1) (set_nth vals (N.to_nat f) (Some v)) base (slot_set c (base + f) v) v)
          as (vals' & H1 & H2 & H3).
        * apply set_nth_repr; auto. lia.
        * rewrite len_set_nth. lia.
        * replace (base + (f + 1)) with (base + f + 1) in * by lia.
          exists vals'. rewrite len_set_nth in H2. auto.
  Qed.

  Lemma div_ceil_one a b : 0 < a -> a <= b -> div_ceil a b = Ok 1.
  Proof.
    intros Ha Hb. unfold div_ceil, div_chk. replace (b =? 0) with false by lia. cbn [bind].
    destruct (N.eq_dec a b) as [->|Hne].
    - rewrite N.mod_same, N.div_same by lia. auto.
    - rewrite N.mod_small, N.div_small by lia. replace (a =? 0) with false by lia. auto.
  Qed.

  Lemma div_ceil_ok a b : 0 < b -> exists n, div_ceil a b = Ok n /\ a <= n * b /\ (0 < a -> 0 < n) /\
    (n - 1) * b <= a.
  Proof.
    intros Hb. unfold div_ceil, div_chk. replace (b =? 0) with false by lia. cbn [bind].
    eexists; split; [reflexivity|].
    pose proof (N.div_mod a b ltac:(lia)) as Hd. pose proof (N.mod_lt a b ltac:(lia)) as Hm.
    generalize dependent (a mod b). generalize (a / b). intros q x Hd Hm.
    destruct (x =? 0) eqn:E.
    - rewrite N.eqb_eq in E. split; [nia|]. split; [intros; destruct q; lia|]. destruct q; nia.
    - replace (q + 1 - 1) with q by lia. split; [nia|]. split; lia.
  Qed.

  (** ** Growing the element size *)
  Lemma pow_ge_2 s x : 2 <= s -> 2 ^ x <= s ^ x.
  Proof. intros. apply N.pow_le_mono_l. auto. Qed.

  Lemma pow_pos s x : 0 < s -> 0 < s ^ x.
  Proof. intros. apply N.neq_0_lt_0, N.pow_nonzero. lia. Qed.

  Lemma pow_lt_64 l s x : 0 < l -> 2 <= s -> l * s ^ x < two64 -> x < 64.
  Proof.
    intros Hl Hs H. destruct (N.lt_ge_cases x 64) as [|Hx]; auto. exfalso.
    assert (2 ^ 64 <= 2 ^ x) by (apply N.pow_le_mono_r; lia).
    pose proof (pow_ge_2 s x Hs). change two64 with (2 ^ 64) in H. nia.
  Qed.

  Lemma grow_spec fuel : forall d s l i, 0 < l -> 2 <= s -> d < two64 ->
    (i = 0 \/ s < d / (l * s ^ (i - 1))) -> (64 < N.of_nat fuel + i) -> (0 < fuel)%nat ->
    exists r, bt_grow fuel d s (l * s ^ i) = Ok (l * s ^ r) /\ i <= r /\ d / (l * s ^ r) <= s /\
      (r = 0 \/ s < d / (l * s ^ (r - 1))).
  Proof.
    induction fuel as [|f IH]; intros d s l i Hl Hs Hd Hi Hf Hf0; [lia|]. cbn [bt_grow].
    assert (Hp : 0 < s ^ i) by (apply pow_pos; lia).
    assert (He : 0 < l * s ^ i) by nia.
    unfold div_chk. replace (l * s ^ i =? 0) with false by lia. cbn [bind].
    destruct (s <? d / (l * s ^ i)) eqn:E.
    - apply N.ltb_lt in E.
      assert (Hlt : l * s ^ i * s < d).
      { pose proof (N.div_mod d (l * s ^ i) ltac:(lia)). nia. }
      unfold mul_chk. replace (l * s ^ i * s <? two64) with true by lia. cbn [bind].
      replace (l * s ^ i * s) with (l * s ^ (i + 1)) by (rewrite N.pow_add_r, N.pow_1_r; lia).
      assert (Hlt' : l * s ^ (i + 1) < two64).
      { rewrite N.pow_add_r, N.pow_1_r. lia. }
      apply pow_lt_64 in Hlt'; auto.
      destruct (IH d s l (i + 1) Hl Hs Hd) as (r & H1 & H2 & H3); [|lia|lia|].
      { right. replace (i + 1 - 1) with i by lia. exact E. }
      exists r. split; auto. split; [lia|auto].
    - exists i. split; auto. split; [lia|]. split; [lia|auto].
  Qed.

  Lemma grow_exact s l a : 0 < l -> 2 <= s -> l * s ^ (a + 1) < two64 ->
    bt_grow 66 (l * s ^ (a + 1)) s l = Ok (l * s ^ a).
  Proof.
    intros Hl Hs Hd.
    destruct (grow_spec 66 (l * s ^ (a + 1)) s l 0) as (r & H1 & _ & H2 & H3); auto; try lia.
    rewrite N.pow_0_r, N.mul_1_r in H1. rewrite H1. do 2 f_equal.
    assert (Hdiv : forall x y, x <= y -> l * s ^ y / (l * s ^ x) = s ^ (y - x)).
    { intros x y Hxy. rewrite N.div_mul_cancel_l by (try apply N.pow_nonzero; lia).
      replace y with (y - x + x) at 1 by lia. rewrite N.pow_add_r, N.div_mul; auto.
      apply N.pow_nonzero; lia. }
    assert (Hpow1 : forall x, s ^ x <= s -> x <= 1).
    { intros x Hx. destruct (N.le_gt_cases x 1); auto. exfalso.
      assert (s ^ 1 < s ^ x) by (apply N.pow_lt_mono_r; lia). rewrite N.pow_1_r in *. lia. }
    assert (r = a); [|congruence].
    destruct (N.lt_trichotomy r a) as [Hlt|[Heq|Hgt]]; auto; exfalso.
    - rewrite Hdiv in H2 by lia. apply Hpow1 in H2. lia.
    - destruct H3 as [H3|H3]; [lia|].
      destruct (N.le_gt_cases (r - 1) (a + 1)) as [Hle|Hg].
      + rewrite Hdiv in H3 by lia.
        assert (s ^ (a + 1 - (r - 1)) <= s ^ 1) by (apply N.pow_le_mono_r; lia).
        rewrite N.pow_1_r in *. lia.
      + rewrite N.div_small in H3; [lia|].
        apply N.mul_lt_mono_pos_l; auto. apply N.pow_lt_mono_r; lia.
  Qed.

  (** ** Nodes *)
  Section Node.
    Context (s l r : N) (Hs : 2 <= s) (Hl : 0 < l).
    Let e := l * s ^ r.
    Let He : 0 < e.
    Proof. unfold e. pose proof (pow_pos s r). nia. Qed.

    (** The node at level [j] that starts at unit [ob] with [n] slots of [s ^ j] units. *)
    Fixpoint repr (j : nat) (nd : bt_node V) (ob n : N) (c : slot_map V) : Prop :=
      match j, nd with
      | O, Leaf o el vals => o = e * ob /\ el = e /\ len vals = n /\ repr_list vals ob c
      | S j', Branch o el subs =>
          let p := s ^ N.of_nat j in
          o = e * ob /\ el = e * p /\ len subs = n /\ ob mod s = 0 /\
          forall i, i < n ->
            match nth_error subs (N.to_nat i) with
            | Some None => forall u, ob + i * p <= u < ob + i * p + p -> c u = None
            | Some (Some nd') => repr j' nd' (ob + i * p) s c
            | None => False
            end
      | _, _ => False
      end.

    Lemma repr_ext j : forall nd ob n c c',
      (forall u, ob <= u < ob + n * s ^ N.of_nat j -> c u = c' u) ->
      repr j nd ob n c -> repr j nd ob n c'.
    Proof.
      induction j as [|j IH]; intros nd ob n c c' Hc H; destruct nd as [o el subs|o el vals];
        cbn [repr] in *; try contradiction.
      - destruct H as (-> & -> & <- & Hr). repeat split; auto. intros i Hi. rewrite (Hr i Hi).
        f_equal. apply Hc. change (N.of_nat 0) with 0. rewrite N.pow_0_r. lia.
      - destruct H as (-> & -> & <- & Hm & Hr). repeat split; auto. intros i Hi. specialize (Hr i Hi).
        assert (Hb : ob + i * s ^ N.of_nat (S j) + s ^ N.of_nat (S j) <=
                ob + len subs * s ^ N.of_nat (S j)) by nia.
        destruct (nth_error subs (N.to_nat i)) as [[nd'|]|]; auto.
        + eapply IH; [|exact Hr]. intros u Hu. apply Hc.
          rewrite Nat2N.inj_succ, N.pow_succ_r' in *. nia.
        + intros u Hu. rewrite <- Hc; [auto|]. lia.
    Qed.

    Definition alloc (nd : bt_node V) : bt_node V :=
      match nd with
      | Leaf o el [] => Leaf o el (repeat None (N.to_nat s))
      | Branch o el [] => Branch o el (repeat None (N.to_nat s))
      | _ => nd
      end.

    Lemma grow_not_err fu : forall d ss ll, bt_grow fu d ss ll <> Err.
    Proof.
      induction fu as [|fu IH]; intros d ss ll; cbn [bt_grow]; [discriminate|]. unfold div_chk, mul_chk.
      destruct (ll =? 0); cbn [bind]; [discriminate|]. destruct (_ <? _); [|discriminate].
      destruct (_ <? _); cbn [bind]; [apply IH|discriminate].
    Qed.

    Lemma insert_alloc fuel off sz v nd :
      sz mod e = 0 ->
      (match nd with Leaf _ el _ => el = e | Branch _ el _ => 0 < el end) ->
      snd (bt_node_insert fuel s l off sz v (alloc nd)) <> Panic ->
      bt_node_insert fuel s l off sz v nd = bt_node_insert fuel s l off sz v (alloc nd).
    Proof.
      destruct fuel as [|fuel]; intros Hz Hel; [cbn; congruence|].
      destruct nd as [o el [|x subs]|o el [|x vals]]; auto.
      - intros Hn. cbn [alloc bt_node_insert] in *. destruct (N.to_nat s) eqn:Es; [lia|]. cbn [repeat] in *.
        unfold keep in *.
        match goal with |- context[match ?X with Ok _ => _ | Err => _ | Panic => _ end] => destruct X eqn:F end; auto.
        + exfalso. clear Hn. unfold div_ceil, div_chk, sub_chk in F.
          replace (el =? 0) with false in F by lia. cbn [bind] in F.
          destruct (o <=? off); cbn [bind] in F; [|discriminate].
          destruct (bt_grow 66 el s l) eqn:G; cbn [bind] in F; try discriminate. eapply grow_not_err; eauto.
        + cbn [snd] in Hn. congruence.
      - intros Hn. cbn [alloc bt_node_insert] in *. destruct (N.to_nat s) eqn:Es; [lia|]. cbn [repeat] in *.
        subst el. unfold mod_chk. replace (e =? 0) with false by lia. cbn [bind]. rewrite Hz. reflexivity.
    Qed.

    Lemma repr_fresh j o sz ob c :
      (match j with O => sz = true | _ => sz = false end) ->
      o = e * ob -> ob mod s = 0 -> (forall u, ob <= u < ob + s * s ^ N.of_nat j -> c u = None) ->
      repr j (alloc (if sz then Leaf o (e * s ^ N.of_nat j) [] else Branch o (e * s ^ N.of_nat j) [])) ob s c.
    Proof.
      intros Hj Ho Hm Hc. destruct j as [|j]; subst sz; cbn [alloc repr].
      - change (N.of_nat 0) with 0 in *. rewrite N.pow_0_r in *. rewrite !N.mul_1_r in *. repeat split; auto.
        + rewrite len_repeat. lia.
        + intros i Hi. rewrite len_repeat in Hi. rewrite nth_error_repeat by lia. f_equal. symmetry. apply Hc. lia.
      - repeat split; auto.
        + rewrite len_repeat; lia.
        + intros i Hi. rewrite nth_error_repeat by lia. intros u Hu. apply Hc. nia.
    Qed.

    Lemma sub_bounds s' w ob i u k p a : p = s' * w -> ob = s' * a -> 0 < s' -> 0 < k ->
      u - ob < i * p + p -> ob <= u -> u / s' = (u + k - 1) / s' -> u + k <= ob + i * p + p.
    Proof.
      intros Hp Ho Hs' Hk Hu Hou Hc.
      assert (Hb : u < s' * (a + i * w + w)).
      { rewrite !N.mul_add_distr_l. replace (s' * (i * w)) with (i * p) by (subst p; lia). lia. }
      apply N.div_lt_upper_bound in Hb; [|lia]. rewrite Hc in Hb.
      pose proof (N.div_mod (u + k - 1) s' ltac:(lia)) as Hd.
      pose proof (N.mod_lt (u + k - 1) s' ltac:(lia)) as Hm.
      set (q := (u + k - 1) / s') in *.
      assert (Hq : q + 1 <= a + i * w + w) by lia.
      apply (N.mul_le_mono_l _ _ s') in Hq. rewrite !N.mul_add_distr_l in Hq.
      replace (s' * (i * w)) with (i * p) in Hq by (subst p; lia). lia.
    Qed.
    Lemma mul_in_range p i u' n : 0 < p -> i = u' / p -> u' < n * p -> i < n /\ i * p <= u' < i * p + p.
    Proof.
      intros Hp -> Hu. pose proof (N.div_mod u' p ltac:(lia)) as Hd. pose proof (N.mod_lt u' p ltac:(lia)).
      set (i := u' / p) in *. split; [|lia].
      destruct (N.lt_ge_cases i n) as [|Hge]; auto.
      apply (N.mul_le_mono_r _ _ p) in Hge. lia.
    Qed.
    Lemma disjoint_groups p i i' ob w u k : i <> i' -> ob + i' * p <= w < ob + i' * p + p ->
      ob + i * p <= u -> u + k <= ob + i * p + p -> w < u \/ u + k <= w.
    Proof.
      intros Hne Hw H1 H2. assert (i' + 1 <= i \/ i + 1 <= i') as [Hd|Hd] by lia;
        apply (N.mul_le_mono_r _ _ p) in Hd; lia.
    Qed.

    Lemma insert_repr j : forall fuel nd ob n c u k v,
      repr j nd ob n c -> (j < fuel)%nat -> 0 < k -> ob <= u -> u + k <= ob + n * s ^ N.of_nat j ->
      ((0 < j)%nat -> k < s /\ u / s = (u + k - 1) / s) ->
      e * s ^ N.of_nat j < two64 ->
      let f := fill (N.to_nat k) u v c in
      exists nd', bt_node_insert fuel s l (e * u) (e * k) v nd = (nd', accepted (snd f)) /\
        repr j nd' ob n (fst f).
    Proof.
      induction j as [|j IH]; intros fuel nd ob n c u k v Hr Hf Hk Hu Hn Hsp Hov f;
        (destruct fuel as [|fuel]; [lia|]); destruct nd as [o el subs|o el vals]; cbn [repr] in Hr; try contradiction.
      - destruct Hr as (-> & -> & Hlen & Hr). cbn [bt_node_insert].
        change (N.of_nat 0) with 0 in Hn. rewrite N.pow_0_r, N.mul_1_r in Hn.
        unfold mod_chk. replace (e =? 0) with false by lia. cbn [bind].
        rewrite (N.mul_comm e k), N.mod_mul by lia. cbn [check keep]. rewrite N.eqb_refl. cbn [check keep].
        assert (Hv : match vals with [] => repeat None (N.to_nat s) | _ :: _ => vals end = vals).
        { destruct vals; auto. unfold len in Hlen; cbn [length] in Hlen. lia. }
        rewrite Hv. unfold div_chk. replace (e =? 0) with false by lia. cbn [bind].
        assert (Hou : e * ob <= e * u) by (apply N.mul_le_mono_l; auto).
        unfold sub_chk. replace (e * ob <=? e * u) with true by lia. cbn [bind keep fst snd].
        rewrite N.div_mul by lia.
        rewrite <- N.mul_sub_distr_l, (N.mul_comm e (u - ob)), N.div_mul by lia.
        destruct (set_values_ok (N.to_nat k) (u - ob) vals ob c v) as (vals' & H1 & H2 & H3); auto; [lia|].
        replace (ob + (u - ob)) with u in * by lia. rewrite H1.
        eexists; split; [reflexivity|]. cbn [repr]. repeat split; auto. congruence.
      - destruct Hr as (-> & -> & Hlen & Hm & Hr). cbn [bt_node_insert].
        set (p := s ^ N.of_nat (S j)) in *.
        assert (Hp : p = s * s ^ N.of_nat j) by (unfold p; rewrite Nat2N.inj_succ, N.pow_succ_r'; auto).
        assert (Hsj : 0 < s ^ N.of_nat j) by (apply pow_pos; lia).
        assert (Hp0 : 0 < p) by (rewrite Hp; apply N.mul_pos_pos; lia).
        destruct Hsp as [Hks Hcross]; [lia|].
        assert (Hs' : match subs with [] => repeat None (N.to_nat s) | _ :: _ => subs end = subs).
        { destruct subs as [|x subs]; auto. unfold len in Hlen; cbn [length] in Hlen.
          change (N.of_nat 0) with 0 in Hlen. subst n. lia. }
        rewrite Hs'.
        assert (Hkp : k <= p).
        { apply N.le_trans with s; [lia|]. rewrite Hp. rewrite <- (N.mul_1_r s) at 1.
          apply N.mul_le_mono_l. lia. }
        assert (Hep : 0 < e * p) by (apply N.mul_pos_pos; auto).
        rewrite div_ceil_one; [|apply N.mul_pos_pos; auto|apply N.mul_le_mono_l; auto]. cbn [bind].
        assert (Hou : e * ob <= e * u) by (apply N.mul_le_mono_l; auto).
        unfold sub_chk. replace (e * ob <=? e * u) with true by lia. cbn [bind].
        unfold div_chk. replace (e * p =? 0) with false by lia. cbn [bind].
        rewrite <- N.mul_sub_distr_l, N.div_mul_cancel_l by lia.
        assert (Hg : bt_grow 66 (e * p) s l = Ok (e * s ^ N.of_nat j)).
        { replace (e * p) with (l * s ^ (r + N.of_nat j + 1)).
          2:{ unfold e, p. replace (r + N.of_nat j + 1) with (r + N.of_nat (S j)) by lia.
              rewrite N.pow_add_r. apply N.mul_assoc. }
          rewrite grow_exact; auto.
          - unfold e. rewrite N.pow_add_r, N.mul_assoc. auto.
          - replace (r + N.of_nat j + 1) with (r + N.of_nat (S j)) by lia. rewrite N.pow_add_r, N.mul_assoc.
            exact Hov. }
        rewrite Hg. cbn [bind keep fst snd].
        change (N.to_nat 1) with 1%nat. cbn [bt_insert_subs].
        destruct (mul_in_range p ((u - ob) / p) (u - ob) n Hp0 eq_refl) as [Hin Hi]; [lia|].
        set (i := (u - ob) / p) in *.
        (* the insert stays inside the sub node *)
        assert (Hins : u + k <= ob + i * p + p).
        { apply (sub_bounds s (s ^ N.of_nat j) ob i u k p (ob / s)); auto; try lia.
          apply N.div_exact; [lia|auto]. }
        pose proof (Hr i Hin) as Hri.
        destruct (nth_error subs (N.to_nat i)) as [x|] eqn:Ei; [|contradiction].
        rewrite (idx_app_nth _ _ _ Ei).
        set (fresh := if e * s ^ N.of_nat j <=? e * k
                      then Leaf (e * ob + i * (e * p)) (e * s ^ N.of_nat j) []
                      else Branch (e * ob + i * (e * p)) (e * s ^ N.of_nat j) []).
        assert (Hsub : exists nd', bt_node_insert fuel s l (e * u) (e * k) v
                   (match x with Some y => y | None => fresh end) = (nd', accepted (snd f)) /\
                   repr j nd' (ob + i * p) s (fst f)).
        { assert (Hob' : (ob + i * p) mod s = 0).
          { rewrite Hp, (N.mul_comm s), N.mul_assoc, N.mod_add by lia. auto. }
          assert (Hcase : forall nd0, repr j nd0 (ob + i * p) s c ->
             exists nd', bt_node_insert fuel s l (e * u) (e * k) v nd0 = (nd', accepted (snd f)) /\
                         repr j nd' (ob + i * p) s (fst f)).
          { intros nd0 Hnd0. apply IH; auto.
            1: clear - Hf; lia. 1: clear - Hi Hu; lia. 1: rewrite <- Hp; exact Hins.
            apply N.le_lt_trans with (e * p); auto. apply N.mul_le_mono_l. rewrite Hp.
            rewrite <- (N.mul_1_l (s ^ N.of_nat j)) at 1. apply N.mul_le_mono_r. lia. }
          destruct x as [y|].
          - apply Hcase; auto.
          - assert (Hfr : repr j (alloc fresh) (ob + i * p) s c).
            { unfold fresh. apply repr_fresh; auto.
              - destruct j as [|j'].
                + change (N.of_nat 0) with 0. rewrite N.pow_0_r. apply N.leb_le, N.mul_le_mono_l. lia.
                + apply N.leb_gt, N.mul_lt_mono_pos_l; auto. apply N.lt_le_trans with s; auto.
                  rewrite Nat2N.inj_succ, N.pow_succ_r'. rewrite <- (N.mul_1_r s) at 1.
                  apply N.mul_le_mono_l. pose proof (pow_pos s (N.of_nat j') ltac:(lia)). lia.
              - ring.
              - intros w Hw. apply Hri. rewrite <- Hp in Hw. exact Hw. }
            destruct (Hcase _ Hfr) as (nd' & H1 & H2). exists nd'. split; auto. rewrite <- H1.
            apply insert_alloc.
            * rewrite N.mul_comm. apply N.mod_mul. lia.
            * unfold fresh. destruct j as [|j'].
              -- change (N.of_nat 0) with 0. rewrite N.pow_0_r, N.mul_1_r.
                 destruct (e <=? e * k); auto.
              -- unfold fresh in Hfr. destruct (e * s ^ N.of_nat (S j') <=? e * k); [cbn in Hfr; contradiction|].
                 apply N.mul_pos_pos; auto.
            * rewrite H1. destruct (snd f); discriminate. }
        destruct Hsub as (nd' & H1 & H2). rewrite H1.
        assert (Hrep : repr (S j) (Branch (e * ob) (e * p) (set_nth subs (N.to_nat i) (Some nd'))) ob n (fst f)).
        { cbn [repr]. fold p. rewrite len_set_nth. repeat split; auto. intros i' Hi'.
          destruct (N.eq_dec i i') as [<-|Hne].
          - rewrite nth_error_set_nth_eq by (apply nth_error_Some; congruence). auto.
          - rewrite nth_error_set_nth_neq by (clear - Hne; lia). specialize (Hr i' Hi').
            assert (Hout : forall w, ob + i' * p <= w < ob + i' * p + p -> fst f w = c w).
            { intros w Hw. apply fill_outside. rewrite N2Nat.id.
              apply (disjoint_groups p i i' ob w u k); auto. clear - Hi Hu; lia. }
            destruct (nth_error subs (N.to_nat i')) as [[y|]|]; auto.
            + eapply repr_ext; [|exact Hr]. intros w Hw. symmetry. apply Hout. rewrite <- Hp in Hw. exact Hw.
            + intros w Hw. rewrite Hout; auto. }
        destruct (snd f); cbn [accepted bt_insert_subs]; eexists; (split; [reflexivity|exact Hrep]).
    Qed.

    Lemma shift_div a x ob : 0 < a -> ob <= x / a -> a * ob <= x /\ (x - a * ob) / a = x / a - ob.
    Proof.
      intros Ha Ho. pose proof (N.div_mod x a ltac:(lia)) as Hx. pose proof (N.mod_lt x a ltac:(lia)) as Hm.
      apply (N.mul_le_mono_l _ _ a) in Ho as Ho'. split; [lia|].
      symmetry. apply (N.div_unique _ _ _ (x mod a)); auto. rewrite N.mul_sub_distr_l. lia.
    Qed.

    Lemma get_repr j : forall fuel nd ob n c x,
      repr j nd ob n c -> (j < fuel)%nat -> ob <= x / e -> x / e < ob + n * s ^ N.of_nat j ->
      bt_node_get fuel nd x = Ok (c (x / e)).
    Proof.
      induction j as [|j IH]; intros fuel nd ob n c x Hr Hf Ho Hn;
        (destruct fuel as [|fuel]; [lia|]); destruct nd as [o el subs|o el vals]; cbn [repr] in Hr; try contradiction.
      - destruct Hr as (-> & -> & Hlen & Hr). cbn [bt_node_get].
        change (N.of_nat 0) with 0 in Hn. rewrite N.pow_0_r, N.mul_1_r in Hn.
        destruct (shift_div e x ob He Ho) as [Hle Hd].
        unfold sub_chk. replace (e * ob <=? x) with true by lia. cbn [bind].
        unfold div_chk. replace (e =? 0) with false by lia. cbn [bind].
        rewrite Hd. replace (len vals <=? x / e - ob) with false by lia.
        rewrite (idx_app_nth _ _ _ (Hr (x / e - ob) ltac:(lia))).
        replace (ob + (x / e - ob)) with (x / e) by lia. auto.
      - destruct Hr as (-> & -> & Hlen & Hm & Hr). cbn [bt_node_get].
        set (p := s ^ N.of_nat (S j)) in *.
        assert (Hp : p = s * s ^ N.of_nat j) by (unfold p; rewrite Nat2N.inj_succ, N.pow_succ_r'; auto).
        assert (Hsj : 0 < s ^ N.of_nat j) by (apply pow_pos; lia).
        assert (Hp0 : 0 < p) by (rewrite Hp; apply N.mul_pos_pos; lia).
        destruct (shift_div e x ob He Ho) as [Hle Hd].
        assert (Hep : 0 < e * p) by (apply N.mul_pos_pos; auto).
        unfold sub_chk. replace (e * ob <=? x) with true by (clear - Hle; lia). cbn [bind].
        unfold div_chk. replace (e * p =? 0) with false by (clear - Hep; lia). cbn [bind].
        rewrite <- N.div_div by (clear - He Hp0; lia). rewrite Hd.
        set (u := x / e) in *.
        destruct (mul_in_range p ((u - ob) / p) (u - ob) n Hp0 eq_refl) as [Hin Hi]; [clear - Hn Ho; lia|].
        set (i := (u - ob) / p) in *.
        specialize (Hr i Hin).
        destruct (nth_error subs (N.to_nat i)) as [[nd'|]|] eqn:Ei; [| |contradiction];
          rewrite (idx_app_nth _ _ _ Ei); cbn [bind].
        + apply (IH fuel nd' (ob + i * p) s); auto; fold u.
          * clear - Hf; lia.
          * clear - Hi Ho; lia.
          * rewrite <- Hp. clear - Hi Ho; lia.
        + rewrite Hr; auto. clear - Hi Ho; lia.
    Qed.
  End Node.

  (** ** A leaf root: one flat table *)
  Definition flat (t : block_tree V) (el : N) (c : slot_map V) : Prop :=
    exists vals, bt_root t = Some (Leaf 0 el vals) /\ repr_list vals 0 c /\ 0 < el /\
      bt_data_size t <= len vals * el /\ (forall u, len vals <= u -> c u = None).

  Lemma flat_get t el c x : flat t el c -> bt_get t x = Ok (c (x / el)).
  Proof.
    intros (vals & Hroot & Hr & Hel & _ & Hz). unfold bt_get. rewrite Hroot.
    cbn [bt_node_get]. unfold sub_chk. replace (0 <=? x) with true by lia. cbn [bind].
    unfold div_chk. replace (el =? 0) with false by lia. cbn [bind]. rewrite N.sub_0_r.
    destruct (len vals <=? x / el) eqn:E.
    - rewrite Hz by lia. auto.
    - apply idx_app_nth. rewrite (Hr (x / el)) by lia. auto.
  Qed.

  Definition with_root (t : block_tree V) nd : block_tree V :=
    {| bt_data_size := bt_data_size t; bt_elements_per_node := bt_elements_per_node t;
       bt_leaf_value_size := bt_leaf_value_size t; bt_root := Some nd |}.

  (** The guards of [insert_value] in one step. *)
  Lemma bt_insert_guard t o sz v : 0 < bt_leaf_value_size t -> o + sz < two64 ->
    bt_insert t o sz v =
    if (o + sz <=? bt_data_size t) && (o mod bt_leaf_value_size t =? 0) && (sz mod bt_leaf_value_size t =? 0)
    then match (match bt_root t with Some n => Ok n | None => bt_create_root t sz end) with
         | Ok root => let '(root, r) := bt_node_insert 70 (bt_elements_per_node t) (bt_leaf_value_size t) o sz v root in
                      (with_root t root, r)
         | Err => (t, Err)
         | Panic => (t, Panic)
         end
    else (t, Err).
  Proof.
    intros Hl Hov. unfold bt_insert, with_root.
    unfold add_chk. replace (o + sz <? two64) with true by lia. cbn [bind].
    unfold mod_chk. replace (bt_leaf_value_size t =? 0) with false by lia. cbn [bind].
    destruct (o + sz <=? bt_data_size t); cbn [check bind andb]; auto.
    destruct (o mod bt_leaf_value_size t =? 0); cbn [check bind andb]; auto.
    destruct (sz mod bt_leaf_value_size t =? 0); cbn [check bind andb]; auto.
  Qed.

  Lemma flat_node_insert el vals c o sz v e_per l : repr_list vals 0 c -> 0 < el -> 0 < len vals ->
    el * (sz / el) = sz -> el * (o / el) = o -> o / el + sz / el <= len vals ->
    let f := fill (N.to_nat (sz / el)) (o / el) v c in
    exists vals', bt_node_insert 70 e_per l o sz v (Leaf 0 el vals) =
        (Leaf 0 el vals', accepted (snd f)) /\ len vals' = len vals /\ repr_list vals' 0 (fst f).
  Proof.
    intros Hr Hel Hlen Hsz Ho Hn f. cbn [bt_node_insert].
    unfold mod_chk. replace (el =? 0) with false by lia. cbn [bind].
    replace (sz mod el) with 0 by (rewrite <- Hsz, N.mul_comm, N.mod_mul; lia).
    rewrite N.eqb_refl. cbn [check keep].
    assert (Hv : match vals with [] => repeat None (N.to_nat e_per) | _ :: _ => vals end = vals).
    { destruct vals; auto. unfold len in Hlen; cbn [length] in Hlen. lia. }
    rewrite Hv. unfold div_chk. replace (el =? 0) with false by lia. cbn [bind].
    unfold sub_chk. replace (0 <=? o) with true by lia. cbn [bind keep fst snd]. rewrite N.sub_0_r.
    destruct (set_values_ok (N.to_nat (sz / el)) (o / el) vals 0 c v) as (vals' & H1 & H2 & H3); auto; [lia|].
    rewrite N.add_0_l in *. rewrite H1. eexists; split; [reflexivity|]. auto.
  Qed.

  (** units of [el = l * q] bytes in terms of slots of [l] bytes *)
  Definition blown (q : N) (c m : slot_map V) : Prop := forall x, m x = c (x / q).

  Lemma mul_div_self a b : 0 < b -> a mod b = 0 -> b * (a / b) = a.
  Proof. intros Hb H. pose proof (N.div_mod a b ltac:(lia)). lia. Qed.

  Lemma spec_insert_blown d l q c m o sz v : 0 < l -> 0 < q -> blown q c m ->
    o mod (l * q) = 0 -> sz mod (l * q) = 0 -> o + sz <= d ->
    let f := fill (N.to_nat (sz / (l * q))) (o / (l * q)) v c in
    let g := spec_insert d l m o sz v in
    snd g = snd f /\ blown q (fst f) (fst g).
  Proof.
    intros Hl Hq Hb Ho Hz Hd. cbv zeta. unfold spec_insert.
    apply mul_div_self in Ho; [|nia]. apply mul_div_self in Hz; [|nia].
    set (u := o / (l * q)) in *. set (k := sz / (l * q)) in *.
    assert (E1 : o = (u * q) * l) by lia. assert (E2 : sz = (k * q) * l) by lia.
    replace (o + sz <=? d) with true by lia.
    rewrite E1, E2, !N.mod_mul, !N.div_mul by lia. cbn [N.eqb andb].
    replace (N.to_nat (k * q)) with (N.to_nat k * N.to_nat q)%nat by lia.
    apply fill_blow; auto.
  Qed.

  Lemma repr_list_len_none vals c c' : (forall u, u < len vals -> c u = c' u) ->
    repr_list vals 0 c -> repr_list vals 0 c'.
  Proof. intros H Hr i Hi. rewrite (Hr i Hi). rewrite N.add_0_l. f_equal. auto. Qed.

  Lemma flat_insert t l q c m o sz v :
    flat t (l * q) c -> blown q c m -> l = bt_leaf_value_size t -> 0 < l -> 0 < q -> o + sz < two64 ->
    (o + sz <= bt_data_size t -> o mod l = 0 -> sz mod l = 0 -> o mod (l * q) = 0 /\ sz mod (l * q) = 0) ->
    let g := spec_insert (bt_data_size t) l m o sz v in
    exists t' c', bt_insert t o sz v = (t', accepted (snd g)) /\ flat t' (l * q) c' /\ blown q c' (fst g) /\
      bt_data_size t' = bt_data_size t /\ bt_leaf_value_size t' = bt_leaf_value_size t /\
      bt_elements_per_node t' = bt_elements_per_node t.
  Proof.
    intros Hfl Hb El Hl Hq Hov Hal g. subst l. rewrite bt_insert_guard by auto.
    set (l := bt_leaf_value_size t) in *.
    destruct ((o + sz <=? bt_data_size t) && (o mod l =? 0) && (sz mod l =? 0)) eqn:G.
    - rewrite !andb_true_iff, N.leb_le, !N.eqb_eq in G. destruct G as [[G1 G2] G3].
      destruct (Hal G1 G2 G3) as [A1 A2].
      destruct (spec_insert_blown (bt_data_size t) l q c m o sz v) as [S1 S2]; auto.
      fold g in S1, S2.
      destruct Hfl as (vals & Hroot & Hr & Hel & Hd & Hz). rewrite Hroot.
      assert (Hbd : o / (l * q) + sz / (l * q) <= len vals).
      { apply mul_div_self in A1; auto. apply mul_div_self in A2; auto. nia. }
      assert (Hlen : 0 < len vals \/ len vals = 0) by lia. destruct Hlen as [Hlen|Hlen].
      + destruct (flat_node_insert (l * q) vals c o sz v (bt_elements_per_node t) l) as (vals' & H1 & H2 & H3);
          auto; try (apply mul_div_self; auto).
        rewrite H1. exists (with_root t (Leaf 0 (l * q) vals')). eexists. rewrite S1.
        split; [reflexivity|]. split; [|split; [exact S2|auto]].
        exists vals'. repeat split; auto; try (rewrite H2; auto).
        intros u Hu. rewrite fill_outside; [apply Hz; auto|]. right. rewrite N2Nat.id. lia.
      + (* no room at all: only empty inserts *)
        assert (Hsz : sz = 0) by nia. assert (Ho : o = 0) by nia.
        destruct vals; [|unfold len in Hlen; cbn [length] in Hlen; lia].
        assert (Hd0 : bt_data_size t = 0) by nia.
        exists (with_root t (Leaf 0 (l * q) (repeat None (N.to_nat (bt_elements_per_node t))))).
        exists c. subst sz o. cbn [bt_node_insert].
        unfold mod_chk. replace (l * q =? 0) with false by lia. cbn [bind]. rewrite N.mod_0_l by lia.
        cbn [N.eqb check keep]. unfold div_chk. replace (l * q =? 0) with false by lia. cbn [bind].
        unfold sub_chk. replace (0 <=? 0) with true by lia. cbn [bind keep fst snd].
        rewrite N.sub_0_r, N.div_0_l by lia. cbn [N.to_nat bt_set_values].
        rewrite S1. rewrite !N.div_0_l in * by lia. cbn [N.to_nat fill snd accepted fst] in *.
        split; [reflexivity|]. split; [|auto].
        exists (repeat None (N.to_nat (bt_elements_per_node t))). cbn [with_root bt_root bt_data_size].
        split; auto. split.
        * intros i Hi. rewrite len_repeat in Hi. rewrite nth_error_repeat by lia. f_equal.
          symmetry. apply Hz. lia.
        * split; auto. split; [rewrite Hd0; lia|]. intros u Hu. apply Hz. lia.
    - exists t, c. unfold g, spec_insert. fold l. rewrite G. cbn [snd fst accepted]. auto 8.
  Qed.

  (** A history on a flat tree. *)
  Definition aligned_history (d l el : N) (h : list (N * N * V)) : Prop :=
    Forall (fun e => let '(o, sz, _) := e in o + sz < two64 /\
      (o + sz <= d -> o mod l = 0 -> sz mod l = 0 -> o mod el = 0 /\ sz mod el = 0)) h.

  Lemma flat_inserts h : forall t l q c m, flat t (l * q) c -> blown q c m ->
    l = bt_leaf_value_size t -> 0 < l -> 0 < q -> aligned_history (bt_data_size t) l (l * q) h ->
    let g := spec_inserts (bt_data_size t) l m h in
    exists t' c', bt_inserts t h = (t', map accepted (snd g)) /\ flat t' (l * q) c' /\ blown q c' (fst g).
  Proof.
    induction h as [|[[o sz] v] h IH]; intros t l q c m Hfl Hb El Hl Hq Hal g; cbn [bt_inserts].
    - exists t, c. auto.
    - pose proof (Forall_inv Hal) as Hx. cbn beta iota in Hx. destruct Hx as [Hov Ha].
      pose proof (Forall_inv_tail Hal) as Hal'. subst l.
      destruct (flat_insert t (bt_leaf_value_size t) q c m o sz v) as (t1 & c1 & H1 & H2 & H3 & H4 & H5 & H6); auto.
      rewrite H1. cbn [spec_inserts] in g.
      destruct (spec_insert (bt_data_size t) (bt_leaf_value_size t) m o sz v) as [m1 b1] eqn:F.
      cbn [fst snd] in *.
      destruct (IH t1 (bt_leaf_value_size t) q c1 m1) as (t2 & c2 & H7 & H8 & H9); auto.
      { rewrite H4. auto. }
      rewrite H4 in *. rewrite H7. unfold g.
      destruct (spec_inserts (bt_data_size t) (bt_leaf_value_size t) m1 h) as [m2 bs].
      cbn [fst snd map] in *. exists t2, c2. auto.
  Qed.

  (** ** Creating the root *)
  Lemma create_root_grown d s l sz : 0 < l -> 2 <= s -> d < two64 -> s * l < two64 ->
    exists r n, (r = 0 \/ s < d / (l * s ^ (r - 1))) /\ d / (l * s ^ r) <= s /\
      d <= n * (l * s ^ r) /\ (0 < d -> 0 < n) /\ (n - 1) * (l * s ^ r) <= d /\
      bt_create_root (V := V) (bt_new d s l) sz =
        Ok (if l * s ^ r <=? sz then Leaf 0 (l * s ^ r) (repeat None (N.to_nat n))
            else Branch 0 (l * s ^ r) (repeat None (N.to_nat n))).
  Proof.
    intros Hl Hs Hd Hov. unfold bt_create_root. cbn [bt_new bt_elements_per_node bt_leaf_value_size bt_data_size].
    unfold mul_chk. replace (s * l <? two64) with true by lia. cbn [bind].
    replace (l <? s * l) with true by nia.
    destruct (grow_spec 66 d s l 0) as (r & H1 & _ & H2 & H3); auto; try lia.
    rewrite N.pow_0_r, N.mul_1_r in H1. rewrite H1. cbn [bind].
    assert (0 < l * s ^ r) by (apply N.mul_pos_pos; [auto|apply pow_pos; clear - Hs; lia]).
    destruct (div_ceil_ok d (l * s ^ r)) as (n & H4 & H5 & H6 & H7); auto.
    exists r, n. rewrite H4. cbn [bind]. repeat split; auto.
  Qed.

  (** ** A branch root *)
  Definition deep (t : block_tree V) (r : N) (c : slot_map V) : Prop :=
    let s := bt_elements_per_node t in
    let l := bt_leaf_value_size t in
    exists nd j n, bt_root t = Some nd /\ (0 < j)%nat /\ (j < 69)%nat /\ repr s l r j nd 0 n c /\
      bt_data_size t <= n * (l * s ^ r * s ^ N.of_nat j) /\ l * s ^ r * s ^ N.of_nat j < two64.

  Lemma in_group e s o sz : 0 < e -> 0 < s -> 0 < sz -> o mod e = 0 -> sz mod e = 0 ->
    o / (e * s) = (o + sz - 1) / (e * s) ->
    (o / e) / s = (o / e + sz / e - 1) / s.
  Proof.
    intros He Hs Hz Ho Hsz H. rewrite <- !N.div_div in H by lia.
    apply mul_div_self in Ho; auto. apply mul_div_self in Hsz; auto.
    set (u := o / e) in *. set (k := sz / e) in *.
    assert (Hk : 0 < k) by (clear - Hsz Hz; destruct k; lia).
    replace ((o + sz - 1) / e) with (u + k - 1) in H; auto.
    apply (N.div_unique _ _ _ (e - 1)); [lia|].
    rewrite N.mul_sub_distr_l, N.mul_add_distr_l, Ho, Hsz, N.mul_1_r.
    assert (e <= sz); [|lia]. rewrite <- Hsz. rewrite <- (N.mul_1_r e) at 1. apply N.mul_le_mono_l. lia.
  Qed.

  Lemma deep_insert t r c m o sz v :
    let s := bt_elements_per_node t in
    let l := bt_leaf_value_size t in
    let e := l * s ^ r in
    deep t r c -> blown (s ^ r) c m -> 0 < l -> 2 <= s -> o + sz < two64 ->
    o mod e = 0 -> sz mod e = 0 -> 0 < sz -> sz < e * s -> o / (e * s) = (o + sz - 1) / (e * s) ->
    let g := spec_insert (bt_data_size t) l m o sz v in
    exists t' c', bt_insert t o sz v = (t', accepted (snd g)) /\ deep t' r c' /\ blown (s ^ r) c' (fst g) /\
      bt_data_size t' = bt_data_size t /\ bt_leaf_value_size t' = bt_leaf_value_size t /\
      bt_elements_per_node t' = bt_elements_per_node t.
  Proof.
    intros s l e Hdp Hb Hl Hs Hov Ho Hz Hz0 Hlt Hgr g. rewrite bt_insert_guard by auto. fold l.
    assert (Hq : 0 < s ^ r) by (apply pow_pos; clear - Hs; lia). assert (He : 0 < e) by (apply N.mul_pos_pos; auto).
    destruct ((o + sz <=? bt_data_size t) && (o mod l =? 0) && (sz mod l =? 0)) eqn:G.
    - rewrite !andb_true_iff, N.leb_le, !N.eqb_eq in G. destruct G as [[G1 G2] G3].
      destruct (spec_insert_blown (bt_data_size t) l (s ^ r) c m o sz v) as [S1 S2]; auto.
      fold e in S1, S2. fold g in S1, S2.
      destruct Hdp as (nd & j & n & Hroot & Hj & Hj2 & Hr & Hd & Hpw). rewrite Hroot. fold s.
      fold s l in Hr, Hd, Hpw. fold e in Hd, Hpw.
      pose proof (mul_div_self _ _ He Ho) as Eo. pose proof (mul_div_self _ _ He Hz) as Ez.
      set (u := o / e) in *. set (k := sz / e) in *.
      assert (Hk : 0 < k) by (clear - Ez Hz0; destruct k; lia).
      assert (Hks : k < s).
      { apply (N.mul_lt_mono_pos_l e); auto. rewrite Ez. exact Hlt. }
      destruct (insert_repr s l r Hs Hl j 70 nd 0 n c u k v) as (nd' & H1 & H2); auto; try (clear - Hj2; lia).
      { rewrite N.add_0_l. apply (N.mul_le_mono_pos_l _ _ e); auto.
        rewrite N.mul_add_distr_l, Eo, Ez. apply N.le_trans with (bt_data_size t); auto.
        replace (e * (n * s ^ N.of_nat j)) with (n * (e * s ^ N.of_nat j)) by ring. exact Hd. }
      { intros _. split; auto. apply in_group; auto. clear - Hs; lia. }
      fold e in H1. rewrite Eo, Ez in H1. rewrite H1.
      exists (with_root t nd'), (fst (fill (N.to_nat k) u v c)). rewrite S1.
      split; [reflexivity|]. split; [|auto].
      exists nd', j, n. cbn [with_root bt_root bt_data_size bt_leaf_value_size bt_elements_per_node].
      repeat split; auto.
    - exists t, c. unfold g, spec_insert. fold l. rewrite G. cbn [snd fst accepted]. auto 8.
  Qed.

  Lemma deep_get t r c x : 0 < bt_leaf_value_size t -> 2 <= bt_elements_per_node t -> deep t r c ->
    x < bt_data_size t ->
    bt_get t x = Ok (c (x / (bt_leaf_value_size t * bt_elements_per_node t ^ r))).
  Proof.
    intros Hl Hs (nd & j & n & Hroot & Hj & Hj2 & Hr & Hd & Hpw) Hx. unfold bt_get. rewrite Hroot.
    apply (get_repr _ _ _ Hs Hl j 70 nd 0 n); [exact Hr|clear - Hj2; lia|apply N.le_0_l|].
    rewrite N.add_0_l. apply N.div_lt_upper_bound.
    - apply N.neq_0_lt_0, N.mul_pos_pos; auto. apply pow_pos. clear - Hs; lia.
    - eapply N.lt_le_trans; [exact Hx|]. rewrite N.mul_assoc, (N.mul_comm _ n), <- N.mul_assoc. exact Hd.
  Qed.

  Definition op_ok (e s : N) (x : N * N * V) : Prop :=
    let '(o, sz, _) := x in
    o + sz < two64 /\ o mod e = 0 /\ sz mod e = 0 /\ 0 < sz /\ sz < e * s /\
      o / (e * s) = (o + sz - 1) / (e * s).

  Lemma deep_inserts h : forall t r c m,
    let s := bt_elements_per_node t in
    let l := bt_leaf_value_size t in
    deep t r c -> blown (s ^ r) c m -> 0 < l -> 2 <= s -> Forall (op_ok (l * s ^ r) s) h ->
    let g := spec_inserts (bt_data_size t) l m h in
    exists t' c', bt_inserts t h = (t', map accepted (snd g)) /\ deep t' r c' /\ blown (s ^ r) c' (fst g) /\
      bt_data_size t' = bt_data_size t /\ bt_leaf_value_size t' = bt_leaf_value_size t /\
      bt_elements_per_node t' = bt_elements_per_node t.
  Proof.
    induction h as [|[[o sz] v] h IH]; intros t r c m s l Hdp Hb Hl Hs Hal g; cbn [bt_inserts].
    - exists t, c. repeat split; auto.
    - destruct (Forall_inv Hal) as (A1 & A2 & A3 & A4 & A5 & A6).
      pose proof (Forall_inv_tail Hal) as Hal'.
      destruct (deep_insert t r c m o sz v) as (t1 & c1 & H1 & H2 & H3 & H4 & H5 & H6); auto.
      rewrite H1. cbn [spec_inserts] in g. fold l in H3, H1. fold l.
      destruct (spec_insert (bt_data_size t) l m o sz v) as [m1 b1] eqn:F.
      cbn [fst snd] in *.
      pose proof (IH t1 r c1 m1) as IH'. cbv zeta in IH'. rewrite H4, H5, H6 in IH'.
      destruct IH' as (t2 & c2 & H7 & H8 & H9 & H10 & H11 & H12); auto.
      fold l in H7, H9. rewrite H7. unfold g.
      destruct (spec_inserts (bt_data_size t) l m1 h) as [m2 bs].
      cbn [fst snd map] in *. exists t2, c2. repeat split; auto.
  Qed.

  (** ** From a new tree *)
  Lemma blown_nothing q : blown q nothing nothing.
  Proof. intros x. reflexivity. Qed.

  Lemma invalid_insert t o sz v m : 0 < bt_leaf_value_size t -> o + sz < two64 ->
    (o + sz <=? bt_data_size t) && (o mod bt_leaf_value_size t =? 0) && (sz mod bt_leaf_value_size t =? 0) = false ->
    bt_insert t o sz v = (t, Err) /\
    spec_insert (bt_data_size t) (bt_leaf_value_size t) m o sz v = (m, false).
  Proof.
    intros Hl Hov G. rewrite bt_insert_guard by auto. unfold spec_insert. rewrite G. auto.
  Qed.

  Lemma created_insert t o sz v nd : 0 < bt_leaf_value_size t -> o + sz < two64 ->
    bt_root t = None -> bt_create_root t sz = Ok nd ->
    (o + sz <=? bt_data_size t) && (o mod bt_leaf_value_size t =? 0) && (sz mod bt_leaf_value_size t =? 0) = true ->
    bt_insert t o sz v = bt_insert (with_root t nd) o sz v.
  Proof.
    intros Hl Hov Hroot Hc G. rewrite !bt_insert_guard by auto. rewrite Hroot.
    cbn [with_root bt_root bt_data_size bt_leaf_value_size bt_elements_per_node].
    rewrite G, Hc. reflexivity.
  Qed.

  Lemma created_inserts t o sz v nd h : 0 < bt_leaf_value_size t -> o + sz < two64 ->
    bt_root t = None -> bt_create_root t sz = Ok nd ->
    (o + sz <=? bt_data_size t) && (o mod bt_leaf_value_size t =? 0) && (sz mod bt_leaf_value_size t =? 0) = true ->
    bt_inserts t ((o, sz, v) :: h) = bt_inserts (with_root t nd) ((o, sz, v) :: h).
  Proof. intros. cbn [bt_inserts]. rewrite (created_insert t o sz v nd); auto. Qed.

  Definition behaves (d s l : N) (h : list (N * N * V)) : Prop :=
    let g := spec_inserts d l nothing h in
    exists t, bt_inserts (bt_new d s l) h = (t, map accepted (snd g)) /\
      forall x, x < d -> bt_get t x = Ok (fst g (x / l)).

  Lemma behaves_skip d s l o sz v h : 0 < l -> o + sz < two64 ->
    (o + sz <=? d) && (o mod l =? 0) && (sz mod l =? 0) = false ->
    behaves d s l h -> behaves d s l ((o, sz, v) :: h).
  Proof.
    intros Hl Hov G (t & H1 & H2).
    destruct (invalid_insert (bt_new d s l) o sz v nothing) as [E1 E2]; auto.
    unfold behaves. cbn [bt_inserts spec_inserts].
    rewrite E1. cbn [bt_new bt_data_size bt_leaf_value_size] in E2. rewrite E2. rewrite H1.
    destruct (spec_inserts d l nothing h) as [m2 bs]. exists t. cbn [fst snd map accepted] in *. auto.
  Qed.

  Lemma behaves_nil d s l : behaves d s l [].
  Proof. exists (bt_new d s l). split; auto. Qed.

  Lemma blown_one (c m : slot_map V) l x : blown 1 c m -> c (x / (l * 1)) = m (x / l).
  Proof. intros H. rewrite H, N.mul_1_r, N.div_1_r. auto. Qed.

  Lemma blown_q (c m : slot_map V) l q x : 0 < l -> 0 < q -> blown q c m -> c (x / (l * q)) = m (x / l).
  Proof. intros Hl Hq H. rewrite H, N.div_div by lia. auto. Qed.

  Lemma flat_start d s l q n h o sz v : 0 < l -> 0 < q -> d <= n * (l * q) ->
    (o + sz <=? d) && (o mod l =? 0) && (sz mod l =? 0) = true -> o + sz < two64 ->
    bt_create_root (V := V) (bt_new d s l) sz = Ok (Leaf 0 (l * q) (repeat None (N.to_nat n))) ->
    aligned_history d l (l * q) ((o, sz, v) :: h) ->
    behaves d s l ((o, sz, v) :: h).
  Proof.
    intros Hl Hq Hn G Hov Hc Hal. unfold behaves. cbv zeta.
    rewrite (created_inserts (bt_new d s l) o sz v _ h Hl Hov eq_refl Hc G).
    set (t0 := with_root (bt_new d s l) (Leaf 0 (l * q) (repeat None (N.to_nat n)))).
    destruct (flat_inserts ((o, sz, v) :: h) t0 l q nothing nothing) as (t' & c' & H1 & H2 & H3); auto.
    - exists (repeat None (N.to_nat n)). cbn [t0 with_root bt_root bt_data_size bt_new].
      split; auto. split.
      + intros i Hi. rewrite len_repeat in Hi. rewrite nth_error_repeat by lia. auto.
      + split; [nia|]. rewrite len_repeat, N2Nat.id. split; auto.
    - apply blown_nothing.
    - cbn [t0 with_root bt_data_size bt_new] in H1, H3.
      exists t'. split; auto. intros x Hx. rewrite (flat_get _ _ _ x H2). f_equal.
      apply blown_q; auto.
  Qed.

  Lemma flat_behaves d s l h : flat_geometry d s l h -> behaves d s l h.
  Proof.
    intros (Hl & Hd & Hov & Hs & Hh).
    induction h as [|[[o sz] v] h IH]; [apply behaves_nil|].
    destruct (Forall_inv Hh) as [Hz Hos]. pose proof (Forall_inv_tail Hh) as Hh'.
    destruct ((o + sz <=? d) && (o mod l =? 0) && (sz mod l =? 0)) eqn:G.
    - destruct (div_ceil_ok d l) as (n & H1 & H2 & H3 & H4); auto.
      apply (flat_start d s l 1 n); auto; try lia.
      + rewrite N.mul_1_r.
        assert (Hle : l <= sz).
        { rewrite !andb_true_iff, !N.eqb_eq in G. destruct G as [_ G]. apply mul_div_self in G; auto. clear - G Hz Hl. destruct (N.eq_dec (sz / l) 0) as [E|E]; [rewrite E in G; lia|nia]. }
        unfold bt_create_root. cbn [bt_new bt_elements_per_node bt_leaf_value_size bt_data_size].
        unfold mul_chk. replace (s * l <? two64) with true by lia. cbn [bind].
        destruct (l <? s * l) eqn:E.
        * assert (Hs2 : 2 <= s) by (apply N.ltb_lt in E; clear - E Hl; destruct (N.le_gt_cases 2 s); auto; exfalso; assert (s * l <= 1 * l) by (apply N.mul_le_mono_r; lia); lia). destruct Hs as [Hs|Hs]; [lia|].
          change 66%nat with (S 65). cbn [bt_grow]. unfold div_chk. replace (l =? 0) with false by lia. cbn [bind].
          replace (s <? d / l) with false by (symmetry; apply N.ltb_ge; auto). cbn [bind]. rewrite H1. cbn [bind].
          replace (l <=? sz) with true by lia. auto.
        * cbn [bind]. rewrite H1. cbn [bind]. replace (l <=? sz) with true by lia. auto.
      + rewrite N.mul_1_r. unfold aligned_history.
        eapply Forall_impl; [|exact Hh]. intros [[o' sz'] v'] [A B]. split; auto.
    - apply behaves_skip; auto.
  Qed.

  Lemma mod_divides a b x : 0 < a -> 0 < b -> x mod (a * b) = 0 -> x mod a = 0.
  Proof.
    intros Ha Hb H. apply mul_div_self in H; [|nia]. rewrite <- H.
    replace (a * b * (x / (a * b))) with ((b * (x / (a * b))) * a) by lia. apply N.mod_mul. lia.
  Qed.

  Lemma levelled_behaves d s l r h : levelled_geometry d s l r h -> behaves d s l h.
  Proof.
    unfold levelled_geometry, unit_size. cbv zeta. intros (Hl & Hs & Hd & Hov & Hh).
    assert (Hh0 : Forall (op_ok (l * s ^ r) s) h).
    { eapply Forall_impl; [|exact Hh]. intros [[o' sz'] v'] HH. exact HH. }
    clear Hh. rename Hh0 into Hh.
    assert (Hq : 0 < s ^ r) by (apply pow_pos; lia).
    induction h as [|[[o sz] v] h IH]; [apply behaves_nil|].
    destruct (Forall_inv Hh) as (A1 & A2 & A3 & A4 & A5 & A6).
    pose proof (Forall_inv_tail Hh) as Hh'.
    destruct ((o + sz <=? d) && (o mod l =? 0) && (sz mod l =? 0)) eqn:G; [|apply behaves_skip; auto].
    destruct (create_root_grown d s l sz) as (R & n & B1 & B2 & B3 & B4 & B5 & B6); auto.
    assert (HqR : 0 < s ^ R) by (apply pow_pos; clear - Hs; lia).
    destruct (l * s ^ R <=? sz) eqn:E.
    - (* leaf root, units no larger than [l * s ^ r] *)
      apply N.leb_le in E.
      assert (HR : R <= r).
      { destruct (N.le_gt_cases R r) as [|Hgt]; auto. exfalso.
        assert (Hpw : s ^ (r + 1) <= s ^ R) by (apply N.pow_le_mono_r; [clear - Hs|clear - Hgt]; lia).
        rewrite N.pow_add_r, N.pow_1_r in Hpw. apply (N.mul_le_mono_l _ _ l) in Hpw.
        rewrite N.mul_assoc in Hpw. clear - Hpw E A5. lia. }
      apply (flat_start d s l (s ^ R) n); auto.
      assert (Hsplit : s ^ r = s ^ R * s ^ (r - R)).
      { rewrite <- N.pow_add_r. f_equal. clear - HR. lia. }
      assert (Hp' : 0 < s ^ (r - R)) by (apply pow_pos; clear - Hs; lia).
      unfold aligned_history. eapply Forall_impl; [|exact Hh].
      intros [[o' sz'] v'] (C1 & C2 & C3 & _). split; auto. intros _ _ _.
      rewrite Hsplit, N.mul_assoc in C2, C3. split; (eapply mod_divides; [| |eassumption]); [apply N.mul_pos_pos; auto|auto|apply N.mul_pos_pos; auto|auto].
    - apply N.leb_gt in E.
      assert (HR : r < R).
      { destruct (N.lt_ge_cases r R) as [|Hge]; auto. exfalso.
        assert (Hpw : s ^ R <= s ^ r) by (apply N.pow_le_mono_r; [clear - Hs; lia|auto]).
        apply (N.mul_le_mono_l _ _ l) in Hpw.
        assert (Hle : l * s ^ r <= sz).
        { apply mul_div_self in A3; [|apply N.mul_pos_pos; auto]. rewrite <- A3.
          rewrite <- (N.mul_1_r (l * s ^ r)) at 1. apply N.mul_le_mono_l.
          destruct (N.eq_dec (sz / (l * s ^ r)) 0) as [E0|E0]; [|clear - E0; revert E0; generalize (sz / (l * s ^ r)); lia].
          rewrite E0, N.mul_0_r in A3. clear - A3 A4. lia. }
        clear - Hpw Hle E. lia. }
      destruct B1 as [B1|B1]; [clear - B1 HR; lia|].
      assert (Hlt : l * s ^ R < d).
      { assert (Hp1 : 0 < s ^ (R - 1)) by (apply pow_pos; clear - Hs; lia).
        replace R with (R - 1 + 1) by (clear - HR; lia). rewrite N.pow_add_r, N.pow_1_r.
        assert (Hp2 : 0 < l * s ^ (R - 1)) by (apply N.mul_pos_pos; auto).
        rewrite N.mul_assoc.
        destruct (N.lt_ge_cases (l * s ^ (R - 1) * s) d) as [|Hge]; auto. exfalso.
        assert (Hq1 : d / (l * s ^ (R - 1)) <= s).
        { apply N.div_le_upper_bound; [clear - Hp2; lia|auto]. }
        clear - Hq1 B1. lia. }
      assert (Hsplit : s ^ R = s ^ r * s ^ N.of_nat (N.to_nat (R - r))).
      { rewrite <- N.pow_add_r. f_equal. clear - HR. lia. }
      unfold behaves. cbv zeta.
      rewrite (created_inserts (bt_new d s l) o sz v _ h Hl A1 eq_refl B6 G).
      set (t0 := with_root (bt_new d s l) _).
      pose proof (pow_lt_64 l s R Hl Hs ltac:(clear - Hlt Hd; lia)) as HR64.
      pose proof (deep_inserts ((o, sz, v) :: h) t0 r nothing nothing) as Hdi.
      cbv zeta in Hdi. cbn [t0 with_root bt_elements_per_node bt_leaf_value_size bt_data_size bt_new] in Hdi.
      destruct Hdi as (t' & c' & H1 & H2 & H3 & H4 & H5 & H6); auto.
      + exists (Branch 0 (l * s ^ R) (repeat None (N.to_nat n))), (N.to_nat (R - r)), n.
        cbn [t0 with_root bt_root bt_data_size bt_new bt_elements_per_node bt_leaf_value_size].
        split; auto. split; [clear - HR; lia|]. split; [clear - HR HR64; lia|]. split.
        * destruct (N.to_nat (R - r)) as [|j'] eqn:Ej; [clear - Ej HR; lia|]. cbn [repr].
          split; [rewrite N.mul_0_r; reflexivity|]. split; [rewrite Hsplit; apply N.mul_assoc|].
          split; [rewrite len_repeat; apply N2Nat.id|].
          split; [apply N.mod_0_l; apply N.neq_0_lt_0; eapply N.lt_le_trans; [|exact Hs]; reflexivity|].
          intros i Hi. rewrite nth_error_repeat. 2: { clear - Hi. lia. } intros u Hu. reflexivity.
        * assert (He : l * s ^ r * s ^ N.of_nat (N.to_nat (R - r)) = l * s ^ R) by (rewrite Hsplit; symmetry; apply N.mul_assoc).
          rewrite He. split; [auto|clear - Hlt Hd; lia].
      + apply blown_nothing.
      + exists t'. split; auto. intros x Hx.
        rewrite (deep_get t' r c' x); try (rewrite ?H4, ?H5, ?H6; auto).
        f_equal. apply blown_q; auto.
  Qed.

  (** ** Only accepted inserts *)
  Lemma fill_true_free k : forall u v c, snd (fill k u v c) = true ->
    forall x, u <= x < u + N.of_nat k -> c x = None.
  Proof.
    induction k as [|k IH]; intros u v c H x Hx; [lia|]. cbn [fill] in H.
    destruct (c u) eqn:E; [discriminate|].
    destruct (N.eq_dec x u) as [->|Hne]; auto.
    specialize (IH _ _ _ H x ltac:(lia)). unfold slot_set in IH. replace (x =? u) with false in IH by lia. auto.
  Qed.

  Lemma spec_accept d l m o sz v : 0 < l -> snd (spec_insert d l m o sz v) = true ->
    o + sz <= d /\ (forall x, o <= x < o + sz -> m (x / l) = None) /\
    forall x, fst (spec_insert d l m o sz v) (x / l) =
      if (o <=? x) && (x <? o + sz) then Some v else m (x / l).
  Proof.
    intros Hl. unfold spec_insert.
    destruct ((o + sz <=? d) && (o mod l =? 0) && (sz mod l =? 0)) eqn:G; [|discriminate].
    rewrite !andb_true_iff, N.leb_le, !N.eqb_eq in G. destruct G as [[G1 G2] G3].
    apply mul_div_self in G2; auto. apply mul_div_self in G3; auto.
    set (u := o / l) in *. set (k := sz / l) in *. intros H.
    pose proof (fill_true_free _ _ _ _ H) as Hfree. rewrite N2Nat.id in Hfree.
    assert (Hrange : forall x, (u <= x / l < u + k) <-> (o <= x < o + sz)).
    { intros x. pose proof (N.div_mod x l ltac:(lia)) as Hdm. pose proof (N.mod_lt x l ltac:(lia)).
      set (y := x / l) in *. split; nia. }
    split; [auto|]. split.
    - intros x Hx. apply Hfree. apply Hrange; auto.
    - intros x. destruct (fill_free (N.to_nat k) u v m) as [_ Hf]; [rewrite N2Nat.id; auto|].
      rewrite Hf. rewrite N2Nat.id.
      destruct ((u <=? x / l) && (x / l <? u + k)) eqn:E1; destruct ((o <=? x) && (x <? o + sz)) eqn:E2; auto; exfalso.
      + rewrite andb_true_iff, N.leb_le, N.ltb_lt in E1. apply Hrange in E1. lia.
      + assert (Hx : o <= x < o + sz) by lia. apply Hrange in Hx.
        rewrite andb_false_iff, N.leb_gt, N.ltb_ge in E1. lia.
  Qed.

  Lemma spec_all_accepted d l h : forall m, 0 < l ->
    forallb (fun b => b) (snd (spec_inserts d l m h)) = true ->
    forall x v, fst (spec_inserts d l m h) (x / l) = Some v <->
      (m (x / l) = Some v \/ exists e, In e h /\ covers e x /\ snd e = v).
  Proof.
    induction h as [|[[o sz] w] h IH]; intros m Hl Hall x v; cbn [spec_inserts] in *.
    - cbn [fst]. split; [auto|]. intros [H|(e & [] & _)]. auto.
    - pose proof (spec_accept d l m o sz w Hl) as Hacc.
      destruct (spec_insert d l m o sz w) as [m1 b1].
      pose proof (IH m1 Hl) as IH'.
      destruct (spec_inserts d l m1 h) as [m2 bs]. cbn [fst snd forallb] in *.
      apply andb_true_iff in Hall. destruct Hall as [Hb Hbs]. subst b1.
      destruct (Hacc eq_refl) as (_ & Hfree & Hval). rewrite IH' by auto. rewrite Hval. clear IH' Hacc.
      destruct ((o <=? x) && (x <? o + sz)) eqn:E.
      + assert (Hx : o <= x < o + sz) by lia. split.
        * intros [H|(e & Hin & Hc & Hv)].
          -- right. exists (o, sz, w). cbn [In covers snd]. split; [left; auto|]. split; auto. congruence.
          -- right. exists e. cbn [In]. auto.
        * intros [H|(e & [<-|Hin] & Hc & Hv)].
          -- rewrite Hfree in H by auto. discriminate.
          -- cbn [snd] in Hv. left. congruence.
          -- right. exists e. auto.
      + split.
        * intros [H|(e & Hin & Hc & Hv)]; [auto|]. right. exists e. cbn [In]. auto.
        * intros [H|(e & [<-|Hin] & Hc & Hv)]; auto.
          -- cbn [covers] in Hc. lia.
          -- right. exists e. auto.
  Qed.

  Lemma accepted_all bs : Forall (fun r => r = Ok tt) (map accepted bs) -> forallb (fun b => b) bs = true.
  Proof.
    induction bs as [|b bs IH]; cbn; auto. intros H. inversion H as [|? ? Hb Hbs]; subst.
    destruct b; [|discriminate]. apply IH; auto.
  Qed.

  Lemma behaves_accepted d s l h t rs : 0 < l -> behaves d s l h ->
    bt_inserts (bt_new d s l) h = (t, rs) -> Forall (fun r => r = Ok tt) rs ->
    forall x v, x < d -> (bt_get t x = Ok (Some v) <-> exists e, In e h /\ covers e x /\ snd e = v).
  Proof.
    intros Hl (t' & H1 & H2) H Hrs x v Hx. rewrite H1 in H. injection H as <- <-.
    apply accepted_all in Hrs. rewrite H2 by auto.
    pose proof (spec_all_accepted d l h nothing Hl Hrs x v) as Hs.
    split.
    - intros E. injection E as E. apply Hs in E. destruct E as [E|E]; [discriminate|auto].
    - intros E. f_equal. apply Hs. auto.
  Qed.

  (** ** One value per block *)
  Lemma offered_app k h i v j :
    offered k (h ++ [(i, v)]) j =
    match offered k h j with
    | Some w => Some w
    | None => if (i =? j) && (j <? k) then Some v else None
    end.
  Proof.
    unfold offered. destruct (j <? k) eqn:E; [|rewrite andb_false_r; auto]. rewrite andb_true_r.
    induction h as [|[a w] h IH]; cbn [app find fst snd].
    - destruct (i =? j); auto.
    - destruct (a =? j); auto.
  Qed.

  Lemma offered_none k (h : list (N * V)) i : i < k ->
    (offered k h i = None <-> existsb (fun e : N * V => fst e =? i) h = false).
  Proof.
    intros Hi. unfold offered. replace (i <? k) with true by lia.
    induction h as [|[a w] h IH]; cbn [find existsb fst snd]; [tauto|].
    destruct (a =? i); cbn [orb]; [split; discriminate|auto].
  Qed.

  Lemma mod_mul_r a b : 0 < b -> (a * b) mod b = 0.
  Proof. intros. apply N.mod_mul. lia. Qed.

  Lemma block_spec k l q h : forall before m, 0 < l -> 0 < q -> blown q (offered k before) m ->
    let g := spec_inserts (k * (l * q)) l m (block_inserts (l * q) h) in
    snd g = block_results k before h /\ blown q (offered k (before ++ h)) (fst g).
  Proof.
    induction h as [|[i v] h IH]; intros before m Hl Hq Hb; cbn [block_inserts map spec_inserts block_results fst snd].
    - rewrite app_nil_r. auto.
    - fold (block_inserts (l * q) h). cbv zeta.
      assert (Hb1 : snd (spec_insert (k * (l * q)) l m (i * (l * q)) (l * q) v) =
                (i <? k) && negb (existsb (fun e : N * V => fst e =? i) before) /\
              blown q (offered k (before ++ [(i, v)])) (fst (spec_insert (k * (l * q)) l m (i * (l * q)) (l * q) v))).
      { destruct (i <? k) eqn:E.
        - destruct (spec_insert_blown (k * (l * q)) l q (offered k before) m (i * (l * q)) (l * q) v) as [S1 S2]; auto.
          + apply mod_mul_r. nia.
          + apply N.mod_same. nia.
          + nia.
          + rewrite N.div_same, N.div_mul in S1, S2 by nia. change (N.to_nat 1) with 1%nat in *. cbn [fill] in *.
            destruct (offered k before i) as [w|] eqn:F.
            * assert (Hx : existsb (fun e : N * V => fst e =? i) before = true).
              { destruct (existsb (fun e : N * V => fst e =? i) before) eqn:X; auto.
                apply (offered_none k) in X; [congruence|lia]. }
              rewrite Hx. cbn [snd fst andb negb] in *. split; auto.
              intros x. rewrite S2, offered_app.
              destruct (offered k before (x / q)) eqn:Y; auto.
              destruct ((i =? x / q) && (x / q <? k)) eqn:Z; auto. exfalso.
              rewrite andb_true_iff, N.eqb_eq in Z. destruct Z as [Z _]. rewrite <- Z in Y. congruence.
            * apply offered_none in F as X; [|lia]. rewrite X. cbn [snd fst andb negb] in *. split; auto.
              intros x. rewrite S2, offered_app. unfold slot_set.
              destruct (x / q =? i) eqn:Y.
              -- apply N.eqb_eq in Y. rewrite Y, F, N.eqb_refl, E. auto.
              -- replace (i =? x / q) with false by (rewrite N.eqb_sym; auto). cbn [andb].
                 destruct (offered k before (x / q)); auto.
        - unfold spec_insert. replace (i * (l * q) + l * q <=? k * (l * q)) with false by (symmetry; apply N.leb_gt; nia).
          cbn [andb fst snd]. split; auto. intros x. rewrite Hb, offered_app.
          destruct (offered k before (x / q)); auto.
          destruct ((i =? x / q) && (x / q <? k)) eqn:Z; auto. exfalso.
          rewrite andb_true_iff, N.eqb_eq in Z. destruct Z as [Z1 Z2]. rewrite <- Z1 in Z2. congruence. }
      destruct (spec_insert (k * (l * q)) l m (i * (l * q)) (l * q) v) as [m1 b1].
      cbn [fst snd] in Hb1. destruct Hb1 as [H1 H2].
      destruct (IH (before ++ [(i, v)]) m1 Hl Hq H2) as [H3 H4].
      destruct (spec_inserts (k * (l * q)) l m1 (block_inserts (l * q) h)) as [m2 bs].
      cbn [fst snd] in *. rewrite <- app_assoc in H4. cbn [app] in H4. split; [congruence|auto].
  Qed.

  Lemma blocks_ok s l r k h : 0 < l -> 1 <= s -> s * l < two64 -> k * (l * s ^ r) < two64 ->
    Forall (fun e : N * V => fst e * (l * s ^ r) + l * s ^ r < two64) h ->
    exists t, bt_inserts (bt_new (k * (l * s ^ r)) s l) (block_inserts (l * s ^ r) h) =
        (t, map accepted (block_results k [] h)) /\
      forall x, x < k * (l * s ^ r) -> bt_get t x = Ok (offered k h (x / (l * s ^ r))).
  Proof.
    intros Hl Hs Hsl Hk Hh.
    assert (Hq : 0 < s ^ r) by (apply pow_pos; lia). set (b := l * s ^ r) in *.
    assert (Hb : 0 < b) by (unfold b; nia).
    assert (Hbe : behaves (k * b) s l (block_inserts b h)).
    { assert (Hs' : s = 1 \/ 2 <= s) by lia. destruct Hs' as [->|Hs2].
      - apply flat_behaves. unfold flat_geometry. split; auto. split; auto. split; auto. split; [left; lia|].
        unfold block_inserts. rewrite Forall_map. eapply Forall_impl; [|exact Hh].
        intros [i v] Hi. cbn [fst snd] in *. split; auto.
      - apply (levelled_behaves _ _ _ r). unfold levelled_geometry, unit_size. fold b. cbv zeta.
        repeat split; auto.
        unfold block_inserts. rewrite Forall_map. eapply Forall_impl; [|exact Hh].
        intros [i v] Hi. cbn [fst snd] in *. repeat split; auto; try nia.
        + apply mod_mul_r; auto.
        + apply N.mod_same; lia.
        + rewrite <- !N.div_div by lia. rewrite N.div_mul by lia.
          f_equal. apply (N.div_unique _ _ _ (b - 1)); lia. }
    destruct Hbe as (t & H1 & H2).
    destruct (block_spec k l (s ^ r) h [] nothing Hl Hq) as [S1 S2].
    { intros x. unfold offered, nothing. cbn [find]. destruct (x / s ^ r <? k); auto. }
    fold b in S1, S2. exists t. rewrite H1, S1. split; auto.
    intros x Hx. rewrite H2 by auto. rewrite S2, N.div_div by lia. auto.
  Qed.

  (** ** Statements for the property file *)
  Lemma flat_map_ok d s l (h : list (N * N * V)) : flat_geometry d s l h ->
    exists t, bt_inserts (bt_new d s l) h = (t, map accepted (snd (spec_inserts d l nothing h))) /\
      forall x, x < d -> bt_get t x = Ok (fst (spec_inserts d l nothing h) (x / l)).
  Proof. apply flat_behaves. Qed.
  Lemma levelled_map_ok d s l r (h : list (N * N * V)) : levelled_geometry d s l r h ->
    exists t, bt_inserts (bt_new d s l) h = (t, map accepted (snd (spec_inserts d l nothing h))) /\
      forall x, x < d -> bt_get t x = Ok (fst (spec_inserts d l nothing h) (x / l)).
  Proof. apply levelled_behaves. Qed.
  Lemma accepted_ok d s l r (h : list (N * N * V)) t rs : flat_geometry d s l h \/ levelled_geometry d s l r h ->
    bt_inserts (bt_new d s l) h = (t, rs) -> Forall (fun x => x = Ok tt) rs ->
    forall x v, x < d -> (bt_get t x = Ok (Some v) <-> exists e, In e h /\ covers e x /\ snd e = v).
  Proof.
    intros Hg. apply behaves_accepted; [destruct Hg as [Hg|Hg]; apply Hg|].
    destruct Hg; [apply flat_behaves|eapply levelled_behaves]; eauto.
  Qed.
End Proofs.

Ltac Zify.zify_post_hook ::= Z.div_mod_to_equations.
