From Verif Require Import Base BaseLemmas Lru_model Lru_spec.

Section Proofs.
  Context {V : Type}.
  Implicit Types (m : hmap V) (c : lru V).

  Lemma hm_get_remove m k k' : hm_get (hm_remove m k) k' = if k' =? k then None else hm_get m k'.
  Proof.
    induction m as [|[a v] m IH]; cbn [hm_remove filter hm_get fst].
    - destruct (k' =? k); reflexivity.
    - fold (hm_remove m k). destruct (a =? k) eqn:E; cbn [negb].
      + rewrite IH. destruct (k' =? k) eqn:E2; auto. replace (k' =? a) with false by lia. reflexivity.
      + cbn [hm_get]. rewrite IH. destruct (k' =? a) eqn:E2; auto.
        replace (k' =? k) with false by lia. reflexivity.
  Qed.

  Lemma hm_get_insert m k v k' : hm_get (hm_insert m k v) k' = if k' =? k then Some v else hm_get m k'.
  Proof.
    unfold hm_insert; cbn [hm_get]. destruct (k' =? k) eqn:E; auto.
    rewrite hm_get_remove, E. reflexivity.
  Qed.

  Definition keys m := map fst m.
  Lemma keys_remove m k : keys (hm_remove m k) = filter (fun x => negb (x =? k)) (keys m).
  Proof.
    induction m as [|[a v] m IH]; cbn [hm_remove filter keys map fst]; auto.
    fold (hm_remove m k). destruct (negb (a =? k)); cbn [map fst]; fold (keys (hm_remove m k)); rewrite IH; auto.
  Qed.

  (** Invariant: one entry per key, every cached key is in the usage queue, the
      queue is not longer than the capacity. *)
  Definition lru_inv c : Prop :=
    NoDup (keys (lru_values c)) /\ incl (keys (lru_values c)) (lru_usage c) /\
    len (lru_usage c) <= lru_size c.

  Lemma lru_inv_new n : lru_inv (lru_new n).
  Proof. unfold lru_inv, lru_new; cbn. repeat split; try constructor. intros x []. unfold len; cbn; lia. Qed.

  Lemma filter_NoDup {A} (f : A -> bool) l : NoDup l -> NoDup (filter f l).
  Proof. apply NoDup_filter. Qed.

  Lemma remove_first_incl (l rest : list N) k x :
    l = k :: rest -> In x l -> x <> k -> In x rest.
  Proof. intros -> [->|H] Hn; [congruence|auto]. Qed.

  Lemma insert_shape c k v : 0 < lru_size c -> len (lru_usage c) <= lru_size c ->
    exists c', lru_insert c k v = Ok c' /\ lru_size c' = lru_size c /\
      ((len (lru_usage c) < lru_size c /\ lru_usage c' = lru_usage c ++ [k] /\
        lru_values c' = hm_insert (lru_values c) k v) \/
       (exists old rest, len (lru_usage c) = lru_size c /\ lru_usage c = old :: rest /\
        lru_usage c' = rest ++ [k] /\ lru_values c' = hm_insert (hm_remove (lru_values c) old) k v)).
  Proof.
    intros Hp Hl. unfold lru_insert. destruct (len (lru_usage c) =? lru_size c) eqn:E.
    - destruct (lru_usage c) as [|old rest] eqn:U; [unfold len in E; cbn [length] in E; lia|].
      cbn [bind]. eexists; split; [reflexivity|]. cbn. split; auto. right.
      exists old, rest. repeat split; auto. apply N.eqb_eq, E.
    - cbn [bind]. eexists; split; [reflexivity|]. cbn. split; auto. left. repeat split; auto. lia.
  Qed.

  Lemma NoDup_insert m k v : NoDup (keys m) -> NoDup (keys (hm_insert m k v)).
  Proof.
    intros H. unfold hm_insert; cbn [keys map fst]. fold (keys (hm_remove m k)). constructor.
    - rewrite keys_remove, filter_In. intros [_ C]. rewrite N.eqb_refl in C. discriminate.
    - rewrite keys_remove. apply NoDup_filter; auto.
  Qed.
  Lemma NoDup_remove' m k : NoDup (keys m) -> NoDup (keys (hm_remove m k)).
  Proof. rewrite keys_remove. apply NoDup_filter. Qed.

  Lemma lru_insert_inv c k v : 0 < lru_size c -> lru_inv c ->
    exists c', lru_insert c k v = Ok c' /\ lru_inv c' /\ lru_size c' = lru_size c.
  Proof.
    intros Hp (Hnd & Hincl & Hlen).
    destruct (insert_shape c k v Hp Hlen) as (c' & H1 & H2 & [(Ha & Hu & Hv)|(old & rest & Ha & Hu0 & Hu & Hv)]);
      exists c'; split; auto; split; auto; unfold lru_inv; rewrite Hu, Hv, H2.
    - split; [apply NoDup_insert; auto|]. split.
      + unfold hm_insert; cbn [keys map fst]. fold (keys (hm_remove (lru_values c) k)).
        rewrite keys_remove. intros x [->|Hx]; apply in_or_app; [right; left; auto|left].
        apply Hincl. apply filter_In in Hx. tauto.
      + rewrite len_app. unfold len at 2; cbn [length]. lia.
    - split; [apply NoDup_insert, NoDup_remove'; auto|]. split.
      + unfold hm_insert; cbn [keys map fst]. fold (keys (hm_remove (hm_remove (lru_values c) old) k)).
        rewrite !keys_remove. intros x [->|Hx]; apply in_or_app; [right; left; auto|left].
        apply filter_In in Hx. destruct Hx as [Hx _]. apply filter_In in Hx. destruct Hx as [Hx Hne].
        apply (remove_first_incl _ _ _ _ Hu0); auto. intros ->. rewrite N.eqb_refl in Hne. discriminate.
      + rewrite Hu0, len_cons in Ha. rewrite len_app. unfold len at 2; cbn [length]. lia.
  Qed.

  Lemma lru_inserts_ok h : forall c, 0 < lru_size c -> lru_inv c ->
    exists c', lru_inserts c h = Ok c' /\ lru_inv c' /\ lru_size c' = lru_size c.
  Proof.
    induction h as [|[k v] h IH]; intros c Hp Hi; cbn [lru_inserts]; eauto.
    destruct (lru_insert_inv c k v Hp Hi) as (c1 & H1 & H2 & H3). rewrite H1; cbn [bind].
    destruct (IH c1) as (c2 & H4 & H5 & H6); [rewrite H3; auto|auto|].
    exists c2. rewrite H6. auto.
  Qed.

  Lemma inv_count c : lru_inv c -> len (lru_values c) <= lru_size c.
  Proof.
    intros (Hnd & Hincl & Hlen).
    pose proof (NoDup_incl_length Hnd Hincl) as H. unfold keys in H. rewrite map_length in H.
    unfold len in *. lia.
  Qed.

  Lemma lru_bounded_ok cap (h : list (N * V)) : 0 < cap ->
    exists c, lru_inserts (lru_new cap) h = Ok c /\ len (lru_values c) <= cap /\
      NoDup (map fst (lru_values c)).
  Proof.
    intros Hp. destruct (lru_inserts_ok h (lru_new cap)) as (c & H1 & H2 & H3); auto.
    { apply lru_inv_new. }
    exists c. split; auto. apply inv_count in H2 as H4. rewrite H3 in H4. split; [exact H4|].
    destruct H2; auto.
  Qed.

  Lemma lru_inserts_app h1 : forall h2 c c1, lru_inserts c h1 = Ok c1 ->
    lru_inserts c (h1 ++ h2) = lru_inserts c1 h2.
  Proof.
    induction h1 as [|[k v] h1 IH]; intros h2 c c1 H; cbn [lru_inserts app] in *; [inv H; auto|].
    apply bind_Ok_inv in H. destruct H as (c2 & E & H). rewrite E. cbn [bind]. eauto.
  Qed.

  Lemma latest_app (h : list (N * V)) k v k' :
    latest (h ++ [(k, v)]) k' = if k =? k' then Some v else latest h k'.
  Proof. unfold latest. rewrite fold_left_app. reflexivity. Qed.

  Lemma lru_coherent_ok cap (h : list (N * V)) c k v : 0 < cap ->
    lru_inserts (lru_new cap) h = Ok c -> lru_get c k = Some v -> latest h k = Some v.
  Proof.
    intros Hp. revert c k v. induction h as [|[k0 v0] h IH] using rev_ind; intros c k v Hr Hg.
    - cbn in Hr. inv Hr. discriminate.
    - destruct (lru_inserts_ok h (lru_new cap)) as (c1 & H1 & H2 & H3); auto.
      { apply lru_inv_new. }
      rewrite (lru_inserts_app _ _ _ _ H1) in Hr. cbn [lru_inserts] in Hr.
      apply bind_Ok_inv in Hr. destruct Hr as (c2 & E & Hr). inv Hr.
      rewrite latest_app. destruct H2 as (_ & _ & Hlen).
      destruct (insert_shape c1 k0 v0) as (c' & E' & _ & Hs); auto; [rewrite H3; auto|].
      rewrite E' in E. inv E. unfold lru_get in Hg.
      destruct Hs as [(_ & _ & Hv)|(old & rest & _ & _ & _ & Hv)];
        rewrite Hv, hm_get_insert in Hg; destruct (k =? k0) eqn:Ek.
      + replace (k0 =? k) with true by lia. congruence.
      + replace (k0 =? k) with false by lia. eapply IH; eauto.
      + replace (k0 =? k) with true by lia. congruence.
      + replace (k0 =? k) with false by lia. rewrite hm_get_remove in Hg.
        destruct (k =? old); [discriminate|]. eapply IH; eauto.
  Qed.

  Lemma lru_get_after_insert_ok cap (h : list (N * V)) k v : 0 < cap ->
    exists c, lru_inserts (lru_new cap) (h ++ [(k, v)]) = Ok c /\ lru_get c k = Some v.
  Proof.
    intros Hp. destruct (lru_inserts_ok h (lru_new cap)) as (c1 & H1 & H2 & H3); auto.
    { apply lru_inv_new. }
    rewrite (lru_inserts_app _ _ _ _ H1). cbn [lru_inserts]. destruct H2 as (_ & _ & Hlen).
    destruct (insert_shape c1 k v) as (c' & E' & _ & Hs); auto; [rewrite H3; auto|].
    rewrite E'. cbn [bind]. exists c'. split; auto. unfold lru_get.
    destruct Hs as [(_ & _ & Hv)|(old & rest & _ & _ & _ & Hv)];
      rewrite Hv, hm_get_insert, N.eqb_refl; reflexivity.
  Qed.

  (** Filled on misses the cache is a FIFO queue. *)
  Definition fifo_rel c (q : list (N * V)) : Prop :=
    lru_usage c = map fst q /\ NoDup (map fst q) /\ len q <= lru_size c /\
    forall k, hm_get (lru_values c) k = find_entry q k.

  Lemma find_entry_app (q : list (N * V)) k e : find_entry (q ++ [e]) k =
    match find_entry q k with Some v => Some v | None => if fst e =? k then Some (snd e) else None end.
  Proof.
    unfold find_entry. induction q as [|x q IH]; cbn [app find].
    - destruct (fst e =? k); reflexivity.
    - destruct (fst x =? k); auto.
  Qed.

  Lemma find_entry_none (q : list (N * V)) k : find_entry q k = None -> ~ In k (map fst q).
  Proof.
    unfold find_entry. induction q as [|x q IH]; cbn [find map In]; auto.
    destruct (fst x =? k) eqn:E; [discriminate|]. intros H [Hx|Hx]; [lia|]. apply IH; auto.
  Qed.

  Lemma find_entry_not_in (q : list (N * V)) k : ~ In k (map fst q) -> find_entry q k = None.
  Proof.
    unfold find_entry. induction q as [|x q IH]; cbn [find map In]; auto. intros H.
    destruct (fst x =? k) eqn:E; [exfalso; apply H; left; lia|]. apply IH. tauto.
  Qed.

  Lemma NoDup_app_one {A} (l : list A) a : NoDup l -> ~ In a l -> NoDup (l ++ [a]).
  Proof.
    intros Hn Hi. rewrite <- (rev_involutive (l ++ [a])). apply NoDup_rev.
    rewrite rev_app_distr. cbn [rev app]. constructor; [|apply NoDup_rev; auto].
    rewrite <- in_rev; auto.
  Qed.

  Lemma fill_refines c (q : list (N * V)) e : 0 < lru_size c -> fifo_rel c q ->
    exists c', lru_fill c (fst e) (snd e) = Ok c' /\ lru_size c' = lru_size c /\
      fifo_rel c' (fifo_fill (lru_size c) q e).
  Proof.
    intros Hp (Hu & Hnd & Hlen & Hget). unfold lru_fill, lru_contains, fifo_fill. rewrite Hget.
    destruct (find_entry q (fst e)) as [w|] eqn:F.
    - exists c. split; auto. split; auto. unfold fifo_rel; auto.
    - assert (Hul : len (lru_usage c) = len q) by (rewrite Hu, len_map; auto).
      destruct (insert_shape c (fst e) (snd e)) as (c' & E' & Hsz & Hs); auto; [lia|].
      exists c'. split; auto. split; auto. apply find_entry_none in F as Fn.
      destruct Hs as [(Ha & Hu' & Hv)|(old & rest & Ha & Hu0 & Hu' & Hv)].
      + replace (len q =? lru_size c) with false by lia.
        unfold fifo_rel. rewrite Hu', Hv, Hsz, map_app, Hu. cbn [map].
        split; [reflexivity|]. split; [apply NoDup_app_one; auto|].
        split; [rewrite len_app; unfold len at 2; cbn [length]; lia|].
        intros k. rewrite hm_get_insert, find_entry_app, Hget.
        destruct (k =? fst e) eqn:E.
        * replace (fst e =? k) with true by lia. replace k with (fst e) by lia. rewrite F. reflexivity.
        * replace (fst e =? k) with false by lia. destruct (find_entry q k); reflexivity.
      + replace (len q =? lru_size c) with true by lia.
        destruct q as [|x q']; [rewrite Hu in Hu0; discriminate|].
        rewrite Hu in Hu0. cbn [map] in Hu0. injection Hu0 as Hx Hrest. cbn [tl].
        cbn [map In] in Fn, Hnd. inversion Hnd as [|? ? Hnx Hnd']; subst.
        unfold fifo_rel. rewrite Hu', Hv, Hsz, map_app. cbn [map].
        split; [reflexivity|]. split; [apply NoDup_app_one; auto|].
        split; [rewrite len_app; rewrite len_cons in *; unfold len at 2; cbn [length]; lia|].
        intros k. rewrite hm_get_insert, hm_get_remove, find_entry_app, Hget.
        assert (Hfc : find_entry (x :: q') k = if fst x =? k then Some (snd x) else find_entry q' k)
          by (unfold find_entry; cbn [find]; destruct (fst x =? k); reflexivity).
        rewrite Hfc.
        destruct (k =? fst e) eqn:E.
        * replace (fst e =? k) with true by lia.
          rewrite find_entry_not_in; auto. replace k with (fst e) by lia. tauto.
        * replace (fst e =? k) with false by lia.
          destruct (k =? fst x) eqn:E2.
          -- rewrite find_entry_not_in; auto. replace k with (fst x) by lia. auto.
          -- replace (fst x =? k) with false by lia. destruct (find_entry q' k); reflexivity.
  Qed.

  Lemma fills_refine h : forall c q, 0 < lru_size c -> fifo_rel c q ->
    exists c', lru_fills c h = Ok c' /\ fifo_rel c' (fold_left (fifo_fill (lru_size c)) h q).
  Proof.
    induction h as [|[k v] h IH]; intros c q Hp Hr; cbn [lru_fills fold_left]; eauto.
    destruct (fill_refines c q (k, v) Hp Hr) as (c1 & H1 & H2 & H3). cbn [fst snd] in H1.
    rewrite H1; cbn [bind]. rewrite <- H2 in *. apply IH; auto.
  Qed.

  Lemma lru_fifo_ok cap (h : list (N * V)) : 0 < cap ->
    exists c, lru_fills (lru_new cap) h = Ok c /\
      forall k, lru_get c k = find_entry (fold_left (fifo_fill cap) h []) k.
  Proof.
    intros Hp. destruct (fills_refine h (lru_new cap) []) as (c & H1 & H2); auto.
    { unfold fifo_rel; cbn. repeat split; try constructor. unfold len; cbn; lia. }
    exists c. split; auto. destruct H2 as (_ & _ & _ & H). exact H.
  Qed.
End Proofs.
