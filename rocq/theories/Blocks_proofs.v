From Verif Require Import Base BaseLemmas Streams_model Streams_spec Streams_proofs
  BlockTree_model BlockTree_spec BlockTree_proofs Blocks_model.
Ltac Zify.zify_post_hook ::= idtac.

(** The body of the loop reads the content, at least one byte. *)
Definition exact_step {S} (I : S -> Prop) (size : N) (c : list N)
    (step : S -> N -> N -> S * res (list N)) : Prop :=
  forall s o r, I s -> o < size -> 0 < r -> o + r <= size ->
  exists s' k, step s o r = (s', Ok (bytes_at c o k)) /\ I s' /\ 0 < k <= r.

Lemma read_blocks_exact {S} (I : S -> Prop) size c (step : S -> N -> N -> S * res (list N)) :
  exact_step I size c step -> size < two64 ->
  forall fuel s o n out, I s -> len out <= n -> o + (n - len out) <= size ->
  (N.to_nat (n - len out) < fuel)%nat ->
  exists s', read_blocks fuel size step s o n out = (s', Ok (out ++ bytes_at c o (n - len out))) /\ I s'.
Proof.
  intros Hstep Hsize. induction fuel as [|fuel IH]; intros s o n out HI Ho Hn Hf; [lia|].
  cbn [read_blocks]. destruct (N.ltb_spec (len out) n).
  - destruct (N.leb_spec size o); [lia|].
    destruct (Hstep s o (n - len out)) as (s' & k & E & HI' & Hk); auto; [lia|].
    rewrite E. pose proof (len_bytes_at c o k) as Hl.
    destruct (bytes_at c o k) as [|b l] eqn:Eb.
    + exists s'. split; [|assumption]. do 2 f_equal.
      change (len (@nil N)) with 0 in Hl. rewrite bytes_at_past by lia. now rewrite app_nil_r.
    + rewrite <- Eb in *. unfold add_chk. destruct (N.ltb_spec (o + len (bytes_at c o k)) two64); [|lia].
      destruct (IH s' (o + len (bytes_at c o k)) n (out ++ bytes_at c o k)) as (s'' & E' & HI'');
        auto; rewrite ?len_app; try (rewrite Hl; lia).
      { assert (0 < len (bytes_at c o k)) by (rewrite Eb, len_cons; lia). lia. }
      exists s''. rewrite E'. split; [|assumption]. do 2 f_equal.
      rewrite <- app_assoc, len_app. f_equal.
      replace (n - len out) with (k + (n - len out - k)) by lia.
      rewrite (bytes_at_split c o k). f_equal.
      destruct (N.leb_spec k (len c - o)).
      * rewrite Hl, N.min_l by lia. f_equal; lia.
      * rewrite !bytes_at_past by lia. reflexivity.
  - exists s. split; [|assumption]. replace (n - len out) with 0 by lia.
    unfold bytes_at. cbn [N.to_nat firstn]. now rewrite app_nil_r.
Qed.

Lemma blocks_rd_exact {S} (I : S -> Prop) size c (step : S -> N -> N -> S * res (list N)) :
  exact_step I size c step -> size < two64 -> exact_rd I size c (blocks_rd size step).
Proof.
  intros H Hs s o n HI Ho Hn. unfold blocks_rd.
  destruct (read_blocks_exact I size c step H Hs (Datatypes.S (N.to_nat n)) s o n []) as (s' & E & HI');
    auto; change (len (@nil N)) with 0 in *; try lia.
  rewrite N.sub_0_r in E. exists s'. rewrite E. split; [reflexivity|assumption].
Qed.

(** ** Consecutive ranges *)
Fixpoint consecutive {V} (o : N) (l : list (N * V)) : list (N * N * V) :=
  match l with [] => [] | (s, v) :: t => (o, s, v) :: consecutive (o + s) t end.
Definition total {V} (l : list (N * V)) : N := fold_right (fun e acc => fst e + acc) 0 l.

Lemma insert_ranges_inserts {V} h : forall (t : block_tree V),
  Forall (fun r => r = Ok tt) (snd (bt_inserts t h)) ->
  insert_ranges t h = Ok (fst (bt_inserts t h)).
Proof.
  induction h as [|[[o s] v] h IH]; intros t H; [reflexivity|].
  cbn [insert_ranges bt_inserts] in *. destruct (bt_insert t o s v) as [t1 r].
  specialize (IH t1). destruct (bt_inserts t1 h) as [t2 rs]. cbn [fst snd] in *.
  apply Forall_cons_iff in H as [-> H]. now rewrite IH.
Qed.
Lemma insert_ranges_Ok {V} h : forall (t t' : block_tree V),
  insert_ranges t h = Ok t' ->
  fst (bt_inserts t h) = t' /\ Forall (fun r => r = Ok tt) (snd (bt_inserts t h)).
Proof.
  induction h as [|[[o s] v] h IH]; intros t t' H.
  - injection H as <-. cbn [bt_inserts fst snd]. auto.
  - cbn [insert_ranges bt_inserts] in *. destruct (bt_insert t o s v) as [t1 [[]| |]]; try discriminate.
    apply IH in H as [H1 H2]. destruct (bt_inserts t1 h) as [t2 rs]. cbn [fst snd] in *. auto.
Qed.

Lemma fill_free {V} (v : V) n : forall u m, (forall x, u <= x -> m x = None) ->
  snd (fill n u v m) = true /\ (forall x, u + N.of_nat n <= x -> fst (fill n u v m) x = None).
Proof.
  induction n as [|n IH]; intros u m H.
  - cbn [fill fst snd]. split; auto. intros x Hx. apply H. lia.
  - cbn [fill]. rewrite H by lia. destruct (IH (u + 1) (slot_set m u v)) as [H1 H2].
    + intros x Hx. unfold slot_set. destruct (N.eqb_spec x u); [lia|]. apply H. lia.
    + split; [assumption|]. intros x Hx. apply H2. lia.
Qed.

Lemma consecutive_accepted {V} data_size slot (l : list (N * V)) :
  0 < slot -> forall o m, o mod slot = 0 -> Forall (fun e => fst e mod slot = 0) l ->
  o + total l <= data_size -> (forall x, o / slot <= x -> m x = None) ->
  Forall (fun b => b = true) (snd (spec_inserts data_size slot m (consecutive o l))).
Proof.
  intros Hs. induction l as [|[s v] l IH]; intros o m Ho Hl Ht Hm; [constructor|].
  apply Forall_cons_iff in Hl as [Hs0 Hl]. cbn [fst] in Hs0.
  cbn [total fold_right fst] in Ht. fold (total l) in Ht.
  cbn [consecutive spec_inserts]. unfold spec_insert.
  rewrite Ho, Hs0. destruct (N.leb_spec (o + s) data_size); [|lia]. cbn [N.eqb andb].
  assert (Ed : (o + s) / slot = o / slot + s / slot).
  { apply N.mod_divides in Hs0 as [q ->]; [|lia]. rewrite N.mul_comm, N.div_add, N.div_mul by lia.
    reflexivity. }
  assert (Em : (o + s) mod slot = 0).
  { rewrite N.add_mod, Ho, Hs0 by lia. apply N.mod_0_l. lia. }
  destruct (fill_free v (N.to_nat (s / slot)) (o / slot) m Hm) as [F1 F2].
  destruct (fill _ _ v m) as [m1 b]. cbn [fst snd] in *. subst b.
  specialize (IH (o + s) m1 Em Hl ltac:(lia)).
  destruct (spec_inserts data_size slot m1 (consecutive (o + s) l)) as [m2 bs]. cbn [snd] in *.
  constructor; [reflexivity|]. apply IH. intros x Hx. apply F2. lia.
Qed.

Lemma consecutive_covers {V} (l : list (N * V)) : forall o x, o <= x < o + total l ->
  exists e, In e (consecutive o l) /\ covers e x.
Proof.
  induction l as [|[s v] l IH]; intros o x H; cbn [total fold_right fst] in H; [lia|].
  fold (total l) in H. cbn [consecutive]. destruct (N.ltb_spec x (o + s)).
  - exists (o, s, v). split; [now left|]. unfold covers. lia.
  - destruct (IH (o + s) x) as (e & He & Hc); [lia|]. exists e. split; [now right|assumption].
Qed.

(** A block tree without levels filled with consecutive ranges. *)
Lemma consecutive_tree {V} data_size slot (l : list (N * V)) :
  0 < slot -> data_size < two64 -> Forall (fun e => 0 < fst e /\ fst e mod slot = 0) l ->
  total l <= data_size ->
  exists t, insert_ranges (bt_new data_size 0 slot) (consecutive 0 l) = Ok t /\
    forall x, x < total l -> exists o s v, bt_get t x = Ok (Some v) /\
      In (o, s, v) (consecutive 0 l) /\ o <= x < o + s.
Proof.
  intros Hs Hd Hl Ht.
  assert (Hb : forall o, o + total l <= data_size ->
    Forall (fun '(o, s, _) => 0 < s /\ o + s < two64) (consecutive o l)).
  { clear Ht. induction Hl as [|[s v] l [H1 H2] Hl IH]; intros o Ho; [constructor|].
    cbn [total fold_right fst consecutive] in *. fold (total l) in *.
    constructor; [split; [assumption|lia]|]. apply IH. lia. }
  assert (G : flat_geometry data_size 0 slot (consecutive 0 l)).
  { unfold flat_geometry. repeat split; auto.
    all: unfold two64; lia. }
  destruct (flat_map_ok _ _ _ _ G) as (t & E & _).
  assert (A : Forall (fun r => r = Ok tt) (map accepted (snd (spec_inserts data_size slot nothing (consecutive 0 l))))).
  { apply Forall_map. eapply Forall_impl; [|apply consecutive_accepted; auto].
    - intros b ->. reflexivity.
    - eapply Forall_impl; [|exact Hl]. intros e He. apply He. }
  exists t. split.
  - rewrite insert_ranges_inserts; rewrite E; [reflexivity|exact A].
  - intros x Hx. destruct (consecutive_covers l 0 x) as ([[o s] v] & He & Hc); [lia|].
    exists o, s, v. split; [|split; [assumption|exact Hc]].
    eapply (accepted_ok (V := V) data_size 0 slot 0 (consecutive 0 l) t _ (or_introl G) E A x v); [lia|].
    exists (o, s, v). auto.
Qed.

(** The content of consecutive pieces. *)
Lemma bytes_at_concat {V} (piece : N * V -> list N) (l : list (N * V)) :
  Forall (fun e => len (piece e) = fst e) l -> forall o o' s v pre,
  len pre = o -> In (o', s, v) (consecutive o l) ->
  bytes_at (pre ++ flat_map piece l) o' s = piece (s, v).
Proof.
  induction 1 as [|[s0 v0] l H _ IH]; intros o o' s v pre Hp Hin; [destruct Hin|].
  cbn [consecutive] in Hin. destruct Hin as [[= <- <- <-]|Hin]; cbn [flat_map].
  - cbn [fst] in H. unfold bytes_at.
    replace (N.to_nat o) with (length pre) by (unfold len in Hp; lia).
    rewrite skipn_app, skipn_all, Nat.sub_diag. cbn [app skipn].
    replace (N.to_nat s0) with (length (piece (s0, v0))) by (unfold len in H; lia).
    rewrite firstn_app, firstn_all, Nat.sub_diag. cbn [firstn]. apply app_nil_r.
  - rewrite app_assoc. apply (IH (o + s0)); [|assumption]. rewrite len_app. cbn [fst] in H. lia.
Qed.
Lemma len_flat_pieces {V} (piece : N * V -> list N) (l : list (N * V)) :
  Forall (fun e => len (piece e) = fst e) l -> len (flat_map piece l) = total l.
Proof.
  induction 1 as [|[s v] l H _ IH]; [reflexivity|]. cbn [flat_map total fold_right fst] in *.
  fold (total l). rewrite len_app. lia.
Qed.
Lemma total_app {V} (a b : list (N * V)) : total (a ++ b) = total a + total b.
Proof.
  induction a as [|[s v] a IH]; [reflexivity|]. cbn [total fold_right fst app] in *.
  fold (total a) (total (a ++ b)). lia.
Qed.
Lemma consecutive_app {V} (a b : list (N * V)) : forall o,
  consecutive o (a ++ b) = consecutive o a ++ consecutive (o + total a) b.
Proof.
  induction a as [|[s v] a IH]; intros o.
  - cbn. now rewrite N.add_0_r.
  - cbn [app consecutive total fold_right fst]. fold (total a). rewrite IH, N.add_assoc. reflexivity.
Qed.
