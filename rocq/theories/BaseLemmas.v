From Verif Require Import Base.

Lemma bind_Ok_inv {A B} (m : res A) (k : A -> res B) b :
  bind m k = Ok b -> exists a, m = Ok a /\ k a = Ok b.
Proof. destruct m; simpl; intros H; try discriminate; eauto. Qed.

Lemma check_Ok b u : check b = Ok u -> b = true.
Proof. destruct b; simpl; congruence. Qed.
Lemma assert_Ok b u : assert b = Ok u -> b = true.
Proof. destruct b; simpl; congruence. Qed.

Ltac inv H := inversion H; subst; clear H.

Ltac res_inv :=
  repeat match goal with
  | H : bind ?m ?k = Ok _ |- _ =>
      apply bind_Ok_inv in H; destruct H as (? & ? & H)
  | H : check _ = Ok _ |- _ => apply check_Ok in H
  | H : assert _ = Ok _ |- _ => apply assert_Ok in H
  | H : Ok _ = Ok _ |- _ => inv H
  | H : Err = Ok _ |- _ => discriminate H
  | H : Panic = Ok _ |- _ => discriminate H
  end.

Lemma bind_not_panic {A B} (m : res A) (k : A -> res B) :
  m <> Panic -> (forall a, m = Ok a -> k a <> Panic) -> bind m k <> Panic.
Proof. destruct m; simpl; intros; try congruence; eauto. Qed.

Lemma len_nil {A} : len (@nil A) = 0.
Proof. reflexivity. Qed.
Lemma len_cons {A} (a : A) l : len (a :: l) = len l + 1.
Proof. unfold len; simpl length; lia. Qed.
Lemma len_app {A} (a b : list A) : len (a ++ b) = len a + len b.
Proof. unfold len; rewrite app_length; lia. Qed.
Lemma len_rev {A} (a : list A) : len (rev a) = len a.
Proof. unfold len; rewrite rev_length; lia. Qed.
Lemma len_map {A B} (f : A -> B) a : len (map f a) = len a.
Proof. unfold len; rewrite map_length; lia. Qed.

Lemma set_nth_length {A} (l : list A) i v : length (set_nth l i v) = length l.
Proof. revert i; induction l; destruct i; simpl; auto. Qed.

Lemma nth_error_set_nth_eq {A} (l : list A) i v :
  (i < length l)%nat -> nth_error (set_nth l i v) i = Some v.
Proof. revert i; induction l; destruct i; simpl; intros; try lia; auto. apply IHl; lia. Qed.

Lemma nth_error_set_nth_neq {A} (l : list A) i j v :
  i <> j -> nth_error (set_nth l i v) j = nth_error l j.
Proof. revert i j; induction l; destruct i, j; simpl; intros; try lia; auto. Qed.

Lemma wf_bytes_app a b : wf_bytes (a ++ b) <-> wf_bytes a /\ wf_bytes b.
Proof. unfold wf_bytes; apply Forall_app. Qed.
Lemma wf_bytes_cons a b : wf_bytes (a :: b) <-> a < 256 /\ wf_bytes b.
Proof. unfold wf_bytes; rewrite Forall_cons_iff; reflexivity. Qed.
Lemma wf_bytes_firstn n l : wf_bytes l -> wf_bytes (firstn n l).
Proof. unfold wf_bytes; intros H; rewrite <- (firstn_skipn n l) in H;
  apply Forall_app in H; tauto. Qed.
Lemma wf_bytes_skipn n l : wf_bytes l -> wf_bytes (skipn n l).
Proof. unfold wf_bytes; intros H; rewrite <- (firstn_skipn n l) in H;
  apply Forall_app in H; tauto. Qed.
Lemma wf_bytesb_iff l : wf_bytesb l = true <-> wf_bytes l.
Proof. unfold wf_bytesb, wf_bytes, byte_ok; rewrite forallb_forall, Forall_forall.
  split; intros H x Hx; specialize (H x Hx); lia. Qed.

Lemma le_bytes_length n v : length (le_bytes n v) = n.
Proof. revert v; induction n; simpl; auto. Qed.
Lemma le_bytes_wf n v : wf_bytes (le_bytes n v).
Proof. revert v; induction n; cbn [le_bytes]; intros; constructor.
  - unfold byte_ok; lia.
  - apply IHn. Qed.

Lemma pow256_S n : 256 ^ N.of_nat (S n) = 256 * 256 ^ N.of_nat n.
Proof. rewrite Nat2N.inj_succ, N.pow_succ_r'; reflexivity. Qed.

Lemma le_value_le_bytes n v : le_value (le_bytes n v) = v mod 256 ^ N.of_nat n.
Proof.
  revert v; induction n; intros v.
  - simpl. rewrite N.mod_1_r; reflexivity.
  - cbn [le_bytes le_value]. rewrite IHn, pow256_S.
    rewrite N.mod_mul_r by (try apply N.pow_nonzero; lia). reflexivity.
Qed.

Lemma le_bytes_le_value l : wf_bytes l -> le_bytes (length l) (le_value l) = l.
Proof.
  induction 1 as [|b l Hb Hl IH]; cbn [length le_value le_bytes]; auto.
  unfold byte_ok in Hb.
  replace ((b + 256 * le_value l) mod 256) with b by lia.
  replace ((b + 256 * le_value l) / 256) with (le_value l) by lia.
  rewrite IH; reflexivity.
Qed.

Lemma le_value_bound l : wf_bytes l -> le_value l < 256 ^ len l.
Proof.
  induction 1 as [|b l Hb Hl IH].
  - simpl; lia.
  - unfold len in *. cbn [le_value length]. rewrite pow256_S.
    unfold byte_ok in Hb. lia.
Qed.

Lemma le_value_app a b : le_value (a ++ b) = le_value a + 256 ^ len a * le_value b.
Proof.
  induction a as [|x a IH].
  - unfold len. simpl le_value. simpl length. rewrite N.pow_0_r. lia.
  - cbn [app le_value]. rewrite IH. unfold len. cbn [length]. rewrite pow256_S. lia.
Qed.

Lemma be_value_rev l : be_value l = le_value (rev l).
Proof.
  unfold be_value.
  rewrite <- (rev_involutive l) at 1. 
  induction l as [|x l IH] using rev_ind.
  - reflexivity.
  - rewrite rev_involutive, fold_left_app, rev_app_distr.
    rewrite rev_involutive in IH. cbn [fold_left app rev le_value].
    rewrite IH. lia.
Qed.

Lemma be_value_be_bytes n v : be_value (be_bytes n v) = v mod 256 ^ N.of_nat n.
Proof. unfold be_bytes. rewrite be_value_rev, rev_involutive. apply le_value_le_bytes. Qed.

Lemma seqN_length s n : length (seqN s n) = n.
Proof. revert s; induction n; simpl; auto. Qed.
Lemma seqN_app s n m : seqN s (n + m) = seqN s n ++ seqN (s + N.of_nat n) m.
Proof.
  revert s; induction n; intros s.
  - simpl. rewrite N.add_0_r. reflexivity.
  - cbn [Nat.add seqN app]. rewrite IHn. do 3 f_equal. lia.
Qed.
Lemma in_seqN x s n : In x (seqN s n) <-> s <= x < s + N.of_nat n.
Proof.
  revert s; induction n; intros s; cbn [seqN In].
  - lia.
  - rewrite IHn. lia.
Qed.
Lemma nth_error_seqN s n i : (i < n)%nat -> nth_error (seqN s n) i = Some (s + N.of_nat i).
Proof.
  revert s i; induction n; intros s i Hi; [lia|].
  destruct i; simpl. { f_equal; lia. }
  rewrite IHn by lia. f_equal; lia.
Qed.

Lemma skipn_skipn {A} x y (l : list A) : skipn x (skipn y l) = skipn (x + y) l.
Proof.
  revert l; induction y as [|y IH]; intros l.
  - rewrite Nat.add_0_r. reflexivity.
  - rewrite Nat.add_succ_r. destruct l; [rewrite !skipn_nil; reflexivity|]. apply IH.
Qed.

Lemma idx_ok {A} (l : list A) i d : i < len l -> idx l i = Ok (nth (N.to_nat i) l d).
Proof.
  intros H. unfold idx, len in *. destruct (nth_error l (N.to_nat i)) eqn:E.
  - erewrite nth_error_nth; eauto.
  - apply nth_error_None in E. lia.
Qed.

Lemma slice_ok {A} (l : list A) a b : a <= b -> b <= len l ->
  slice l a b = Ok (firstn (N.to_nat (b - a)) (skipn (N.to_nat a) l)).
Proof.
  intros Ha Hb. unfold slice. replace ((a <=? b) && (b <=? len l)) with true by lia. reflexivity.
Qed.

Lemma upd_ok {A} (l : list A) i v : i < len l -> upd l i v = Ok (set_nth l (N.to_nat i) v).
Proof. intros H. unfold upd. replace (i <? len l) with true by lia. reflexivity. Qed.
