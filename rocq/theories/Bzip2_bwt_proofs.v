From Coq Require Import Permutation Sorted.
From Verif Require Import Base BaseLemmas Lz_model Checksums_spec Huffman_spec Huffman_proofs Bzip2_model Bzip2_spec Bzip2_proofs.
Ltac Zify.zify_post_hook ::= idtac.

(** ** The sorted rotations *)
Lemma lex_antisym : forall a b, lex_le a b -> lex_le b a -> a = b.
Proof.
  induction a as [| x a IH]; intros [| y b] H1 H2; cbn [lex_le] in *; try tauto.
  destruct H1 as [H1 | [-> H1]], H2 as [H2 | [E H2]]; try lia. f_equal. now apply IH.
Qed.
Lemma sorted_unique {A} (le : A -> A -> Prop) : (forall a b, le a b -> le b a -> a = b) ->
  forall l m, StronglySorted le l -> StronglySorted le m -> Permutation l m -> l = m.
Proof.
  intros Has. induction l as [| x l IH]; intros m Hl Hm Hp.
  - symmetry. now apply Permutation_nil.
  - destruct m as [| y m]; [apply Permutation_sym, Permutation_nil in Hp; discriminate |].
    apply StronglySorted_inv in Hl. destruct Hl as [Hl Fx]. apply StronglySorted_inv in Hm. destruct Hm as [Hm Fy].
    rewrite Forall_forall in Fx, Fy.
    assert (Hyx : x = y).
    { assert (Hy : In y (x :: l)) by (eapply Permutation_in; [apply Permutation_sym; exact Hp | now left]).
      assert (Hx : In x (y :: m)) by (eapply Permutation_in; [exact Hp | now left]).
      destruct Hy as [E | Hy]; [exact E |]. destruct Hx as [E | Hx]; [now symmetry |]. apply Has; auto. }
    subst y. f_equal. apply IH; auto. now apply Permutation_cons_inv in Hp.
Qed.

Definition rotr (l : list N) : list N := match l with [] => [] | _ => last l 0 :: removelast l end.
Lemma rotr_rotate l : rotr (rotate l) = l.
Proof.
  destruct l as [| x l]; [reflexivity |]. cbn [rotate]. unfold rotr.
  destruct (l ++ [x]) as [| y m] eqn:E; [destruct l; discriminate |]. rewrite <- E.
  now rewrite last_last, removelast_last.
Qed.
Lemma rotate_rotr l : rotate (rotr l) = l.
Proof.
  destruct l as [| x l]; [reflexivity |]. unfold rotr. cbn [rotate]. symmetry. apply app_removelast_last. discriminate.
Qed.
Lemma rotate_length l : length (rotate l) = length l.
Proof. destruct l; [reflexivity |]. cbn [rotate]. rewrite app_length. cbn [length]. lia. Qed.
Lemma iter_length k l : length (Nat.iter k rotate l) = length l.
Proof. induction k; [reflexivity |]. change (Nat.iter (S k) rotate l) with (rotate (Nat.iter k rotate l)). now rewrite rotate_length. Qed.
Lemma iter_rotate k : forall l, (k <= length l)%nat -> Nat.iter k rotate l = skipn k l ++ firstn k l.
Proof.
  induction k as [| k IH]; intros l Hk; [cbn; now rewrite app_nil_r |].
  change (Nat.iter (S k) rotate l) with (rotate (Nat.iter k rotate l)). rewrite IH by lia.
  destruct (skipn k l) as [| x t] eqn:E.
  { apply (f_equal (@length N)) in E. rewrite skipn_length in E. cbn in E. lia. }
  cbn [app rotate]. rewrite <- app_assoc.
  assert (Es : skipn (S k) l = t). { replace (S k) with (1 + k)%nat by lia. rewrite <- (skipn_skipn 1 k l), E. reflexivity. }
  rewrite Es. f_equal.
  rewrite <- (firstn_skipn k l) at 2. rewrite E. replace (S k) with (k + 1)%nat by lia.
  assert (Hf : length (firstn k l) = k) by (rewrite firstn_length; lia). rewrite <- Hf at 2.
  rewrite firstn_app_2. reflexivity.
Qed.
Lemma iter_rotate_all l : Nat.iter (length l) rotate l = l.
Proof. rewrite iter_rotate by lia. now rewrite skipn_all, firstn_all. Qed.
Lemma last_rotation l k x : nth_error l k = Some x -> last (Nat.iter (S k) rotate l) 0 = x.
Proof.
  intros H. assert (Hk : (k < length l)%nat) by (apply nth_error_Some; congruence).
  change (Nat.iter (S k) rotate l) with (rotate (Nat.iter k rotate l)). rewrite iter_rotate by lia.
  destruct (skipn k l) as [| y t] eqn:E.
  { apply (f_equal (@length N)) in E. rewrite skipn_length in E. cbn in E. lia. }
  cbn [app rotate]. rewrite last_last. rewrite <- (firstn_skipn k l), nth_error_app2, firstn_length, E in H
    by (rewrite firstn_length; lia).
  replace (k - Nat.min k (length l))%nat with 0%nat in H by lia. now injection H.
Qed.

Lemma rotations_rotr s : Permutation (map rotr (rotations s)) (rotations s).
Proof.
  unfold rotations. destruct (length s) as [| n] eqn:En; [constructor |].
  cbn [seq map]. rewrite map_map.
  replace (map (fun x => rotr (Nat.iter x rotate s)) (seq 1 n)) with (map (fun x => Nat.iter x rotate s) (seq 0 n)).
  - assert (E0 : rotr (Nat.iter 0 rotate s) = Nat.iter n rotate s).
    { rewrite <- (rotr_rotate (Nat.iter n rotate s)). f_equal.
      change (rotate (Nat.iter n rotate s)) with (Nat.iter (S n) rotate s). rewrite <- En. symmetry. apply iter_rotate_all. }
    rewrite E0. change (Permutation (Nat.iter n rotate s :: map (fun x => Nat.iter x rotate s) (seq 0 n))
      (map (fun x => Nat.iter x rotate s) (seq 0 (S n)))).
    rewrite seq_S, map_app. cbn [map Nat.add]. apply Permutation_cons_append.
  - rewrite <- seq_shift, map_map. apply map_ext. intros k.
    change (Nat.iter (S k) rotate s) with (rotate (Nat.iter k rotate s)). now rewrite rotr_rotate.
Qed.
Lemma rotations_length s : Forall (fun r => length r = length s) (rotations s).
Proof.
  unfold rotations. apply Forall_forall. intros r Hr. apply in_map_iff in Hr. destruct Hr as (k & <- & _). apply iter_length.
Qed.
Lemma rotate_in x l : In x (rotate l) <-> In x l.
Proof. destruct l; [reflexivity |]. cbn [rotate]. rewrite in_app_iff. cbn [In]. tauto. Qed.
Lemma iter_in x k l : In x (Nat.iter k rotate l) <-> In x l.
Proof. induction k; [reflexivity |]. change (Nat.iter (S k) rotate l) with (rotate (Nat.iter k rotate l)). now rewrite rotate_in. Qed.
Lemma last_in (l : list N) : l <> [] -> In (last l 0) l.
Proof. intros H. destruct (exists_last H) as (m & x & ->). rewrite last_last. apply in_or_app. right. now left. Qed.

(** Buckets by value *)
Lemma flat_map_ext_in {A B} (f g : A -> list B) l : (forall x, In x l -> f x = g x) -> flat_map f l = flat_map g l.
Proof.
  induction l as [| x l IH]; intros H; [reflexivity |]. cbn [flat_map]. rewrite H by now left. f_equal.
  apply IH. intros y Hy. apply H. now right.
Qed.
Lemma seqN_split b n : b < N.of_nat n -> seqN 0 n = seqN 0 (N.to_nat b) ++ b :: seqN (b + 1) (n - N.to_nat b - 1).
Proof.
  intros H. replace n with (N.to_nat b + S (n - N.to_nat b - 1))%nat at 1 by lia. rewrite seqN_app. f_equal.
  cbn [seqN]. rewrite N.add_0_l, N2Nat.id. reflexivity.
Qed.
Lemma buckets_perm {A} (f : A -> N) n (l : list A) : Forall (fun x => f x < N.of_nat n) l ->
  Permutation (flat_map (fun b => filter (fun x => f x =? b) l) (seqN 0 n)) l.
Proof.
  induction l as [| x l IH]; intros H.
  - cbn [filter]. induction (seqN 0 n); [constructor | exact IHl].
  - apply Forall_cons_iff in H. destruct H as [Hx H]. specialize (IH H).
    rewrite (seqN_split (f x) n Hx) in IH |- *. rewrite flat_map_app in IH |- *. cbn [flat_map] in IH |- *.
    assert (Hother : forall m a, (forall b, In b (seqN a m) -> f x <> b) ->
      flat_map (fun b => filter (fun y => f y =? b) (x :: l)) (seqN a m) = flat_map (fun b => filter (fun y => f y =? b) l) (seqN a m)).
    { intros m a Ha. apply flat_map_ext_in. intros b Hb. cbn [filter]. destruct (N.eqb_spec (f x) b) as [E | _]; [| reflexivity].
      destruct (Ha b Hb E). }
    rewrite !Hother; [| intros b Hb; apply in_seqN in Hb; lia | intros b Hb; apply in_seqN in Hb; lia].
    cbn [filter]. rewrite N.eqb_refl. cbn [app].
    eapply Permutation_trans; [apply Permutation_sym, Permutation_middle |]. constructor. exact IH.
Qed.

Lemma sorted_app {A} (le : A -> A -> Prop) l m : StronglySorted le l -> StronglySorted le m ->
  (forall x y, In x l -> In y m -> le x y) -> StronglySorted le (l ++ m).
Proof.
  intros Hl Hm H. induction Hl as [| x l Hl IH F]; [exact Hm |]. cbn [app]. constructor.
  - apply IH. intros a b Ha Hb. apply H; [now right | exact Hb].
  - apply Forall_app. split; [exact F |]. apply Forall_forall. intros y Hy. apply H; [now left | exact Hy].
Qed.
Lemma sorted_filter {A} (le : A -> A -> Prop) f l : StronglySorted le l -> StronglySorted le (filter f l).
Proof.
  induction 1 as [| x l Hl IH F]; [constructor |]. cbn [filter]. destruct (f x); [| exact IH]. constructor; [exact IH |].
  apply Forall_forall. intros y Hy. apply filter_In in Hy. rewrite Forall_forall in F. now apply F.
Qed.
Lemma sorted_map {A B} (le : A -> A -> Prop) (le' : B -> B -> Prop) (P : A -> Prop) (g : A -> B) l : Forall P l ->
  (forall x y, P x -> P y -> le x y -> le' (g x) (g y)) ->
  StronglySorted le l -> StronglySorted le' (map g l).
Proof.
  intros HP H Hl. induction Hl as [| x l Hl IH F]; [constructor |]. apply Forall_cons_iff in HP. destruct HP as [Px HP].
  cbn [map]. constructor; [now apply IH |]. apply Forall_forall. intros y Hy. apply in_map_iff in Hy.
  destruct Hy as (z & <- & Hz). rewrite Forall_forall in F, HP. apply H; auto.
Qed.
Lemma lex_removelast : forall a b, length a = length b -> lex_le a b -> lex_le (removelast a) (removelast b).
Proof.
  induction a as [| x a IH]; intros [| y b] Hl H; try discriminate; [exact I |].
  cbn [lex_le] in H. destruct a as [| x' a].
  - destruct b; [exact I | discriminate].
  - destruct b as [| y' b]; [discriminate |]. change (removelast (x :: x' :: a)) with (x :: removelast (x' :: a)).
    change (removelast (y :: y' :: b)) with (y :: removelast (y' :: b)). cbn [lex_le].
    destruct H as [H | [-> H]]; [now left |]. right. split; [reflexivity |]. apply IH; [cbn [length] in *; lia | exact H].
Qed.

Definition last_of (r : list N) : N := last r 0.
Lemma buckets_sorted n R : (0 < n)%nat -> Forall (fun r => length r = n) R -> StronglySorted lex_le R ->
  forall k a, StronglySorted lex_le (flat_map (fun b => map rotr (filter (fun r => last_of r =? b) R)) (seqN a k)) /\
    Forall (fun r => exists b t, a <= b /\ r = b :: t) (flat_map (fun b => map rotr (filter (fun r => last_of r =? b) R)) (seqN a k)).
Proof.
  intros Hn Hlen Hs. induction k as [| k IH]; intros a; [split; constructor |]. cbn [seqN flat_map].
  destruct (IH (a + 1)) as [IH1 IH2].
  assert (Hhd : forall r, In r (map rotr (filter (fun r => last_of r =? a) R)) -> exists t, r = a :: t).
  { intros r Hr. apply in_map_iff in Hr. destruct Hr as (q & <- & Hq). apply filter_In in Hq. destruct Hq as [Hq El].
    rewrite Forall_forall in Hlen. specialize (Hlen q Hq). apply N.eqb_eq in El. unfold last_of in El.
    destruct q as [| z q]; [cbn in Hlen; lia |]. exists (removelast (z :: q)). change (rotr (z :: q)) with (last (z :: q) 0 :: removelast (z :: q)). now rewrite El. }
  split.
  - apply sorted_app; [| exact IH1 |].
    + apply (sorted_map lex_le lex_le (fun r => length r = n /\ last_of r = a)).
      * apply Forall_forall. intros r Hr. apply filter_In in Hr. destruct Hr as [Hr El]. apply N.eqb_eq in El. split; [| exact El].
        rewrite Forall_forall in Hlen. now apply Hlen.
      * intros x y [Lx Ex] [Ly Ey] Hxy. destruct x as [| x0 x]; [cbn in Lx; lia |]. destruct y as [| y0 y]; [cbn in Ly; lia |].
        unfold last_of in Ex, Ey. change (rotr (x0 :: x)) with (last (x0 :: x) 0 :: removelast (x0 :: x)).
        change (rotr (y0 :: y)) with (last (y0 :: y) 0 :: removelast (y0 :: y)). rewrite Ex, Ey. cbn [lex_le]. right. split; [reflexivity |].
        apply lex_removelast; [congruence | exact Hxy].
      * now apply sorted_filter.
    + intros x y Hx Hy. destruct (Hhd x Hx) as (t & ->). rewrite Forall_forall in IH2. destruct (IH2 y Hy) as (b & t' & Hb & ->).
      cbn [lex_le]. left. lia.
  - apply Forall_app. split.
    + apply Forall_forall. intros r Hr. destruct (Hhd r Hr) as (t & ->). exists a, t. split; [lia | reflexivity].
    + eapply Forall_impl; [| exact IH2]. intros r (b & t & Hb & E). exists b, t. split; [lia | exact E].
Qed.

Lemma buckets_same s R : wf_bytes s -> s <> [] -> Permutation R (rotations s) -> StronglySorted lex_le R ->
  flat_map (fun b => map rotr (filter (fun r => last_of r =? b) R)) (seqN 0 256) = R.
Proof.
  intros Hwf Hne Hp Hs.
  assert (Hlen : Forall (fun r => length r = length s) R).
  { eapply Permutation_Forall; [apply Permutation_sym; exact Hp | apply rotations_length]. }
  assert (Hn : (0 < length s)%nat) by (destruct s; [congruence | cbn; lia]).
  apply (sorted_unique lex_le lex_antisym); [apply (buckets_sorted (length s)); auto | exact Hs |].
  assert (Em : flat_map (fun b => map rotr (filter (fun r => last_of r =? b) R)) (seqN 0 256) =
    map rotr (flat_map (fun b => filter (fun r => last_of r =? b) R) (seqN 0 256))).
  { generalize (seqN 0 256). intros l. induction l as [| b l IH]; [reflexivity |]. cbn [flat_map]. now rewrite map_app, IH. }
  rewrite Em. clear Em. eapply Permutation_trans.
  - apply Permutation_map. apply (buckets_perm last_of 256).
    apply Forall_forall. intros r Hr. pose proof (Permutation_in _ Hp Hr) as Hr'. unfold rotations in Hr'.
    apply in_map_iff in Hr'. destruct Hr' as (k & <- & _).
    assert (Hi : In (last_of (Nat.iter k rotate s)) s).
    { apply (iter_in _ k). apply last_in. intros E. apply (f_equal (@length N)) in E. rewrite iter_length in E. cbn in E. lia. }
    unfold wf_bytes in Hwf. rewrite Forall_forall in Hwf. apply Hwf in Hi. exact Hi.
  - eapply Permutation_trans; [apply Permutation_map; exact Hp |].
    eapply Permutation_trans; [apply rotations_rotr |]. now apply Permutation_sym.
Qed.

(** ** Counting sort *)
Definition tab256 (f : N -> N) : list N := map f (seqN 0 256).
Lemma tab256_idx f b : b < 256 -> idx (tab256 f) b = Ok (f b).
Proof.
  intros H. unfold idx, tab256. rewrite nth_error_map, nth_error_seqN by lia. cbn [option_map].
  rewrite N.add_0_l, N2Nat.id. reflexivity.
Qed.
Lemma tab256_ext f g : (forall b, b < 256 -> f b = g b) -> tab256 f = tab256 g.
Proof. intros H. unfold tab256. apply map_ext_in. intros b Hb. apply in_seqN in Hb. apply H. lia. Qed.
Lemma tab256_upd f b v : b < 256 -> upd (tab256 f) b v = Ok (tab256 (fun c => if c =? b then v else f c)).
Proof.
  intros H. unfold tab256. rewrite (seqN_split b 256) by lia. rewrite !map_app. cbn [map].
  assert (Hl : len (map f (seqN 0 (N.to_nat b))) = b) by (rewrite len_map; unfold len; rewrite seqN_length; lia).
  pose proof (upd_app_l (map f (seqN 0 (N.to_nat b))) (f b) v (map f (seqN (b + 1) (256 - N.to_nat b - 1)))) as P.
  rewrite Hl in P. rewrite P. f_equal. rewrite N.eqb_refl. f_equal; [| f_equal]; apply map_ext_in; intros c Hc; apply in_seqN in Hc;
    (destruct (N.eqb_spec c b); [lia | reflexivity]).
Qed.

Definition below (l : list N) (b : N) : N := len (filter (fun x => x <? b) l).
Lemma below_next l b : below l (b + 1) = below l b + count_of b l.
Proof.
  unfold below. induction l as [| x l IH]; [reflexivity |]. rewrite count_of_cons. cbn [filter].
  destruct (N.ltb_spec x (b + 1)), (N.ltb_spec x b), (N.eqb_spec x b); rewrite ?len_cons; lia.
Qed.
Lemma below_0 l : below l 0 = 0.
Proof. unfold below. induction l as [| x l IH]; [reflexivity |]. cbn [filter]. destruct (N.ltb_spec x 0); [lia | exact IH]. Qed.

Lemma bz_distributions_ok l : wf_bytes l -> forall f, bz_distributions l (tab256 f) = Ok (tab256 (fun b => f b + count_of b l)).
Proof.
  induction l as [| x l IH]; intros Hwf f.
  - cbn [bz_distributions]. f_equal. apply tab256_ext. intros b _. cbn. lia.
  - apply wf_bytes_cons in Hwf. destruct Hwf as [Hx Hwf]. unfold byte_ok in Hx. cbn [bz_distributions].
    rewrite tab256_idx by exact Hx. cbn [bind]. rewrite tab256_upd by exact Hx. cbn [bind]. rewrite IH by exact Hwf. f_equal.
    apply tab256_ext. intros b Hb. rewrite count_of_cons. destruct (N.eqb_spec b x), (N.eqb_spec x b); subst; try congruence; lia.
Qed.
Lemma bz_starts_ok l : forall n b f, b + N.of_nat n = 256 -> (forall c, b <= c -> f c = count_of c l) ->
  bz_starts (seqN b n) (tab256 f) (below l b) = Ok (tab256 (fun c => if c <? b then f c else below l c)).
Proof.
  induction n as [| n IH]; intros b f Hn Hf.
  - cbn [seqN bz_starts]. f_equal. apply tab256_ext. intros c Hc. destruct (N.ltb_spec c b); [reflexivity | lia].
  - cbn [seqN bz_starts]. rewrite tab256_idx by lia. cbn [bind]. rewrite tab256_upd by lia. cbn [bind].
    rewrite Hf by lia. rewrite <- below_next. rewrite IH; [| lia |].
    + f_equal. apply tab256_ext. intros c Hc. destruct (N.ltb_spec c (b + 1)), (N.ltb_spec c b), (N.eqb_spec c b); subst; try lia; reflexivity.
    + intros c Hc. destruct (N.eqb_spec c b); [lia |]. apply Hf. lia.
Qed.

Fixpoint pos_at (k b : N) (l : list N) : list N :=
  match l with [] => [] | x :: l => if x =? b then k :: pos_at (k + 1) b l else pos_at (k + 1) b l end.
Lemma pos_at_snoc b x l : forall k, pos_at k b (l ++ [x]) = pos_at k b l ++ (if x =? b then [k + len l] else []).
Proof.
  induction l as [| y l IH]; intros k.
  - cbn [app pos_at]. rewrite len_nil, N.add_0_r. destruct (x =? b); reflexivity.
  - cbn [app pos_at]. rewrite IH, len_cons. replace (k + 1 + len l) with (k + (len l + 1)) by lia. destruct (y =? b); reflexivity.
Qed.
Lemma pos_at_len b l : forall k, len (pos_at k b l) = count_of b l.
Proof.
  induction l as [| y l IH]; intros k; [reflexivity |]. cbn [pos_at]. rewrite count_of_cons.
  destruct (N.eqb_spec y b); rewrite ?len_cons, IH; lia.
Qed.
Definition half_sorted (p r : list N) (b : N) : list N := pos_at 0 b p ++ repeat 0 (N.to_nat (count_of b r)).
Lemma half_sorted_len p r b : len (half_sorted p r b) = count_of b (p ++ r).
Proof. unfold half_sorted. rewrite len_app, pos_at_len. unfold len. rewrite repeat_length, N2Nat.id, count_of_app. lia. Qed.
Lemma half_sorted_below p r : forall n, len (flat_map (half_sorted p r) (seqN 0 n)) = below (p ++ r) (N.of_nat n).
Proof.
  induction n as [| n IH]; [cbn [seqN flat_map]; now rewrite below_0 |].
  replace (S n) with (n + 1)%nat at 1 by lia. rewrite seqN_app, flat_map_app, len_app, IH. cbn [seqN flat_map].
  rewrite app_nil_r, half_sorted_len. rewrite Nat2N.inj_succ, <- N.add_1_r, below_next. rewrite N.add_0_l. reflexivity.
Qed.

Lemma bz_permutations_ok r : forall p, wf_bytes (p ++ r) ->
  bz_permutations r (len p) (tab256 (fun b => below (p ++ r) b + count_of b p)) (flat_map (half_sorted p r) (seqN 0 256)) =
  Ok (flat_map (half_sorted (p ++ r) []) (seqN 0 256)).
Proof.
  induction r as [| x r IH]; intros p Hwf.
  - cbn [bz_permutations]. now rewrite app_nil_r.
  - assert (Hx : x < 256). { apply wf_bytes_app in Hwf. destruct Hwf as [_ Hwf]. apply wf_bytes_cons in Hwf. exact (proj1 Hwf). }
    assert (Ep : p ++ x :: r = (p ++ [x]) ++ r) by now rewrite <- app_assoc.
    cbn [bz_permutations]. rewrite tab256_idx by exact Hx. cbn [bind].
    assert (Eu : upd (flat_map (half_sorted p (x :: r)) (seqN 0 256)) (below (p ++ x :: r) x + count_of x p) (len p) =
      Ok (flat_map (half_sorted (p ++ [x]) r) (seqN 0 256))).
    { rewrite (seqN_split x 256) by lia. rewrite !flat_map_app. cbn [flat_map].
      pose proof (half_sorted_below p (x :: r) (N.to_nat x)) as Hb. rewrite N2Nat.id in Hb. rewrite <- Hb.
      set (A := flat_map (half_sorted p (x :: r)) (seqN 0 (N.to_nat x))).
      assert (Ex : half_sorted p (x :: r) x = pos_at 0 x p ++ 0 :: repeat 0 (N.to_nat (count_of x r))).
      { unfold half_sorted. rewrite count_of_cons, N.eqb_refl. replace (N.to_nat (1 + count_of x r)) with (S (N.to_nat (count_of x r))) by lia. reflexivity. }
      assert (Ey : half_sorted (p ++ [x]) r x = pos_at 0 x p ++ len p :: repeat 0 (N.to_nat (count_of x r))).
      { unfold half_sorted. rewrite pos_at_snoc, N.eqb_refl, <- app_assoc. reflexivity. }
      rewrite Ex, Ey. rewrite <- (pos_at_len x p 0), <- len_app. rewrite <- (app_assoc (pos_at 0 x p)). cbn [app].
      rewrite (app_assoc A). rewrite upd_app_l. f_equal. rewrite <- !app_assoc. cbn [app].
      assert (Hc : forall c, c <> x -> half_sorted p (x :: r) c = half_sorted (p ++ [x]) r c).
      { intros c Hc. unfold half_sorted. rewrite count_of_cons, pos_at_snoc. destruct (N.eqb_spec x c); [congruence |].
        now rewrite app_nil_r. }
      unfold A. rewrite (flat_map_ext_in _ (half_sorted (p ++ [x]) r) (seqN 0 (N.to_nat x))) by (intros c Hi; apply Hc; apply in_seqN in Hi; lia).
      rewrite (flat_map_ext_in _ (half_sorted (p ++ [x]) r) (seqN (x + 1) _)) by (intros c Hi; apply Hc; apply in_seqN in Hi; lia).
      reflexivity. }
    rewrite Eu. cbn [bind]. rewrite tab256_upd by exact Hx. cbn [bind].
    replace (len p + 1) with (len (p ++ [x])) by (rewrite len_app; reflexivity).
    rewrite Ep in Hwf |- *. rewrite <- IH by exact Hwf. f_equal. apply tab256_ext. intros b Hb.
    rewrite count_of_app. change (count_of b [x]) with (count_of b (x :: [])). rewrite count_of_cons.
    change (count_of b []) with 0. destruct (N.eqb_spec b x), (N.eqb_spec x b); subst; try congruence; lia.
Qed.
Definition sorted_positions (l : list N) : list N := flat_map (fun b => pos_at 0 b l) (seqN 0 256).
Lemma zeros_buckets l : wf_bytes l -> flat_map (half_sorted [] l) (seqN 0 256) = repeat 0 (length l).
Proof.
  intros Hwf. assert (Hz : forall bs, flat_map (half_sorted [] l) bs = repeat 0 (length (flat_map (half_sorted [] l) bs))).
  { induction bs as [| b bs IH]; [reflexivity |]. cbn [flat_map]. rewrite app_length, repeat_app, <- IH. f_equal.
    unfold half_sorted. cbn [pos_at app]. now rewrite repeat_length. }
  rewrite Hz. f_equal. pose proof (half_sorted_below [] l 256) as H. cbn [app] in H. unfold below in H.
  assert (Ef : filter (fun x => x <? N.of_nat 256) l = l).
  { clear - Hwf. induction l as [| x l IH]; [reflexivity |]. apply wf_bytes_cons in Hwf. destruct Hwf as [Hx Hwf]. unfold byte_ok in Hx.
    cbn [filter]. destruct (N.ltb_spec x (N.of_nat 256)); [| lia]. f_equal. now apply IH. }
  rewrite Ef in H. unfold len in H. lia.
Qed.
Lemma permutations_ok l : wf_bytes l ->
  (distributions <- bz_distributions l (repeat 0 256) ;;
   distributions <- bz_starts (seqN 0 256) distributions 0 ;;
   bz_permutations l 0 distributions (repeat 0 (length l))) = Ok (sorted_positions l).
Proof.
  intros Hwf. assert (E0 : repeat 0 256 = tab256 (fun _ => 0)) by reflexivity.
  rewrite E0, bz_distributions_ok by exact Hwf. cbn [bind].
  pose proof (bz_starts_ok l 256 0 (fun b => 0 + count_of b l) eq_refl (fun c _ => N.add_0_l _)) as P.
  rewrite below_0 in P. rewrite P. cbn [bind]. clear P.
  rewrite (tab256_ext (fun c => if c <? 0 then 0 + count_of c l else below l c) (fun b => below ([] ++ l) b + count_of b [])).
  2:{ intros b _. destruct (N.ltb_spec b 0); [lia |]. cbn [app]. change (count_of b []) with 0. lia. }
  rewrite <- (zeros_buckets l Hwf). change 0 with (len (@nil N)) at 1. rewrite (bz_permutations_ok l [] Hwf). f_equal. unfold sorted_positions, half_sorted.
  apply flat_map_ext_in. intros b _. change (count_of b []) with 0. cbn [N.to_nat repeat app]. apply app_nil_r.
Qed.

(** ** Following the permutation *)
Lemma nth_positions R : forall q b, map (fun i => nth (N.to_nat i) (q ++ R) []) (pos_at (len q) b (map last_of R)) = filter (fun r => last_of r =? b) R.
Proof.
  induction R as [| r R IH]; intros q b; [reflexivity |]. cbn [map pos_at filter].
  assert (En : nth (N.to_nat (len q)) (q ++ r :: R) [] = r).
  { unfold len. rewrite Nat2N.id. rewrite app_nth2, Nat.sub_diag by lia. reflexivity. }
  specialize (IH (q ++ [r]) b). rewrite <- app_assoc in IH. cbn [app] in IH. rewrite len_app in IH. change (len [r]) with 1 in IH.
  destruct (last_of r =? b); [| exact IH]. cbn [map]. rewrite En. now f_equal.
Qed.
Lemma pos_at_range l : forall k b i, In i (pos_at k b l) -> k <= i < k + len l.
Proof.
  induction l as [| x l IH]; intros k b i H; [destruct H |]. rewrite len_cons. cbn [pos_at] in H.
  destruct (x =? b); [destruct H as [<- | H]; [lia |] |]; apply IH in H; lia.
Qed.
Lemma sorted_positions_range l i : In i (sorted_positions l) -> i < len l.
Proof. unfold sorted_positions. intros H. apply in_flat_map in H. destruct H as (b & _ & H). apply pos_at_range in H. lia. Qed.
Lemma next_rotation s R j r : wf_bytes s -> s <> [] -> Permutation R (rotations s) -> StronglySorted lex_le R ->
  nth_error R j = Some r ->
  exists i, nth_error (sorted_positions (map last_of R)) j = Some i /\ nth_error R (N.to_nat i) = Some (rotate r).
Proof.
  intros Hwf Hne Hp Hs Hj. pose proof (buckets_same s R Hwf Hne Hp Hs) as E.
  assert (Eq : map (fun i => rotr (nth (N.to_nat i) R [])) (sorted_positions (map last_of R)) = R).
  { etransitivity; [| exact E]. clear E. unfold sorted_positions.
    induction (seqN 0 256) as [| b bs IH]; [reflexivity |]. cbn [flat_map]. rewrite map_app, IH. f_equal.
    rewrite <- (nth_positions R [] b). cbn [app]. rewrite map_map. reflexivity. }
  rewrite <- Eq in Hj at 1. rewrite nth_error_map in Hj.
  destruct (nth_error (sorted_positions (map last_of R)) j) as [i |] eqn:Ei; [| discriminate]. cbn [option_map] in Hj.
  injection Hj as <-. exists i. split; [reflexivity |]. rewrite rotate_rotr. apply nth_error_nth'.
  apply nth_error_In in Ei. apply sorted_positions_range in Ei. rewrite len_map in Ei. unfold len in Ei. lia.
Qed.

(** The bytes of a block written to the buffer one after the other *)
Fixpoint put_all (text buf : list N) (offset last_byte_value number : N) : res (list N * N) :=
  match text with
  | [] => Ok (buf, offset)
  | b :: text =>
      '(buf, offset, last_byte_value, number) <- bz_put b buf offset last_byte_value number ;;
      put_all text buf offset last_byte_value number
  end.
Lemma bz_output_ok s R : wf_bytes s -> Permutation R (rotations s) -> StronglySorted lex_le R ->
  forall rest pre pv buf offset lb num, s = pre ++ rest ->
  (rest <> [] -> nth_error R (N.to_nat pv) = Some (Nat.iter (S (length pre)) rotate s)) ->
  bz_output (length rest) (map last_of R) (sorted_positions (map last_of R)) pv buf offset lb num = put_all rest buf offset lb num.
Proof.
  intros Hwf Hp Hs. induction rest as [| b rest IH]; intros pre pv buf offset lb num Es Hpv; [reflexivity |].
  specialize (Hpv ltac:(discriminate)). cbn [length bz_output put_all].
  assert (Eb : idx (map last_of R) pv = Ok b).
  { unfold idx. rewrite nth_error_map, Hpv. cbn [option_map]. unfold last_of. rewrite (last_rotation s (length pre) b); [reflexivity |].
    rewrite Es, nth_error_app2, Nat.sub_diag by lia. reflexivity. }
  rewrite Eb. cbn [bind]. destruct (bz_put b buf offset lb num) as [[[[buf' off'] lb'] num'] | |]; cbn [bind]; try reflexivity.
  destruct (next_rotation s R _ _ Hwf ltac:(rewrite Es; destruct pre; discriminate) Hp Hs Hpv) as (i & Ei & Ri).
  assert (Ep : permutation_at (sorted_positions (map last_of R)) pv = Ok i).
  { unfold permutation_at. assert (Hlt : (N.to_nat pv < length (sorted_positions (map last_of R)))%nat) by (apply nth_error_Some; congruence).
    destruct (N.ltb_spec pv (len (sorted_positions (map last_of R)))) as [_ | H]; [| unfold len in H; lia].
    unfold idx. now rewrite Ei. }
  rewrite Ep. cbn [bind]. apply (IH (pre ++ [b])); [now rewrite <- app_assoc |]. intros _.
  rewrite Ri. rewrite app_length. cbn [length]. replace (length pre + 1)%nat with (S (length pre)) by lia. reflexivity.
Qed.
Lemma bz_reverse_bwt_ok text l origin buf offset : wf_bytes text -> text <> [] -> bwt text l origin ->
  bz_reverse_bwt l origin buf offset = put_all text buf offset 0 0.
Proof.
  intros Hwf Hne (R & Hp & Hs & -> & Ho). change (fun r : list N => last r 0) with last_of. unfold bz_reverse_bwt.
  assert (Hl : wf_bytes (map last_of R)).
  { unfold wf_bytes. apply Forall_forall. intros x Hx. apply in_map_iff in Hx. destruct Hx as (r & <- & Hr).
    pose proof (Permutation_in _ Hp Hr) as Hr'. unfold rotations in Hr'.
    apply in_map_iff in Hr'. destruct Hr' as (k & <- & _).
    assert (Hi : In (last_of (Nat.iter k rotate text)) text).
    { apply (iter_in _ k). apply last_in. intros E. apply (f_equal (@length N)) in E. rewrite iter_length in E.
      destruct text; [congruence | discriminate]. }
    unfold wf_bytes in Hwf. rewrite Forall_forall in Hwf. now apply Hwf. }
  pose proof (permutations_ok _ Hl) as E.
  apply bind_Ok_inv in E. destruct E as (d & E1 & E). rewrite E1. cbn [bind].
  apply bind_Ok_inv in E. destruct E as (d' & E2 & E). rewrite E2. cbn [bind]. rewrite E. cbn [bind].
  destruct (next_rotation text R _ _ Hwf Hne Hp Hs Ho) as (i & Ei & Ri).
  assert (Ep : permutation_at (sorted_positions (map last_of R)) origin = Ok i).
  { unfold permutation_at. assert (Hlt : (N.to_nat origin < length (sorted_positions (map last_of R)))%nat) by (apply nth_error_Some; congruence).
    destruct (N.ltb_spec origin (len (sorted_positions (map last_of R)))) as [_ | H]; [| unfold len in H; lia].
    unfold idx. now rewrite Ei. }
  rewrite Ep. cbn [bind].
  replace (length (map last_of R)) with (length text).
  - apply (bz_output_ok text R Hwf Hp Hs text []); [reflexivity |]. intros _. exact Ri.
  - rewrite map_length, (Permutation_length Hp). unfold rotations. now rewrite map_length, seq_length.
Qed.

(** ** Run-length coding *)
Lemma put_one b e done tail lb num : num < 4 ->
  put_all (b :: e) (done ++ tail) (len done) lb num =
  match tail with
  | [] => Err
  | _ :: tl => put_all e ((done ++ [b]) ++ tl) (len (done ++ [b])) b ((if b =? lb then num else 0) + 1)
  end.
Proof.
  intros Hn. cbn [put_all]. unfold bz_put. destruct (N.eqb_spec num 4); [lia |]. rewrite len_app. destruct tail as [| y tl].
  - rewrite len_nil. destruct (N.leb_spec (len done + 0) (len done)); [reflexivity | lia].
  - rewrite len_cons. destruct (N.leb_spec (len done + (len tl + 1)) (len done)); [lia |]. cbn [negb check bind].
    rewrite upd_app_l. cbn [bind]. rewrite len_app. rewrite <- app_assoc. reflexivity.
Qed.
Lemma put_run b e n : forall k done tail, (N.of_nat n) + k <= 4 -> 1 <= k ->
  put_all (repeat b n ++ e) (done ++ tail) (len done) b k =
  if N.of_nat n <=? len tail
  then put_all e ((done ++ repeat b n) ++ skipn n tail) (len (done ++ repeat b n)) b (k + N.of_nat n) else Err.
Proof.
  induction n as [| n IH]; intros k done tail Hk H1.
  - cbn [repeat app skipn]. rewrite app_nil_r, N.add_0_r. destruct (N.leb_spec (N.of_nat 0) (len tail)); [reflexivity | lia].
  - cbn [repeat]. change ((b :: repeat b n) ++ e) with (b :: repeat b n ++ e). rewrite put_one by lia.
    destruct tail as [| y tl]; [destruct (N.leb_spec (N.of_nat (S n)) (len (@nil N))) as [Hx | _]; [rewrite len_nil in Hx; lia | reflexivity] |].
    rewrite N.eqb_refl, IH by lia. rewrite len_cons.
    destruct (N.leb_spec (N.of_nat n) (len tl)), (N.leb_spec (N.of_nat (S n)) (len tl + 1)); try lia; [| reflexivity].
    replace ((done ++ [b]) ++ repeat b n) with (done ++ b :: repeat b n) by (rewrite <- app_assoc; reflexivity).
    replace (k + 1 + N.of_nat n) with (k + N.of_nat (S n)) by lia. reflexivity.
Qed.
Definition run_state (p : option N) (lb num : N) : Prop :=
  match p with None => num = 0 | Some b => lb = b /\ 1 <= num <= 3 end.
Lemma put_first b e p done tail lb num : run_state p lb num -> p <> Some b ->
  put_all (b :: e) (done ++ tail) (len done) lb num =
  match tail with [] => Err | _ :: tl => put_all e ((done ++ [b]) ++ tl) (len (done ++ [b])) b 1 end.
Proof.
  intros Hst Hp. assert (num < 4) by (destruct p; cbn [run_state] in Hst; lia). rewrite put_one by assumption.
  destruct tail; [reflexivity |]. f_equal. destruct p as [x |]; cbn [run_state] in Hst.
  - destruct Hst as [-> _]. destruct (N.eqb_spec b x) as [-> | _]; [congruence | reflexivity].
  - subst num. destruct (b =? lb); reflexivity.
Qed.
Lemma put_first_run b e p n done tail lb num : run_state p lb num -> p <> Some b -> (1 <= n <= 4)%nat ->
  put_all (repeat b n ++ e) (done ++ tail) (len done) lb num =
  if N.of_nat n <=? len tail
  then put_all e ((done ++ repeat b n) ++ skipn n tail) (len (done ++ repeat b n)) b (N.of_nat n) else Err.
Proof.
  intros Hst Hp Hn. destruct n as [| n]; [lia |]. cbn [repeat]. change ((b :: repeat b n) ++ e) with (b :: repeat b n ++ e).
  rewrite (put_first b _ p) by assumption.
  destruct tail as [| y tl]; [destruct (N.leb_spec (N.of_nat (S n)) (len (@nil N))) as [Hx | _]; [rewrite len_nil in Hx; lia | reflexivity] |].
  rewrite put_run by lia. rewrite len_cons.
  destruct (N.leb_spec (N.of_nat n) (len tl)), (N.leb_spec (N.of_nat (S n)) (len tl + 1)); try lia; [| reflexivity].
  replace ((done ++ [b]) ++ repeat b n) with (done ++ b :: repeat b n) by (rewrite <- app_assoc; reflexivity).
  replace (1 + N.of_nat n) with (N.of_nat (S n)) by lia. reflexivity.
Qed.
Lemma put_all_ok p d e : rle1 p d e -> forall done tail lb num, run_state p lb num ->
  put_all e (done ++ tail) (len done) lb num =
  if len d <=? len tail then Ok (done ++ d ++ skipn (length d) tail, len done + len d) else Err.
Proof.
  induction 1 as [p | p b n d e Hn Hp H IH | p b k d e Hk Hp H IH]; intros done tail lb num Hst.
  - cbn [put_all app length skipn]. rewrite len_nil, N.add_0_r. destruct (N.leb_spec 0 (len tail)); [reflexivity | lia].
  - rewrite (put_first_run b e p) by (auto; lia).
    assert (Hrl : len (repeat b n ++ d) = N.of_nat n + len d) by (rewrite len_app; unfold len at 1; now rewrite repeat_length).
    rewrite Hrl. destruct (N.leb_spec (N.of_nat n) (len tail)) as [Hle | Hgt].
    + rewrite IH by (cbn [run_state]; lia). assert (Hsk : len (skipn n tail) = N.of_nat (length tail - n)) by (unfold len; now rewrite skipn_length). rewrite Hsk.
      destruct (N.leb_spec (len d) (N.of_nat (length tail - n))), (N.leb_spec (N.of_nat n + len d) (len tail)); try (unfold len in *; lia); [| reflexivity].
      f_equal. f_equal; [| rewrite len_app; unfold len; rewrite repeat_length; lia].
      rewrite skipn_skipn, app_length, repeat_length, <- !app_assoc. do 4 f_equal. lia.
    + destruct (N.leb_spec (N.of_nat n + len d) (len tail)); [lia | reflexivity].
  - rewrite (put_first_run b (N.of_nat k :: e) p) by (auto; lia).
    assert (Hrl : len (repeat b (4 + k) ++ d) = N.of_nat (4 + k) + len d) by (rewrite len_app; unfold len at 1; now rewrite repeat_length).
    rewrite Hrl. change (N.of_nat 4) with 4. destruct (N.leb_spec 4 (len tail)) as [Hle | Hgt].
    + set (done' := done ++ repeat b 4). set (tail' := skipn 4 tail).
      assert (Ht : len tail' + 4 = len tail) by (unfold tail', len in *; rewrite skipn_length; lia).
      cbn [put_all]. unfold bz_put. change (4 =? 4) with true. cbv iota. rewrite len_app.
      unfold sub_chk. destruct (N.leb_spec (len done') (len done' + len tail')); [| lia]. cbn [bind].
      replace (len done' + len tail' - len done') with (len tail') by lia.
      destruct (N.ltb_spec (len tail') (N.of_nat k)) as [Hs | Hs]; cbn [negb check bind].
      * destruct (N.leb_spec (N.of_nat (4 + k) + len d) (len tail)); [lia | reflexivity].
      * rewrite Nat2N.id. unfold write_at. rewrite len_app. assert (Hr : len (repeat b k) = N.of_nat k) by (unfold len; now rewrite repeat_length).
        rewrite Hr. destruct (N.leb_spec (len done' + N.of_nat k) (len done' + len tail')); [| lia]. cbn [bind].
        assert (E1 : firstn (N.to_nat (len done')) (done' ++ tail') = done').
        { unfold len. rewrite Nat2N.id, firstn_app, Nat.sub_diag, firstn_all. cbn [firstn]. apply app_nil_r. }
        assert (E2 : skipn (N.to_nat (len done' + N.of_nat k)) (done' ++ tail') = skipn k tail').
        { replace (N.to_nat (len done' + N.of_nat k)) with (length done' + k)%nat by (unfold len; lia).
          rewrite skipn_app, skipn_all2 by lia. cbn [app]. f_equal. lia. }
        rewrite E1, E2. rewrite (app_assoc done'). replace (len done' + N.of_nat k) with (len (done' ++ repeat b k)) by (rewrite len_app; lia).
        rewrite IH by reflexivity. assert (Ek : len (skipn k tail') + N.of_nat k = len tail') by (unfold len in *; rewrite skipn_length; lia).
        destruct (N.leb_spec (len d) (len (skipn k tail'))), (N.leb_spec (N.of_nat (4 + k) + len d) (len tail)); try lia; [| reflexivity].
        f_equal. f_equal; [| unfold done'; rewrite !len_app; unfold len; rewrite !repeat_length; lia].
        unfold done', tail'. rewrite !skipn_skipn, app_length, repeat_length, (repeat_app b 4 k), <- !app_assoc. do 5 f_equal. lia.
    + destruct (N.leb_spec (N.of_nat (4 + k) + len d) (len tail)); [lia | reflexivity].
Qed.
Lemma rle1_wf p d e : rle1 p d e -> wf_bytes d -> wf_bytes e.
Proof.
  induction 1 as [p | p b n d e Hn Hp H IH | p b k d e Hk Hp H IH]; intros Hwf; [constructor | |].
  - apply wf_bytes_app in Hwf. apply wf_bytes_app. split; [apply Hwf | now apply IH].
  - apply wf_bytes_app in Hwf. destruct Hwf as [Hr Hd]. cbn [Nat.add repeat] in Hr. apply wf_bytes_cons in Hr. destruct Hr as [Hb _].
    apply wf_bytes_app. split; [repeat (apply wf_bytes_cons; split; [exact Hb |]); constructor |].
    apply wf_bytes_cons. split; [unfold byte_ok; lia | now apply IH].
Qed.
