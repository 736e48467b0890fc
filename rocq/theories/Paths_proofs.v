(** * Proofs about path components, paths and EWF segment file names *)
From Verif Require Import Base BaseLemmas Strings_model Strings_spec Strings_proofs Utf8_spec Utf8_model Utf8_proofs
  Paths_model Paths_spec.

(** ** Byte positions in strings *)
Lemma utf8_len_pos c : 1 <= len (utf8 c).
Proof. unfold utf8. repeat destruct (_ <? _); cbn; lia. Qed.
Lemma utf8_len_ascii c : ascii c -> len (utf8 c) = 1.
Proof. intros H. unfold utf8, ascii in *. destruct (N.ltb_spec c 128); [reflexivity|lia]. Qed.
Lemma utf8_len_not_ascii c : ~ ascii c -> 2 <= len (utf8 c).
Proof.
  intros H. unfold utf8, ascii in *. destruct (N.ltb_spec c 128); [lia|].
  repeat destruct (_ <? _); cbn; lia.
Qed.

Lemma str_len_cons c s : str_len (c :: s) = len (utf8 c) + str_len s.
Proof. unfold str_len. cbn [flat_map]. apply len_app. Qed.
Lemma str_len_app a b : str_len (a ++ b) = str_len a + str_len b.
Proof. unfold str_len. rewrite flat_map_app. apply len_app. Qed.
Lemma str_len_ascii s : Forall ascii s -> str_len s = len s.
Proof.
  induction 1 as [|c s Hc _ IH]; [reflexivity|].
  rewrite str_len_cons, IH, utf8_len_ascii, len_cons by assumption. lia.
Qed.
Lemma str_len_ge s : len s <= str_len s.
Proof.
  induction s as [|c s IH]; [reflexivity|]. rewrite str_len_cons, len_cons.
  pose proof (utf8_len_pos c). lia.
Qed.
Lemma str_len_not_ascii s : ~ Forall ascii s -> len s < str_len s.
Proof.
  induction s as [|c s IH]; intros H; [exfalso; auto|].
  rewrite str_len_cons, len_cons. pose proof (utf8_len_pos c). pose proof (str_len_ge s).
  destruct (N.ltb_spec c 0x80) as [Hc|Hc].
  - assert (len s < str_len s) by (apply IH; intros Hs; apply H; constructor; auto). lia.
  - pose proof (utf8_len_not_ascii c ltac:(unfold ascii; lia)). lia.
Qed.

Lemma str_split_at_app a b : str_split_at (a ++ b) (str_len a) = Ok (a, b).
Proof.
  induction a as [|c a IH]; [destruct b; reflexivity|].
  cbn [app str_split_at]. rewrite str_len_cons. pose proof (utf8_len_pos c).
  destruct (N.eqb_spec (len (utf8 c) + str_len a) 0); [lia|].
  destruct (N.ltb_spec (len (utf8 c) + str_len a) (len (utf8 c))); [lia|].
  replace (len (utf8 c) + str_len a - len (utf8 c)) with (str_len a) by lia.
  now rewrite IH.
Qed.

Lemma str_split_at_inv s : forall i a b,
  str_split_at s i = Ok (a, b) -> s = a ++ b /\ str_len a = i.
Proof.
  induction s as [|c s IH]; intros i a b; cbn [str_split_at].
  - destruct (N.eqb_spec i 0) as [->|]; [|discriminate]. intros [= <- <-]. auto.
  - destruct (N.eqb_spec i 0) as [->|]; [intros [= <- <-]; auto|].
    destruct (N.ltb_spec i (len (utf8 c))); [discriminate|].
    destruct (str_split_at s (i - len (utf8 c))) as [[a' b']| |] eqn:E; try discriminate.
    intros [= <- <-]. apply IH in E as [-> E]. split; [reflexivity|].
    rewrite str_len_cons. lia.
Qed.

Lemma str_from_1 c s : ascii c -> str_from (c :: s) 1 = Ok s.
Proof.
  intros H. unfold str_from. pose proof (str_split_at_app [c] s) as E.
  rewrite str_len_ascii in E by (repeat constructor; assumption).
  cbn [app] in E. change (len [c]) with 1 in E. now rewrite E.
Qed.
Lemma str_from_1_panic c s : ~ ascii c -> str_from (c :: s) 1 = Panic.
Proof.
  intros H. unfold str_from. cbn [str_split_at]. change (1 =? 0) with false. cbv iota.
  pose proof (utf8_len_not_ascii c H).
  destruct (N.ltb_spec 1 (len (utf8 c))); [reflexivity|lia].
Qed.

(** ** Positions *)
Lemma position_some v a b : ~ In v a -> position v (a ++ v :: b) = Some (len a).
Proof.
  induction a as [|x a IH]; intros H; cbn [app position].
  - now rewrite N.eqb_refl.
  - destruct (N.eqb_spec x v) as [->|]; [exfalso; apply H; now left|].
    rewrite IH by (intros G; apply H; now right). now rewrite len_cons.
Qed.
Lemma position_none v l : position v l = None <-> ~ In v l.
Proof.
  induction l as [|x l IH]; cbn [position].
  - split; auto.
  - destruct (N.eqb_spec x v) as [->|Hne].
    + split; [discriminate|]. intros H. exfalso. apply H. now left.
    + destruct (position v l).
      * split; [discriminate|]. intros H. exfalso.
        assert (~ In v l) by (intros G; apply H; now right). apply IH in H0. discriminate.
      * split; auto. intros _ [H|H]; [congruence|]. now apply IH in H.
Qed.
Lemma position_inv v l k : position v l = Some k ->
  exists a b, l = a ++ v :: b /\ ~ In v a /\ len a = k.
Proof.
  revert k. induction l as [|x l IH]; cbn [position]; intros k; [discriminate|].
  destruct (N.eqb_spec x v) as [->|Hne].
  - intros [= <-]. exists [], l. cbn. auto.
  - destruct (position v l) as [i|]; [|discriminate]. intros [= <-].
    destruct (IH i eq_refl) as (a & b & -> & Ha & Hl). exists (x :: a), b.
    rewrite len_cons. split; [reflexivity|]. split; [|lia].
    intros [H|H]; congruence.
Qed.

Lemma position_rev v a b : ~ In v b -> position v (rev (a ++ [v] ++ b)) = Some (len b).
Proof.
  intros H. rewrite !rev_app_distr. cbn [rev app]. rewrite <- app_assoc. cbn [app].
  rewrite position_some; [now rewrite len_rev|]. now rewrite <- in_rev.
Qed.
Lemma position_rev_inv v l k : position v (rev l) = Some k ->
  exists a b, l = a ++ [v] ++ b /\ ~ In v b /\ len b = k.
Proof.
  intros H. apply position_inv in H as (a & b & E & Ha & Hl).
  exists (rev b), (rev a). rewrite <- in_rev, len_rev. split; [|auto].
  rewrite <- (rev_involutive l), E, rev_app_distr. cbn [rev].
  now rewrite <- app_assoc.
Qed.

(** Every name either has no extension or splits, in one way. *)
Lemma splits_or_not name : no_extension name \/ exists stem ext, splits name stem ext.
Proof.
  unfold no_extension. destruct (position 0x2e (rev (tl name))) as [k|] eqn:E.
  - right. apply position_rev_inv in E as (a & b & E & Hb & _).
    destruct name as [|c name]; [destruct a; discriminate|]. cbn [tl] in E. subst name.
    exists (c :: a), b. repeat split; auto. discriminate.
  - left. apply position_none in E. now rewrite <- in_rev in E.
Qed.

Lemma splits_tail name stem ext : splits name stem ext ->
  exists c a, stem = c :: a /\ name = c :: a ++ [0x2e] ++ ext /\ ~ In 0x2e ext.
Proof.
  intros (-> & Hs & He). destruct stem as [|c a]; [congruence|]. exists c, a. auto.
Qed.

(** ** Splitting and joining *)
Lemma split_ne sep s : split sep s <> [].
Proof.
  induction s as [|c s IH]; cbn [split]; [discriminate|].
  destruct (c =? sep); [discriminate|]. destruct (split sep s); discriminate.
Qed.

Lemma join_cons sep w ws : ws <> [] -> join sep (w :: ws) = w ++ [sep] ++ join sep ws.
Proof. destruct ws; [congruence|]. reflexivity. Qed.

Lemma join_split sep s : join sep (split sep s) = s.
Proof.
  induction s as [|c s IH]; [reflexivity|]. cbn [split].
  destruct (N.eqb_spec c sep) as [->|].
  - rewrite join_cons by apply split_ne. now rewrite IH.
  - destruct (split sep s) as [|w ws] eqn:E; [now apply split_ne in E|].
    rewrite <- IH. destruct ws; reflexivity.
Qed.

Lemma split_app sep w s : ~ In sep w -> split sep (w ++ [sep] ++ s) = w :: split sep s.
Proof.
  induction w as [|c w IH]; intros H; cbn [app split].
  - now rewrite N.eqb_refl.
  - destruct (N.eqb_spec c sep) as [->|]; [exfalso; apply H; now left|].
    cbn [app] in IH. rewrite IH; [reflexivity|]. intros G. apply H. now right.
Qed.
Lemma split_none sep w : ~ In sep w -> split sep w = [w].
Proof.
  induction w as [|c w IH]; intros H; cbn [split]; [reflexivity|].
  destruct (N.eqb_spec c sep) as [->|]; [exfalso; apply H; now left|].
  rewrite IH; [reflexivity|]. intros G. apply H. now right.
Qed.

Lemma split_join sep ws :
  ws <> [] -> Forall (fun w => ~ In sep w) ws -> split sep (join sep ws) = ws.
Proof.
  induction ws as [|w ws IH]; intros Hne H; [congruence|].
  apply Forall_cons_iff in H as [Hw H].
  destruct ws as [|w' ws]; [now apply split_none|].
  rewrite join_cons by discriminate. rewrite split_app by assumption.
  rewrite IH by (auto; discriminate). reflexivity.
Qed.

Lemma split_parts sep s : Forall (fun w => ~ In sep w /\ incl w s) (split sep s).
Proof.
  induction s as [|c s IH]; cbn [split].
  - constructor; [|constructor]. split; auto. intros x [].
  - assert (Hin : forall ws, Forall (fun w => ~ In sep w /\ incl w s) ws ->
                    Forall (fun w => ~ In sep w /\ incl w (c :: s)) ws).
    { intros ws. apply Forall_impl. intros w [H1 H2]. split; auto. intros x Hx. right. auto. }
    destruct (N.eqb_spec c sep) as [->|Hne].
    + constructor; [split; [auto|intros x []]|]. auto.
    + destruct (split sep s) as [|w ws] eqn:E; [now apply split_ne in E|].
      apply Forall_cons_iff in IH as [[H1 H2] IH]. constructor; auto.
      split; [intros [G|G]; congruence|]. intros x [->|Hx]; [now left|right; auto].
Qed.

(** ** EWF names *)
Lemma nth_error_flat_map_uniform {A B} (f : A -> list B) k l : (0 < k)%nat ->
  (forall x, In x l -> length (f x) = k) -> forall i,
  nth_error (flat_map f l) i =
  match nth_error l (i / k) with Some x => nth_error (f x) (i mod k) | None => None end.
Proof.
  intros Hk. induction l as [|x l IH]; intros H i.
  - cbn. destruct (i / k)%nat, i; reflexivity.
  - cbn [flat_map]. specialize (H x (or_introl eq_refl)) as Hx.
    specialize (IH (fun y hy => H y (or_intror hy))).
    destruct (Nat.ltb_spec i k) as [Hlt|Hge].
    + rewrite nth_error_app1 by lia. rewrite Nat.div_small, Nat.mod_small by lia. reflexivity.
    + rewrite nth_error_app2 by lia. rewrite Hx, IH.
      assert (E : i = (i - k + 1 * k)%nat) by lia.
      assert (E1 : (i / k = S ((i - k) / k))%nat).
      { rewrite E at 1. rewrite Nat.div_add by lia. lia. }
      assert (E2 : (i mod k = (i - k) mod k)%nat).
      { rewrite E at 1. now rewrite Nat.mod_add by lia. }
      rewrite E1, E2. reflexivity.
Qed.
