(** * Proofs about the signature scanner *)
From Coq Require Import Lia.
From Verif Require Import Base BaseLemmas Lru_model Lru_proofs Sigscan_model Sigscan_spec.
Open Scope N_scope.
Ltac Zify.zify_post_hook ::= idtac.

Lemma nth_error_skipn_at {A} (l : list A) n i : nth_error (skipn n l) i = nth_error l (n + i).
Proof. revert l. induction n as [|n IH]; [reflexivity|]. intros [|x l]; [destruct i; reflexivity|apply IH]. Qed.
Lemma bytes_eq_iff a b : bytes_eq a b = true <-> a = b.
Proof.
  revert b. induction a as [|x a IH]; intros [|y b]; cbn; try (split; [discriminate|discriminate]); [tauto|].
  rewrite Bool.andb_true_iff, N.eqb_eq, IH. split; [intros [-> ->]; reflexivity|intros [= -> ->]; auto].
Qed.
Lemma type_eq_iff a b : type_eq a b = true <-> a = b.
Proof. destruct a, b; cbn; split; congruence. Qed.
Lemma contains_iff l s : contains l s = true <-> exists s', In s' l /\ pattern s' = pattern s.
Proof.
  unfold contains, signature_eq. rewrite existsb_exists. split; intros (s' & Hs & E); exists s'; (split; [exact Hs|]); apply bytes_eq_iff; exact E.
Qed.
Definition same (a b : signature) : bool :=
  (String.eqb (identifier a) (identifier b)) && type_eq (s_type a) (s_type b) && (s_offset a =? s_offset b) && bytes_eq (pattern a) (pattern b).
Lemma same_iff a b : same a b = true <-> a = b.
Proof.
  destruct a, b. unfold same. cbn. rewrite !Bool.andb_true_iff, String.eqb_eq, type_eq_iff, N.eqb_eq, bytes_eq_iff.
  split; [intros [[[-> ->] ->] ->]; reflexivity|intros [= -> -> -> ->]; auto].
Qed.

(** ** Where a signature stands in the table and the tree *)
Definition base_of (largest : N) (s : signature) : N :=
  match s_type s with BoundToEnd => largest - s_offset s | BoundToStart => s_offset s | Unbound => 0 end.
Definition byte_of (largest : N) (s : signature) (p : N) : option N :=
  if p <? base_of largest s then None else nth_error (pattern s) (N.to_nat (p - base_of largest s)).

(** A node reports a signature that matches whenever [s] does *)
Fixpoint covers (largest : N) (s : signature) (o : scan_object) {struct o} : bool :=
  match o with
  | OSignature s' => same s' s
  | ONode p objects =>
      let default := (fix go l := match l with [] => false | (None, o) :: _ => covers largest s o | _ :: l => go l end) objects in
      match byte_of largest s p with
      | Some b =>
          (fix go l := match l with
                       | [] => default
                       | (Some b', o) :: l =>
                           if b =? b' then match o with OSignature s' => same s' s || default | _ => covers largest s o end else go l
                       | _ :: l => go l
                       end) objects
      | None =>
          default &&
          (fix go l := match l with
                       | [] => true
                       | (Some _, o) :: l => match o with ONode _ _ => covers largest s o | _ => true end && go l
                       | _ :: l => go l
                       end) objects
      end
  end.
Definition covers_opt largest s (o : option scan_object) : bool := match o with Some o => covers largest s o | None => false end.
Lemma covers_default largest s l :
  (fix go (l : list (option N * scan_object)) : bool := match l with [] => false | (None, o) :: _ => covers largest s o | _ :: l => go l end) l
  = covers_opt largest s (object_get l None).
Proof. induction l as [|[[k|] o] l IH]; [reflexivity|exact IH|reflexivity]. Qed.
Lemma covers_node largest s p objects :
  covers largest s (ONode p objects)
  = match byte_of largest s p with
    | Some b => match object_get objects (Some b) with
                | Some (OSignature s') => same s' s || covers_opt largest s (object_get objects None)
                | Some o => covers largest s o
                | None => covers_opt largest s (object_get objects None)
                end
    | None => covers_opt largest s (object_get objects None) &&
              forallb (fun '(k, o) => match k, o with Some _, ONode _ _ => covers largest s o | _, _ => true end) objects
    end.
Proof.
  cbn [covers]. rewrite covers_default. destruct (byte_of largest s p) as [b|].
  - generalize (covers_opt largest s (object_get objects None)) as d. intros d.
    induction objects as [|[[k|] o] l IH]; [reflexivity| |exact IH]. cbn [object_get]. destruct (b =? k); [destruct o; reflexivity|exact IH].
  - f_equal. induction objects as [|[[k|] o] l IH]; cbn [forallb]; [reflexivity|rewrite IH; reflexivity|exact IH].
Qed.
(** The signatures in a tree *)
Inductive in_tree (s : signature) : scan_object -> Prop :=
| In_signature : in_tree s (OSignature s)
| In_node p objects k o : In (k, o) objects -> in_tree s o -> in_tree s (ONode p objects).
Lemma object_get_In l k o : object_get l k = Some o -> exists k', In (k', o) l.
Proof.
  induction l as [|[k' o'] l IH]; [discriminate|]. cbn [object_get].
  destruct (match k, k' with Some a, Some b => a =? b | None, None => true | _, _ => false end).
  - intros [= ->]. exists k'. left. reflexivity.
  - intros H. destruct (IH H) as (k2 & Hk). exists k2. right. exact Hk.
Qed.
Lemma object_get_app a b k : object_get (a ++ b) k = match object_get a k with Some o => Some o | None => object_get b k end.
Proof.
  induction a as [|[k' o'] l IH]; [reflexivity|]. cbn [app object_get].
  destruct (match k, k' with Some a, Some b => a =? b | None, None => true | _, _ => false end); [reflexivity|exact IH].
Qed.

(** ** The table *)
Definition group_get (g : byte_groups) (b : N) : list signature := match find (fun '(b', _) => b =? b') g with Some (_, l) => l | None => [] end.
Lemma group_get_insert g b s b' : group_get (byte_insert g b s) b' = if b' =? b then group_get g b ++ [s] else group_get g b'.
Proof.
  unfold group_get. induction g as [|[b2 l] g IH]; cbn [byte_insert find].
  - destruct (b' =? b) eqn:E; reflexivity.
  - destruct (N.eqb_spec b b2) as [->|Hn]; cbn [find].
    + destruct (b' =? b2) eqn:E; [reflexivity|reflexivity].
    + destruct (N.eqb_spec b' b2) as [->|Hn2].
      * destruct (N.eqb_spec b2 b); [congruence|reflexivity].
      * exact IH.
Qed.
Lemma In_byte_insert g b s k l x : In (k, l) (byte_insert g b s) -> In x l -> (k = b /\ x = s) \/ (exists l', In (k, l') g /\ In x l').
Proof.
  induction g as [|[b2 l2] g IH]; cbn [byte_insert].
  - intros [[= <- <-]|[]] [<-|[]]. auto.
  - destruct (N.eqb_spec b b2) as [->|Hn].
    + intros [[= <- <-]|H] Hx.
      * apply in_app_iff in Hx. destruct Hx as [Hx|[<-|[]]]; [right; exists l2; split; [left; reflexivity|exact Hx]|auto].
      * right. exists l. split; [right; exact H|exact Hx].
    + intros [[= <- <-]|H] Hx; [right; exists l2; split; [left; reflexivity|exact Hx]|].
      destruct (IH H Hx) as [?|(l' & Hl & Hx')]; [auto|right; exists l'; split; [right; exact Hl|exact Hx']].
Qed.
Fixpoint above (o : N) (l : list (N * byte_groups)) : Prop := match l with [] => True | (o', _) :: l => o < o' /\ above o l end.
Fixpoint sorted (l : list (N * byte_groups)) : Prop := match l with [] => True | (o, _) :: l => above o l /\ sorted l end.
Lemma above_weaken a b l : a <= b -> above b l -> above a l.
Proof. intros Hab. induction l as [|[o g] l IH]; [auto|]. cbn. intros [? ?]. split; [lia|auto]. Qed.
Lemma above_get o l : above o l -> offset_get l o = None.
Proof. induction l as [|[o' g] l IH]; [reflexivity|]. cbn. intros [H1 H2]. destruct (N.eqb_spec o o'); [lia|auto]. Qed.
Lemma above_insert a l o b s : a < o -> above a l -> above a (offset_insert l o b s).
Proof.
  intros Ha. induction l as [|[o' g] l IH]; cbn [offset_insert above]; [auto|]. intros [H1 H2].
  destruct (N.eqb_spec o o'); [cbn; auto|]. destruct (N.ltb_spec o o'); cbn; auto.
Qed.
Lemma sorted_insert l o b s : sorted l -> sorted (offset_insert l o b s).
Proof.
  induction l as [|[o' g] l IH]; cbn [offset_insert sorted]; [cbn; auto|]. intros [H1 H2].
  destruct (N.eqb_spec o o'); [cbn; auto|]. destruct (N.ltb_spec o o') as [H|H]; cbn [sorted above].
  - split; [split; [exact H|apply above_weaken with o'; [lia|exact H1]]|auto].
  - split; [apply above_insert; [lia|exact H1]|auto].
Qed.
Definition get_group (l : list (N * byte_groups)) (o b : N) : list signature := match offset_get l o with Some g => group_get g b | None => [] end.
Lemma get_group_insert l o b s o' b' : sorted l ->
  get_group (offset_insert l o b s) o' b' = if (o' =? o) && (b' =? b) then get_group l o b ++ [s] else get_group l o' b'.
Proof.
  unfold get_group. induction l as [|[o2 g] l IH]; cbn [offset_insert sorted].
  - intros _. cbn [offset_get]. destruct (N.eqb_spec o' o) as [->|Hn]; [|reflexivity]. unfold group_get. cbn [find]. destruct (b' =? b); reflexivity.
  - intros [H1 H2]. destruct (N.eqb_spec o o2) as [->|Hn].
    + cbn [offset_get]. rewrite (N.eqb_refl o2). destruct (N.eqb_spec o' o2) as [->|Hn2]; [|reflexivity]. cbn [andb]. rewrite group_get_insert. destruct (b' =? b); reflexivity.
    + destruct (N.ltb_spec o o2) as [Hlt|Hlt]; cbn [offset_get].
      * destruct (N.eqb_spec o' o) as [->|Hn2]; [|reflexivity].
        destruct (N.eqb_spec o o2); [lia|]. assert (Hz : offset_get l o = None) by (apply above_get; apply above_weaken with o2; [lia|exact H1]). rewrite Hz.
        unfold group_get. cbn [find]. cbn [andb]. destruct (b' =? b); reflexivity.
      * destruct (N.eqb_spec o' o2) as [->|Hn2].
        -- destruct (N.eqb_spec o2 o); [lia|reflexivity].
        -- rewrite (IH H2). destruct (N.eqb_spec o o2); [lia|reflexivity].
Qed.
Lemma In_offset_insert l o b s o' g k m x : In (o', g) (offset_insert l o b s) -> In (k, m) g -> In x m ->
  (o' = o /\ k = b /\ x = s) \/ (exists g' m', In (o', g') l /\ In (k, m') g' /\ In x m').
Proof.
  induction l as [|[o2 g2] l IH]; cbn [offset_insert].
  - intros [[= <- <-]|[]] [[= <- <-]|[]] [<-|[]]. auto.
  - destruct (N.eqb_spec o o2) as [->|Hn].
    + intros [[= <- <-]|H] Hg Hx.
      * destruct (In_byte_insert _ _ _ _ _ _ Hg Hx) as [[-> ->]|(m' & Hm & Hx')]; [auto|]. right. exists g2, m'. split; [left; reflexivity|auto].
      * right. exists g, m. split; [right; exact H|auto].
    + destruct (o <? o2).
      * intros [[= <- <-]|H] Hg Hx; [destruct Hg as [[= <- <-]|[]]; destruct Hx as [<-|[]]; auto|]. right. exists g, m. auto.
      * intros [[= <- <-]|H] Hg Hx; [right; exists g2, m; split; [left; reflexivity|auto]|].
        destruct (IH H Hg Hx) as [?|(g' & m' & H1 & H2)]; [auto|right; exists g', m'; split; [right; exact H1|exact H2]].
Qed.

Section TABLE.
Variable largest : N.
Record table_ok (ignore : list N) (t : signature_table) : Prop := {
  ok_sorted : sorted (t_groups t);
  ok_sound : forall o g b l s, In (o, g) (t_groups t) -> In (b, l) g -> In s l -> In s (t_signatures t) /\ byte_of largest s o = Some b /\ ~ In o ignore;
  ok_complete : forall o b s, In s (t_signatures t) -> byte_of largest s o = Some b -> ~ In o ignore -> In s (get_group (t_groups t) o b);
  ok_type : forall s, In s (t_signatures t) -> s_type s = t_type t }.
Lemma table_new_ok ignore ty : table_ok ignore (table_new ty).
Proof. constructor; cbn; try tauto. Qed.
Lemma existsb_iff o l : existsb (N.eqb o) l = true <-> In o l.
Proof. rewrite existsb_exists. split; [intros (x & Hx & E); apply N.eqb_eq in E; subst; exact Hx|intros H; exists o; split; [exact H|apply N.eqb_refl]]. Qed.
(** one signature: the part of the pattern from [o] on is still to be put in *)
Record partly_ok (ignore : list N) (new : signature) (o : N) (t : signature_table) : Prop := {
  p_sorted : sorted (t_groups t);
  p_sound : forall o g b l s, In (o, g) (t_groups t) -> In (b, l) g -> In s l -> In s (t_signatures t) /\ byte_of largest s o = Some b /\ ~ In o ignore;
  p_complete : forall o' b s, In s (t_signatures t) -> byte_of largest s o' = Some b -> ~ In o' ignore -> s <> new \/ o' < o -> In s (get_group (t_groups t) o' b);
  p_type : forall s, In s (t_signatures t) -> s_type s = t_type t;
  p_new : In new (t_signatures t) }.
Lemma signature_dec (a b : signature) : a = b \/ a <> b.
Proof. destruct (same a b) eqn:E; [left; apply same_iff; exact E|right; intros H; apply same_iff in H; congruence]. Qed.
Lemma table_insert_groups t o b s : t_groups (table_insert t o b s) = offset_insert (t_groups t) o b s.
Proof. reflexivity. Qed.
Lemma table_bytes_ok ignore s bytes o t :
  base_of largest s <= o -> skipn (N.to_nat (o - base_of largest s)) (pattern s) = bytes ->
  partly_ok ignore s o t -> table_ok ignore (table_bytes ignore o bytes s t)
  /\ t_signatures (table_bytes ignore o bytes s t) = t_signatures t /\ t_type (table_bytes ignore o bytes s t) = t_type t.
Proof.
  revert o t. induction bytes as [|b bytes IH]; intros o t Hb E [P1 P2 P3 P4 P5].
  - cbn [table_bytes]. split; [|auto]. constructor; [exact P1|exact P2| |exact P4]. intros o' b' s' Hs Hy Hi. apply P3; [exact Hs|exact Hy|exact Hi|].
    destruct (signature_dec s' s) as [->|Hn]; [|left; exact Hn]. right.
    unfold byte_of in Hy. destruct (N.ltb_spec o' (base_of largest s)); [discriminate|].
    assert (Hl : nth_error (pattern s) (N.to_nat (o' - base_of largest s)) <> None) by congruence. apply nth_error_Some in Hl.
    assert (Hz : (length (skipn (N.to_nat (o - base_of largest s)) (pattern s)) = 0)%nat) by (rewrite E; reflexivity). rewrite skipn_length in Hz. lia.
  - cbn [table_bytes].
    assert (Hnth : nth_error (pattern s) (N.to_nat (o - base_of largest s)) = Some b).
    { rewrite <- (Nat.add_0_r (N.to_nat (o - base_of largest s))), <- nth_error_skipn_at, E. reflexivity. }
    assert (Hbyte : byte_of largest s o = Some b) by (unfold byte_of; destruct (N.ltb_spec o (base_of largest s)); [lia|exact Hnth]).
    assert (E' : skipn (N.to_nat (o + 1 - base_of largest s)) (pattern s) = bytes).
    { replace (N.to_nat (o + 1 - base_of largest s)) with (1 + N.to_nat (o - base_of largest s))%nat by lia. rewrite <- skipn_skipn, E. reflexivity. }
    destruct (existsb (N.eqb o) ignore) eqn:Ei.
    + apply IH; [lia|exact E'|]. constructor; [exact P1|exact P2| |exact P4|exact P5].
      intros o' b' s' Hs Hy Hi Hor. apply P3; try assumption. destruct Hor as [Hn|Hlt]; [left; exact Hn|].
      destruct (N.eq_dec o' o) as [->|Hno]; [exfalso; apply Hi; apply existsb_iff; exact Ei|right; lia].
    + assert (Hni : ~ In o ignore) by (intros H; apply existsb_iff in H; congruence).
      destruct (IH (o + 1) (table_insert t o b s)) as (I1 & I2 & I3); [lia|exact E'| |split; [exact I1|split; [exact I2|exact I3]]].
      constructor.
      * rewrite table_insert_groups. apply sorted_insert. exact P1.
      * rewrite table_insert_groups. cbn [t_signatures table_insert]. intros o' g b' l x Ho Hg Hx.
        destruct (In_offset_insert _ _ _ _ _ _ _ _ _ Ho Hg Hx) as [(-> & -> & ->)|(g' & m' & H1 & H2 & H3)]; [auto|apply (P2 _ _ _ _ _ H1 H2 H3)].
      * rewrite table_insert_groups. cbn [t_signatures table_insert]. intros o' b' s' Hs Hy Hi Hor. rewrite get_group_insert by exact P1.
        destruct (N.eqb_spec o' o) as [->|Hno]; cbn [andb].
        -- destruct (N.eqb_spec b' b) as [->|Hnb].
           ++ apply in_app_iff. destruct (signature_dec s' s) as [->|Hn]; [right; left; reflexivity|left; apply P3; auto].
           ++ apply P3; auto. left. intros ->. congruence.
        -- apply P3; auto. destruct Hor as [Hn|Hlt]; [left; exact Hn|right; lia].
      * exact P4.
      * exact P5.
Qed.
Lemma table_fill_ok ignore l t t' : table_ok ignore t -> table_fill l ignore largest t = Ok t' ->
  table_ok ignore t' /\ t_type t' = t_type t
  /\ (forall s, In s (t_signatures t') <-> In s (t_signatures t) \/ (In s l /\ s_type s = t_type t)).
Proof.
  revert t. induction l as [|s l IH]; intros t T E; cbn [table_fill] in E.
  - injection E as <-. split; [exact T|]. split; [reflexivity|]. cbn. intros s. tauto.
  - destruct (type_eq (s_type s) (t_type t)) eqn:Et; cbn [negb] in E.
    + apply type_eq_iff in Et. apply bind_Ok_inv in E. destruct E as (o & Eo & E).
      assert (Ho : o = base_of largest s).
      { unfold table_offset in Eo. unfold base_of. rewrite Et. destruct (t_type t); [unfold sub_chk in Eo; destruct (N.leb (s_offset s) largest); [injection Eo as <-; reflexivity|discriminate]|injection Eo as <-; reflexivity|injection Eo as <-; reflexivity]. }
      subst o. destruct T as [T1 T2 T3 T4].
      set (t1 := {| t_type := t_type t; t_groups := t_groups t; t_smallest := t_smallest t; t_signatures := t_signatures t ++ [s] |}) in *.
      destruct (table_bytes_ok ignore s (pattern s) (base_of largest s) t1) as (B1 & B2 & B3); [lia|rewrite N.sub_diag; reflexivity| |].
      * constructor; cbn [t1 t_groups t_signatures t_type].
        -- exact T1.
        -- intros o g b m x Ho Hg Hx. destruct (T2 _ _ _ _ _ Ho Hg Hx) as (A1 & A2). split; [apply in_app_iff; left; exact A1|exact A2].
        -- intros o b x Hx Hy Hi [Hn|Hlt].
           ++ apply in_app_iff in Hx. destruct Hx as [Hx|[<-|[]]]; [apply T3; assumption|congruence].
           ++ apply in_app_iff in Hx. destruct Hx as [Hx|[<-|[]]]; [apply T3; assumption|].
              unfold byte_of in Hy. destruct (N.ltb_spec o (base_of largest s)); [discriminate|lia].
        -- intros x Hx. apply in_app_iff in Hx. destruct Hx as [Hx|[<-|[]]]; [apply T4; exact Hx|exact Et].
        -- apply in_app_iff. right. left. reflexivity.
      * destruct (IH _ B1 E) as (I1 & I2 & I3). rewrite B3 in I2. split; [exact I1|]. split; [exact I2|].
        intros x. rewrite I3, B2, B3. cbn [t1 t_signatures t_type]. rewrite in_app_iff. cbn [In]. split.
        -- intros [[H|[->|[]]]|[H1 H2]]; [left; exact H|right; auto|right; auto].
        -- intros [H|[[->|H] H2]]; auto.
    + assert (Hn : s_type s <> t_type t) by (intros H; apply type_eq_iff in H; congruence).
      destruct (IH _ T E) as (I1 & I2 & I3). split; [exact I1|]. split; [exact I2|].
      intros x. rewrite I3. cbn [In]. split; [intros [H|[H1 H2]]; auto|intros [H|[[->|H] H2]]; auto; contradiction].
Qed.
End TABLE.

(** ** The tree that is built *)
Lemma In_group_get g b s : In s (group_get g b) -> exists l, In (b, l) g /\ In s l.
Proof.
  unfold group_get. destruct (find (fun '(b', _) => b =? b') g) as [[b' l]|] eqn:E; [|intros []].
  apply find_some in E. destruct E as [E1 E2]. apply N.eqb_eq in E2. subst b'. intros H. exists l. auto.
Qed.
Lemma groups_at_In t o : forall b l, In (b, l) (groups_at t o) -> exists g, In (o, g) (t_groups t) /\ In (b, l) g.
Proof.
  intros b l. unfold groups_at. induction (t_groups t) as [|[o' g] r IH]; cbn [offset_get]; [intros []|].
  destruct (N.eqb_spec o o') as [->|Hn]; [intros H; exists g; split; [left; reflexivity|exact H]|].
  intros H. destruct (IH H) as (g' & H1 & H2). exists g'. split; [right; exact H1|exact H2].
Qed.
Lemma signatures_at_In t o s : In s (signatures_at t o) -> exists b l, In (b, l) (groups_at t o) /\ In s l.
Proof.
  unfold signatures_at. intros H.
  assert (X : forall l acc, In s (fold_left (fun acc s => if contains acc s then acc else acc ++ [s]) l acc) -> In s acc \/ In s l).
  { clear. induction l as [|x l IH]; intros acc H; cbn [fold_left] in H; [left; exact H|]. destruct (IH _ H) as [H1|H1]; [|right; right; exact H1].
    destruct (contains acc x); [left; exact H1|]. apply in_app_iff in H1. destruct H1 as [H1|[<-|[]]]; [left; exact H1|right; left; reflexivity]. }
  destruct (X _ _ H) as [[]|H1]. apply in_flat_map in H1. destruct H1 as ((b & l) & H1 & H2). exists b, l. auto.
Qed.
Lemma mapM_object (f : N * list signature -> res (option N * scan_object)) g objects : mapM f g = Ok objects ->
  (forall b l y, f (b, l) = Ok y -> fst y = Some b) ->
  object_get objects None = None
  /\ (forall b, match find (fun '(b', _) => b =? b') g with
                | Some (b', l) => exists o, f (b', l) = Ok (Some b', o) /\ object_get objects (Some b) = Some o
                | None => object_get objects (Some b) = None
                end)
  /\ (forall k o, In (k, o) objects -> exists b l, In (b, l) g /\ f (b, l) = Ok (k, o)).
Proof.
  revert objects. induction g as [|[b l] g IH]; intros objects E Hf; cbn [mapM] in E.
  - injection E as <-. split; [reflexivity|]. split; [reflexivity|intros k o []].
  - apply bind_Ok_inv in E. destruct E as ([k o] & E1 & E). apply bind_Ok_inv in E. destruct E as (ys & E2 & E). injection E as <-.
    destruct (IH _ E2 Hf) as (I1 & I2 & I3). pose proof (Hf _ _ _ E1) as Hk. cbn in Hk. subst k.
    split; [exact I1|]. split.
    + intros b'. cbn [find object_get]. destruct (b' =? b) eqn:Eb; [exists o; split; [exact E1|reflexivity]|apply I2].
    + intros k o' [[= <- <-]|H]; [exists b, l; split; [left; reflexivity|exact E1]|].
      destruct (I3 _ _ H) as (b' & l' & H1 & H2). exists b', l'. split; [right; exact H1|exact H2].
Qed.
Lemma remaining_In t o s : In s (filter (fun s => negb (contains (signatures_at t o) s)) (t_signatures t))
  <-> In s (t_signatures t) /\ ~ (exists s', In s' (signatures_at t o) /\ pattern s' = pattern s).
Proof.
  rewrite filter_In, Bool.negb_true_iff. split; intros [H1 H2]; (split; [exact H1|]).
  - intros H. apply contains_iff in H. congruence.
  - destruct (contains (signatures_at t o) s) eqn:E; [|reflexivity]. apply contains_iff in E. contradiction.
Qed.
Lemma node_build_ok largest fuel : forall ignore t n, table_ok largest ignore t -> node_build fuel t ignore largest = Ok n ->
  (forall s, in_tree s (ONode (fst n) (snd n)) -> In s (t_signatures t))
  /\ ((forall s s', In s (t_signatures t) -> In s' (t_signatures t) -> pattern s = pattern s' -> s = s') ->
      forall s, In s (t_signatures t) -> covers largest s (ONode (fst n) (snd n)) = true).
Proof.
  induction fuel as [|fuel IH]; intros ignore t n T E; [discriminate|]. cbn [node_build] in E.
  apply bind_Ok_inv in E. destruct E as (o & _ & E).
  pose proof (remaining_In t o) as HR.
  set (remaining := filter (fun s => negb (contains (signatures_at t o) s)) (t_signatures t)) in *.
  apply bind_Ok_inv in E. destruct E as (objects & E1 & E). apply bind_Ok_inv in E. destruct E as (rest & E2 & E). injection E as <-. cbn [fst snd].
  set (f := fun '(b, group) => _) in E1.
  destruct (mapM_object f (groups_at t o) objects E1) as (M1 & M2 & M3).
  { intros b l y. cbn [f]. destruct l as [|s1 [|s2 l]]; [discriminate|intros [= <-]; reflexivity|]. intros Ey.
    apply bind_Ok_inv in Ey. destruct Ey as (t1 & _ & Ey). apply bind_Ok_inv in Ey. destruct Ey as (t2 & _ & Ey). apply bind_Ok_inv in Ey. destruct Ey as ([o2 ob2] & _ & Ey).
    injection Ey as <-. reflexivity. }
  pose proof (ok_type _ _ _ T) as HT.
  (* the signatures of a group *)
  assert (HG : forall b l, In (b, l) (groups_at t o) -> forall s, In s l -> In s (t_signatures t) /\ byte_of largest s o = Some b /\ ~ In o ignore).
  { intros b l Hb s Hs. destruct (groups_at_In t o _ _ Hb) as (g & G1 & G2). apply (ok_sound _ _ _ T _ _ _ _ _ G1 G2 Hs). }
  (* a group of several signatures *)
  assert (HS : forall b l s1 s2 r y, In (b, l) (groups_at t o) -> l = s1 :: s2 :: r -> f (b, l) = Ok y ->
    exists sub o2 objs2, y = (Some b, ONode o2 objs2) /\ table_ok largest (ignore ++ [o]) sub /\ node_build fuel sub (ignore ++ [o]) largest = Ok (o2, objs2)
      /\ forall s, In s (t_signatures sub) <-> In s l \/ In s remaining).
  { intros b l s1 s2 r y Hb El Ey. cbn [f] in Ey. rewrite El in Ey. rewrite <- El in Ey.
    apply bind_Ok_inv in Ey. destruct Ey as (t1 & X1 & Ey). apply bind_Ok_inv in Ey. destruct Ey as (t2 & X2 & Ey). apply bind_Ok_inv in Ey. destruct Ey as ([o2 ob2] & X3 & Ey). injection Ey as <-.
    destruct (table_fill_ok _ _ _ _ _ (table_new_ok largest (ignore ++ [o]) (t_type t)) X1) as (A1 & A2 & A3).
    destruct (table_fill_ok _ _ _ _ _ A1 X2) as (B1 & B2 & B3).
    exists t2, o2, ob2. split; [reflexivity|]. split; [exact B1|]. split; [exact X3|]. intros s. rewrite B3, A3, A2. cbn [table_new t_signatures t_type]. split.
    - intros [[[]|[H1 H2]]|[H1 H2]]; auto.
    - intros [H|H]; [left; right; split; [exact H|apply HT; apply (HG _ _ Hb _ H)]|right; split; [exact H|apply HT; apply HR; exact H]]. }
  (* the default object *)
  assert (HD : rest = [] /\ remaining = [] \/ exists d, rest = [(None, d)] /\ (forall s, in_tree s d -> In s remaining) /\
    ((forall s s', In s remaining -> In s' remaining -> pattern s = pattern s' -> s = s') -> forall s, In s remaining -> covers largest s d = true)).
  { destruct remaining as [|s1 [|s2 r]] eqn:Er; [left; injection E2 as <-; auto| |].
    - right. injection E2 as <-. exists (OSignature s1). split; [reflexivity|]. split; [intros s Hs; inversion Hs; subst; left; reflexivity|].
      intros _ s [<-|[]]. cbn [covers]. apply same_iff. reflexivity.
    - right. rewrite <- Er in *. clear Er. apply bind_Ok_inv in E2. destruct E2 as (t1 & X1 & E2). apply bind_Ok_inv in E2. destruct E2 as ([o2 ob2] & X2 & E2). injection E2 as <-.
      destruct (table_fill_ok _ _ _ _ _ (table_new_ok largest (ignore ++ [o]) (t_type t)) X1) as (A1 & A2 & A3). destruct (IH _ _ _ A1 X2) as (I1 & I2). cbn [fst snd] in I1, I2.
      assert (Hs1 : forall s, In s (t_signatures t1) <-> In s remaining).
      { intros s. rewrite A3. cbn [table_new t_signatures t_type]. split; [intros [[]|[H1 H2]]; exact H1|]. intros H. right. split; [exact H|]. apply HT. apply HR. exact H. }
      exists (ONode o2 ob2). split; [reflexivity|]. split; [intros s Hs; apply Hs1; apply I1; exact Hs|].
      intros Hd s Hs. apply I2; [intros a b Ha Hb; apply Hd; apply Hs1; assumption|apply Hs1; exact Hs]. }
  split.
  - intros s Hs. inversion Hs as [|p ob k x Hin Hx]; subst. apply in_app_iff in Hin. destruct Hin as [Hin|Hin].
    + destruct (M3 _ _ Hin) as (b & l & Hb & Ef). destruct l as [|s1 [|s2 l2]] eqn:El; [discriminate|cbn [f] in Ef; injection Ef as <- <-; inversion Hx; subst; apply (HG _ _ Hb); left; reflexivity|].
      rewrite <- El in *. destruct (HS _ _ _ _ _ _ Hb El Ef) as (sub & o2 & ob2 & Ey & B1 & B2 & B3). injection Ey as -> ->.
      destruct (IH _ _ _ B1 B2) as (I1 & _). apply I1 in Hx. apply B3 in Hx. destruct Hx as [Hx|Hx]; [apply (HG _ _ Hb _ Hx)|apply HR; exact Hx].
    + destruct HD as [[-> _]|(d & -> & D1 & _)]; [destruct Hin|]. destruct Hin as [[= <- <-]|[]]. apply HR. apply D1. exact Hx.
  - intros Hdist s Hs. rewrite covers_node. rewrite object_get_app, M1.
    assert (HDc : In s remaining -> covers_opt largest s (object_get rest None) = true).
    { intros Hr. destruct HD as [[-> E0]|(d & -> & _ & D2)]; [rewrite E0 in Hr; destruct Hr|]. cbn [object_get covers_opt]. apply D2; [|exact Hr].
      intros a b Ha Hb. apply Hdist; apply HR; assumption. }
    assert (Hrem : (byte_of largest s o = None \/ In o ignore) -> In s remaining).
    { intros Hor. apply HR. split; [exact Hs|]. intros (s' & Hs' & Ep). apply signatures_at_In in Hs'. destruct Hs' as (b & l & Hb & Hl).
      destruct (HG _ _ Hb _ Hl) as (G1 & G2 & G3). assert (s' = s) by (apply Hdist; assumption). subst s'. destruct Hor; [congruence|contradiction]. }
    assert (Hsub : forall b l y, In (b, l) (groups_at t o) -> In s l \/ In s remaining -> f (b, l) = Ok y -> match snd y with ONode _ _ => covers largest s (snd y) = true | OSignature _ => True end).
    { intros b l y Hb Hor Ef. destruct l as [|s1 [|s2 l2]] eqn:El; [discriminate|cbn [f] in Ef; injection Ef as <-; exact I|].
      rewrite <- El in *. destruct (HS _ _ _ _ _ _ Hb El Ef) as (sub & o2 & ob2 & Ey & B1 & B2 & B3). subst y. cbn [snd].
      destruct (IH _ _ _ B1 B2) as (_ & I2). apply I2.
      - intros a c Ha Hc. apply B3 in Ha, Hc. apply Hdist; [destruct Ha as [Ha|Ha]; [apply (HG _ _ Hb _ Ha)|apply HR; exact Ha]|destruct Hc as [Hc|Hc]; [apply (HG _ _ Hb _ Hc)|apply HR; exact Hc]].
      - apply B3. exact Hor. }
    destruct (byte_of largest s o) as [b|] eqn:Eb.
    + rewrite object_get_app. specialize (M2 b). destruct (in_dec N.eq_dec o ignore) as [Hi|Hi].
      * assert (Hg : groups_at t o = []).
        { destruct (groups_at t o) as [|[b' l] g] eqn:Eg; [reflexivity|]. exfalso. destruct l as [|x l].
          - cbn [mapM f] in E1. cbn in E1. discriminate.
          - destruct (HG b' (x :: l) (or_introl eq_refl) x (or_introl eq_refl)) as (_ & _ & X). contradiction. }
        rewrite Hg in M2. cbn [find] in M2. rewrite M2.
        assert (Hr : object_get rest (Some b) = None) by (destruct HD as [[-> _]|(d & -> & _)]; reflexivity). rewrite Hr. apply HDc. apply Hrem. right. exact Hi.
      * pose proof (ok_complete _ _ _ T o b s Hs Eb Hi) as Hc. unfold get_group in Hc.
        assert (Hga : In s (group_get (groups_at t o) b)) by (unfold groups_at; destruct (offset_get (t_groups t) o); [exact Hc|destruct Hc]).
        unfold group_get in Hga. destruct (find (fun '(b', _) => b =? b') (groups_at t o)) as [[b' l]|] eqn:Ef; [|destruct Hga].
        apply find_some in Ef. destruct Ef as [Ef1 Ef2]. apply N.eqb_eq in Ef2. subst b'.
        destruct M2 as (x & Ex & Hx). rewrite Hx. pose proof (Hsub _ _ _ Ef1 (or_introl Hga) Ex) as Hc2. cbn [snd] in Hc2.
        destruct x as [p2 ob2|s']; [exact Hc2|]. destruct l as [|s1 [|s2 l2]] eqn:El; [destruct Hga| |].
        -- cbn [f] in Ex. injection Ex as ->. destruct Hga as [->|[]]. rewrite (proj2 (same_iff s s) eq_refl). reflexivity.
        -- rewrite <- El in *. destruct (HS _ _ _ _ _ _ Ef1 El Ex) as (sub & o2 & ob2 & Ey & _). discriminate.
    + rewrite HDc by (apply Hrem; left; reflexivity). cbn [andb]. apply forallb_forall. intros [k x] Hx. destruct k as [k|]; [|reflexivity]. destruct x as [p2 ob2|]; [|reflexivity].
      apply in_app_iff in Hx. destruct Hx as [Hx|Hx].
      * destruct (M3 _ _ Hx) as (b & l & Hb & Ef). apply (Hsub _ _ _ Hb (or_intror (Hrem (or_introl eq_refl))) Ef).
      * destruct HD as [[-> _]|(d & -> & _)]; [destruct Hx|]. destruct Hx as [[= ]|[]].
Qed.
Lemma spanning_ok ty l : forall e n e' n', spanning ty l e n = Ok (e', n') ->
  e <= e' /\ n <= n' /\ (forall s, In s l -> s_type s = ty -> s_offset s + size_of s <= e' /\ n < n')
  /\ (forall B, e <= B -> (forall s, In s l -> s_type s = ty -> s_offset s + size_of s <= B) -> e' <= B)
  /\ ((forall s, In s l -> s_type s <> ty) -> n' = n).
Proof.
  induction l as [|s l IH]; intros e n e' n' E; cbn [spanning] in E.
  - injection E as <- <-. split; [lia|]. split; [lia|]. split; [intros s []|]. split; [auto|auto].
  - destruct (type_eq (s_type s) ty) eqn:Et.
    + apply type_eq_iff in Et. apply bind_Ok_inv in E. destruct E as (x & Ex & E). unfold add_chk in Ex. destruct (s_offset s + size_of s <? two64); [|discriminate]. injection Ex as <-.
      destruct (IH _ _ _ _ E) as (I1 & I2 & I3 & I4 & I5). split; [lia|]. split; [lia|]. split; [|split].
      * intros s' [<-|H] Hty; [lia|]. destruct (I3 _ H Hty). lia.
      * intros B HB Hall. apply I4; [|intros s' H; apply Hall; right; exact H]. specialize (Hall s (or_introl eq_refl) Et). lia.
      * intros H. exfalso. apply (H s (or_introl eq_refl)). exact Et.
    + assert (Hn : s_type s <> ty) by (intros H; apply type_eq_iff in H; congruence).
      destruct (IH _ _ _ _ E) as (I1 & I2 & I3 & I4 & I5). split; [lia|]. split; [lia|]. split; [|split].
      * intros s' [<-|H] Hty; [contradiction|auto].
      * intros B HB Hall. apply I4; [exact HB|intros s' H; apply Hall; right; exact H].
      * intros H. apply I5. intros s' Hs. apply H. right. exact Hs.
Qed.
Definition root_of (t : scan_tree) : scan_object := ONode (fst (root t)) (snd (root t)).
Record tree_ok (ty : pattern_type) (l : list signature) (t : scan_tree) : Prop := {
  tr_type : st_type t = ty;
  tr_in : forall s, in_tree s (root_of t) -> In s l /\ s_type s = ty;
  tr_range : forall s, In s l -> s_type s = ty -> s_offset s + size_of s <= range_end t;
  tr_range_least : forall B, (forall s, In s l -> s_type s = ty -> s_offset s + size_of s <= B) -> range_end t <= B;
  tr_covers : distinct_patterns l -> forall s, In s l -> s_type s = ty -> covers (range_end t) s (root_of t) = true;
  tr_skips : (exists s, In s l /\ s_type s = ty) -> skip_of l = Ok (skips t);
  tr_empty : (forall s, In s l -> s_type s <> ty) -> root t = (0, []) /\ skips t = skip_empty /\ range_end t = 0 }.
Lemma tree_build_ok fuel ty l t : tree_build fuel ty l = Ok t -> tree_ok ty l t.
Proof.
  unfold tree_build. intros E. apply bind_Ok_inv in E. destruct E as ([e n] & E1 & E). destruct (spanning_ok _ _ _ _ _ _ E1) as (S1 & S2 & S3 & S4 & S5).
  destruct (N.ltb_spec 0 n) as [Hn|Hn].
  - apply bind_Ok_inv in E. destruct E as (tb & X1 & E). apply bind_Ok_inv in E. destruct E as (r & X2 & E). apply bind_Ok_inv in E. destruct E as (k & X3 & E). injection E as <-.
    destruct (table_fill_ok _ _ _ _ _ (table_new_ok e [] ty) X1) as (A1 & A2 & A3). destruct (node_build_ok _ _ _ _ _ A1 X2) as (B1 & B2).
    assert (HA : forall s, In s (t_signatures tb) <-> In s l /\ s_type s = ty) by (intros s; rewrite A3; cbn [table_new t_signatures t_type In]; tauto).
    constructor; cbn [st_type range_end root skips].
    + reflexivity.
    + intros s Hs. apply HA. apply B1. exact Hs.
    + intros s Hs Hty. apply (S3 s Hs Hty).
    + intros B HB. apply S4; [lia|exact HB].
    + intros Hd s Hs Hty. apply B2; [|apply HA; auto]. intros a b Ha Hb Ep. apply HA in Ha, Hb. apply Hd; try tauto. destruct Ha, Hb. congruence.
    + intros _. exact X3.
    + intros H. specialize (S5 H). lia.
  - injection E as <-.
    assert (H0 : forall s, In s l -> s_type s <> ty) by (intros s Hs Hty; destruct (S3 s Hs Hty); lia).
    constructor; cbn [st_type range_end root skips].
    + reflexivity.
    + intros s Hs. inversion Hs as [|p ob k o Hin Ho Ep]; subst. destruct Hin.
    + intros s Hs Hty. exfalso. apply (H0 s Hs Hty).
    + intros B HB. apply S4; [lia|exact HB].
    + intros _ s Hs Hty. exfalso. apply (H0 s Hs Hty).
    + intros (s & Hs & Hty). exfalso. apply (H0 s Hs Hty).
    + intros _. split; [reflexivity|]. split; [reflexivity|]. assert (e <= 0) by (apply S4; [lia|intros s Hs Hty; exfalso; apply (H0 s Hs Hty)]). lia.
Qed.
Lemma smallest_size_ok l : (forall s, In s l -> 2 <= size_of s) -> forall m, m = 0 \/ 2 <= m -> 
  let r := fold_left (fun m s => if m =? 0 then size_of s else N.min (size_of s) m) l m in (m = 0 -> l = [] -> r = 0) /\ (l <> [] \/ 2 <= m -> 2 <= r).
Proof.
  intros H. induction l as [|s l IH]; intros m Hm; cbn [fold_left].
  - split; [auto|]. intros [Hx|Hx]; [congruence|exact Hx].
  - split; [discriminate|]. intros _. assert (Hs : 2 <= size_of s) by (apply H; left; reflexivity).
    assert (Hm' : 2 <= (if m =? 0 then size_of s else N.min (size_of s) m)) by (destruct (N.eqb_spec m 0); lia).
    apply (IH (fun s Hs => H s (or_intror Hs)) _ (or_intror Hm')). right. exact Hm'.
Qed.
Lemma skip_bytes_least smallest bytes values least : 0 < least -> 0 < snd (skip_bytes smallest bytes values least).
Proof.
  unfold skip_bytes. revert smallest values least. induction bytes as [|b bytes IH]; intros k values least H; cbn [fold_left]; [exact H|]. cbn [skip_step]. apply IH.
  destruct (match hm_get values b with Some v => k - 1 <? v | None => true end); cbn [andb]; [|exact H]. destruct (N.ltb_spec 0 (k - 1)); lia.
Qed.
Lemma skip_fill_least smallest l : forall values least t, 0 < least -> skip_fill smallest l values least = Ok t ->
  smallest_pattern_size t = smallest /\ 0 < smallest_skip_value t.
Proof.
  induction l as [|s l IH]; intros values least t H E; cbn [skip_fill] in E; [injection E as <-; split; [reflexivity|exact H]|].
  apply bind_Ok_inv in E. destruct E as (bytes & _ & E). pose proof (skip_bytes_least smallest bytes values least H) as Hp.
  destruct (skip_bytes smallest bytes values least) as [v2 l2]. apply (IH _ _ _ Hp E).
Qed.
Lemma skip_of_ok l t : (forall s, In s l -> 2 <= size_of s) -> l <> [] -> skip_of l = Ok t -> 2 <= smallest_pattern_size t /\ 0 < smallest_skip_value t.
Proof.
  intros H Hn E. unfold skip_of in E. destruct (smallest_size_ok l H 0 (or_introl eq_refl)) as [_ X]. specialize (X (or_introl Hn)). change (2 <= smallest_size l) in X.
  destruct (skip_fill_least _ _ _ _ _ (ltac:(lia) : 0 < smallest_size l) E) as [-> ?]. auto.
Qed.

(** ** Scanning *)
Definition agree (data : list N) (o : N) (buffer : list N) : Prop :=
  forall a n, a + n <= len buffer -> o + a + n <= len data ->
    firstn (N.to_nat n) (skipn (N.to_nat a) buffer) = firstn (N.to_nat n) (skipn (N.to_nat (o + a)) data).
(** the buffer is a part of the data, or the start of the data with anything after its end *)
Definition window (data : list N) (o : N) (buffer : list N) : Prop := agree data o buffer /\ (o = 0 \/ o + len buffer <= len data).
Lemma occurs_slice p data o : o + len p <= len data -> firstn (length p) (skipn (N.to_nat o) data) = p -> occurs p data o.
Proof.
  intros H E. exists (firstn (N.to_nat o) data), (skipn (length p) (skipn (N.to_nat o) data)). split.
  - rewrite <- E at 1. rewrite firstn_skipn, firstn_skipn. reflexivity.
  - unfold len in *. rewrite firstn_length. lia.
Qed.
Lemma occurs_inv p data o : occurs p data o -> o + len p <= len data /\ firstn (length p) (skipn (N.to_nat o) data) = p.
Proof.
  intros (before & after & -> & Hb). split; [rewrite !len_app; lia|].
  replace (N.to_nat o) with (length before) by (unfold len in Hb; lia).
  rewrite skipn_app, skipn_all, Nat.sub_diag. cbn [app skipn]. rewrite firstn_app, firstn_all, Nat.sub_diag. cbn [firstn]. apply app_nil_r.
Qed.
Definition place (s : signature) (data_offset data_size : N) : N :=
  match s_type s with BoundToEnd => data_size - s_offset s | BoundToStart => s_offset s | Unbound => data_offset end.
Definition scan_place (s : signature) (data_offset data_size buffer_offset : N) : N :=
  match s_type s with Unbound => buffer_offset | _ => place s data_offset data_size - data_offset end.
Lemma signature_scan_true s o size buffer bo : signature_scan s o size buffer bo (len buffer) = Ok true ->
  (s_type s = BoundToEnd -> s_offset s <= size) /\ o <= place s o size
  /\ scan_place s o size bo + size_of s <= len buffer /\ scan_place s o size bo + size_of s <= size
  /\ firstn (length (pattern s)) (skipn (N.to_nat (scan_place s o size bo)) buffer) = pattern s.
Proof.
  unfold signature_scan, scan_place, place. intros E. apply bind_Ok_inv in E. destruct E as (x & Ex & E).
  assert (X : (s_type s = BoundToEnd -> s_offset s <= size) /\ x = match s_type s with BoundToEnd => size - s_offset s | BoundToStart => s_offset s | Unbound => o end).
  { destruct (s_type s); [|injection Ex as <-; split; [discriminate|reflexivity]|injection Ex as <-; split; [discriminate|reflexivity]].
    unfold sub_chk in Ex. destruct (N.leb_spec (s_offset s) size); [|discriminate]. injection Ex as <-. auto. }
  destruct X as (X1 & X2). rewrite <- X2. split; [exact X1|].
  destruct (N.ltb_spec x o) as [Hlt|Hge]; [discriminate|]. split; [exact Hge|].
  set (so := match s_type s with Unbound => bo | _ => x - o end) in *.
  destruct (N.ltb_spec (len buffer) (so + size_of s)) as [?|Hb]; [discriminate|]. destruct (N.ltb_spec size (so + size_of s)) as [?|Hs]; [discriminate|]. cbn [orb] in E.
  apply bind_Ok_inv in E. destruct E as (found & Ef & E).
  assert (Eso : so = match s_type s with Unbound => bo | _ => x - o end) by reflexivity.
  assert (Eso2 : match s_type s with Unbound => bo | _ => x - o end = so) by reflexivity. 
  rewrite ?Eso2. split; [exact Hb|]. split; [exact Hs|].
  rewrite slice_ok in Ef by lia. injection Ef as <-. injection E as E. apply Bool.andb_true_iff in E. destruct E as [E _]. apply bytes_eq_iff in E.
  replace (length (pattern s)) with (N.to_nat (so + size_of s - so)) by (unfold size_of, len; lia). exact E.
Qed.
Lemma signature_scan_sound data s o buffer bo : window data o buffer -> signature_scan s o (len data) buffer bo (len buffer) = Ok true ->
  occurs (pattern s) data (o + scan_place s o (len data) bo) /\ scan_place s o (len data) bo + size_of s <= len buffer
  /\ (bound s -> present data s (place s o (len data))).
Proof.
  intros [A W] E. destruct (signature_scan_true _ _ _ _ _ E) as (H1 & H2 & H3 & H4 & H5). set (so := scan_place s o (len data) bo) in *.
  assert (Hd : o + so + size_of s <= len data) by (destruct W as [->|W]; lia).
  assert (Ho : occurs (pattern s) data (o + so)).
  { apply occurs_slice; [unfold size_of in Hd; exact Hd|]. rewrite <- H5 at 2. replace (length (pattern s)) with (N.to_nat (size_of s)) by (unfold size_of, len; lia). symmetry. apply A; [exact H3|exact Hd]. }
  split; [exact Ho|]. split; [exact H3|]. intros Hb. unfold present.
  assert (Ep : place s o (len data) = o + so) by (unfold so, scan_place, bound in *; destruct (s_type s); [lia|lia|congruence]).
  rewrite Ep. split; [|exact Ho]. rewrite <- Ep. unfold place in *. unfold bound in Hb. destruct (s_type s); [specialize (H1 eq_refl); lia|reflexivity|congruence].
Qed.
Lemma node_scan_cases n o size buffer bo r : node_scan n o size buffer bo (len buffer) = Ok r ->
  match r with
  | RNone => True
  | RNode n' => exists k, In (k, ONode (fst n') (snd n')) (snd n)
  | RSignature s => exists k, In (k, OSignature s) (snd n) /\ signature_scan s o size buffer bo (len buffer) = Ok true
  end.
Proof.
  destruct n as [p objects]. unfold node_scan. cbn [fst snd]. destruct (size <=? o); [intros [= <-]; exact I|]. intros E. apply bind_Ok_inv in E. destruct E as (found & Ef & E).
  assert (HF : forall x r, (match x with Some y => exists k, In (k, y) objects | None => True end) -> object_scan x o size buffer bo (len buffer) = Ok r ->
    match r with
    | RNone => True
    | RNode n' => exists k, In (k, ONode (fst n') (snd n')) objects
    | RSignature s => exists k, In (k, OSignature s) objects /\ signature_scan s o size buffer bo (len buffer) = Ok true
    end).
  { intros x r' Hx Er. unfold object_scan in Er. destruct x as [[p2 o2|s2]|]; [injection Er as <-; exact Hx| |injection Er as <-; exact I].
    apply bind_Ok_inv in Er. destruct Er as (m & Em & Er). destruct m; injection Er as <-; [|exact I]. destruct Hx as (k & Hk). exists k. auto. }
  assert (HD : match object_get objects None with Some y => exists k, In (k, y) objects | None => True end).
  { destruct (object_get objects None) eqn:E0; [|exact I]. apply object_get_In in E0. exact E0. }
  assert (Hf : match found with Some y => exists k, In (k, y) objects | None => True end).
  { destruct ((bo + p <? len buffer) && (bo + p <? size - o)); [|injection Ef as <-; exact I]. apply bind_Ok_inv in Ef. destruct Ef as (b & _ & Ef). injection Ef as <-.
    destruct (object_get objects (Some b)) eqn:E0; [|exact I]. apply object_get_In in E0. exact E0. }
  destruct found as [[p2 o2|s2]|]; [apply (HF (Some (ONode p2 o2)) _ Hf E)| |apply (HF _ _ HD E)].
  apply bind_Ok_inv in E. destruct E as (m & Em & E). destruct m; [injection E as <-; destruct Hf as (k & Hk); exists k; auto|]. apply (HF _ _ HD E).
Qed.
Lemma In_hm_insert {V} (m : list (N * V)) k v k' v' : In (k', v') (hm_insert m k v) -> (k' = k /\ v' = v) \/ In (k', v') m.
Proof.
  unfold hm_insert. intros [[= <- <-]|H]; [auto|]. right. unfold hm_remove in H. apply filter_In in H. tauto.
Qed.

Lemma in_tree_node s p objects k n : In (k, ONode (fst n) (snd n)) objects -> in_tree s (ONode (fst n) (snd n)) -> in_tree s (ONode p objects).
Proof. intros. econstructor; eassumption. Qed.
Lemma in_tree_signature s p objects k : In (k, OSignature s) objects -> in_tree s (ONode p objects).
Proof. intros. econstructor; [eassumption|constructor]. Qed.
Definition node_object (n : node) : scan_object := ONode (fst n) (snd n).

(** what is added to the results has matched *)
Lemma tree_scan_sound fuel t o size buffer : forall n bo r r', tree_scan fuel t o size buffer n bo r = Ok r' ->
  forall k s, In (k, s) r' -> In (k, s) r \/
    (in_tree s (node_object n) /\ k = place s o size /\ exists bo', signature_scan s o size buffer bo' (len buffer) = Ok true).
Proof.
  induction fuel as [|fuel IH]; intros n bo r r' E k s Hk; [discriminate|]. cbn [tree_scan] in E.
  destruct (bo <? len buffer); [|injection E as <-; auto]. apply bind_Ok_inv in E. destruct E as (x & Ex & E). pose proof (node_scan_cases _ _ _ _ _ _ Ex) as C.
  destruct x as [|n'|s'].
  - apply bind_Ok_inv in E. destruct E as (y & _ & E). apply bind_Ok_inv in E. destruct E as (v & _ & E). destruct (st_type t); [injection E as <-; auto|injection E as <-; auto|apply (IH _ _ _ _ E _ _ Hk)].
  - destruct C as (key & C). destruct (IH _ _ _ _ E _ _ Hk) as [H|(H1 & H2 & H3)]; [auto|]. right. split; [|auto]. apply (in_tree_node _ _ _ _ _ C H1).
  - destruct C as (key & C1 & C2). apply bind_Ok_inv in E. destruct E as (y & Ey & E).
    assert (Hy : y = place s' o size).
    { unfold place. destruct (s_type s'); [unfold sub_chk in Ey; destruct (s_offset s' <=? size); [|discriminate]|idtac|idtac]; injection Ey as <-; reflexivity. }
    subst y.
    assert (X : forall r2, In (k, s) r2 -> (forall a b, In (a, b) r2 -> In (a, b) (hm_insert r (place s' o size) s') \/
      (in_tree b (node_object n) /\ a = place b o size /\ exists bo', signature_scan b o size buffer bo' (len buffer) = Ok true)) ->
      In (k, s) r \/ (in_tree s (node_object n) /\ k = place s o size /\ exists bo', signature_scan s o size buffer bo' (len buffer) = Ok true)).
    { intros r2 H2 H3. destruct (H3 _ _ H2) as [H4|H4]; [|auto]. apply In_hm_insert in H4. destruct H4 as [[-> ->]|H4]; [|auto].
      right. split; [apply (in_tree_signature _ _ _ _ C1)|]. split; [reflexivity|exists bo; exact C2]. }
    apply (X r' Hk). intros a b Hab. destruct (st_type t); [injection E as <-; auto|injection E as <-; auto|apply (IH _ _ _ _ E _ _ Hab)].
Qed.
(** results are not dropped *)
Lemma tree_scan_keeps fuel t o size buffer : forall n bo r r' k, tree_scan fuel t o size buffer n bo r = Ok r' -> hm_get r k <> None -> hm_get r' k <> None.
Proof.
  induction fuel as [|fuel IH]; intros n bo r r' k E Hk; [discriminate|]. cbn [tree_scan] in E.
  destruct (bo <? len buffer); [|injection E as <-; auto]. apply bind_Ok_inv in E. destruct E as (x & Ex & E).
  destruct x as [|n'|s'].
  - apply bind_Ok_inv in E. destruct E as (y & _ & E). apply bind_Ok_inv in E. destruct E as (v & _ & E). destruct (st_type t); [injection E as <-; auto|injection E as <-; auto|apply (IH _ _ _ _ _ E Hk)].
  - apply (IH _ _ _ _ _ E Hk).
  - apply bind_Ok_inv in E. destruct E as (y & Ey & E).
    assert (X : hm_get (hm_insert r y s') k <> None) by (rewrite hm_get_insert; destruct (k =? y); [discriminate|exact Hk]).
    destruct (st_type t); [injection E as <-; exact X|injection E as <-; exact X|apply (IH _ _ _ _ _ E X)].
Qed.
Lemma hm_get_In {V} (m : list (N * V)) k : hm_get m k <> None -> exists v, In (k, v) m.
Proof.
  induction m as [|[a b] m IH]; cbn [hm_get]; [congruence|]. destruct (N.eqb_spec k a) as [->|Hn]; [intros _; exists b; left; reflexivity|].
  intros H. destruct (IH H) as (v & Hv). exists v. right. exact Hv.
Qed.
(** a tree bound to the start or the end finds a signature when one it covers matches *)
Lemma object_scan_covers L s x o size buffer bo r : covers_opt L s x = true -> signature_scan s o size buffer bo (len buffer) = Ok true ->
  object_scan x o size buffer bo (len buffer) = Ok r -> match r with RNone => False | RNode n => covers L s (node_object n) = true | RSignature _ => True end.
Proof.
  intros C M E. destruct x as [[p ob|s']|]; [injection E as <-; exact C| |discriminate].
  cbn [covers_opt covers] in C. apply same_iff in C. subst s'. cbn [object_scan] in E. rewrite M in E. cbn [bind] in E. injection E as <-. exact I.
Qed.
Lemma node_scan_covers L s n o size buffer bo r : covers L s (node_object n) = true ->
  signature_scan s o size buffer bo (len buffer) = Ok true -> o < size ->
  (forall p b, byte_of L s p = Some b -> nth_error buffer (N.to_nat (bo + p)) = Some b /\ bo + p < size - o) ->
  node_scan n o size buffer bo (len buffer) = Ok r -> match r with RNone => False | RNode n => covers L s (node_object n) = true | RSignature _ => True end.
Proof.
  destruct n as [p objects]. unfold node_object. cbn [fst snd]. rewrite covers_node. intros C M Ho K E. unfold node_scan in E.
  destruct (N.leb_spec size o); [lia|]. apply bind_Ok_inv in E. destruct E as (found & Ef & E).
  destruct (byte_of L s p) as [b|] eqn:Eb.
  - destruct (K _ _ Eb) as (K1 & K2).
    assert (Hl : bo + p < len buffer) by (assert (Hx : nth_error buffer (N.to_nat (bo + p)) <> None) by congruence; apply nth_error_Some in Hx; unfold len; lia).
    destruct (N.ltb_spec (bo + p) (len buffer)); [|lia]. destruct (N.ltb_spec (bo + p) (size - o)); [|lia]. cbn [andb] in Ef.
    unfold idx in Ef. rewrite K1 in Ef. cbn [bind] in Ef. injection Ef as <-.
    destruct (object_get objects (Some b)) as [[p2 ob2|s']|].
    + apply (object_scan_covers L s (Some (ONode p2 ob2)) _ _ _ _ _ C M E).
    + apply bind_Ok_inv in E. destruct E as (m & Em & E). destruct m; [injection E as <-; exact I|].
      apply Bool.orb_true_iff in C. destruct C as [C|C]; [apply same_iff in C; subst s'; congruence|]. apply (object_scan_covers L s _ _ _ _ _ _ C M E).
    + apply (object_scan_covers L s _ _ _ _ _ _ C M E).
  - apply Bool.andb_true_iff in C. destruct C as [C1 C2]. rewrite forallb_forall in C2.
    assert (Hf : match found with Some (ONode p2 ob2) => covers L s (ONode p2 ob2) = true | _ => True end).
    { destruct ((bo + p <? len buffer) && (bo + p <? size - o)); [|injection Ef as <-; exact I]. apply bind_Ok_inv in Ef. destruct Ef as (b & _ & Ef). injection Ef as <-.
      destruct (object_get objects (Some b)) as [[p2 ob2|]|] eqn:Eg; [|exact I|exact I].
      assert (Hk : exists k, In (Some k, ONode p2 ob2) objects).
      { clear - Eg. induction objects as [|[k' x] l IH]; [discriminate|]. cbn [object_get] in Eg. destruct k' as [k'|].
        - destruct (b =? k'); [injection Eg as ->; exists k'; left; reflexivity|]. destruct (IH Eg) as (k & Hk). exists k. right. exact Hk.
        - destruct (IH Eg) as (k & Hk). exists k. right. exact Hk. }
      destruct Hk as (k & Hk). apply (C2 _ Hk). }
    destruct found as [[p2 ob2|s']|].
    + apply (object_scan_covers L s (Some (ONode p2 ob2)) _ _ _ _ _ Hf M E).
    + apply bind_Ok_inv in E. destruct E as (m & Em & E). destruct m; [injection E as <-; exact I|]. apply (object_scan_covers L s _ _ _ _ _ _ C1 M E).
    + apply (object_scan_covers L s _ _ _ _ _ _ C1 M E).
Qed.
Lemma tree_scan_covers L s fuel t o size buffer bo :
  signature_scan s o size buffer bo (len buffer) = Ok true -> o < size -> bo < len buffer -> st_type t <> Unbound ->
  (forall p b, byte_of L s p = Some b -> nth_error buffer (N.to_nat (bo + p)) = Some b /\ bo + p < size - o) ->
  forall n r r', covers L s (node_object n) = true -> tree_scan fuel t o size buffer n bo r = Ok r' ->
  exists s', in_tree s' (node_object n) /\ signature_scan s' o size buffer bo (len buffer) = Ok true /\ hm_get r' (place s' o size) <> None.
Proof.
  intros M Ho Hbo Ht K. induction fuel as [|fuel IH]; intros n r r' C E; [discriminate|]. cbn [tree_scan] in E.
  destruct (N.ltb_spec bo (len buffer)); [|lia]. apply bind_Ok_inv in E. destruct E as (x & Ex & E).
  pose proof (node_scan_covers _ _ _ _ _ _ _ _ C M Ho K Ex) as X. pose proof (node_scan_cases _ _ _ _ _ _ Ex) as D.
  destruct x as [|n'|s']; [destruct X| |].
  - destruct (IH _ _ _ X E) as (s' & H1 & H2 & H3). exists s'. split; [|auto]. destruct D as (k & D). apply (in_tree_node _ _ _ _ _ D H1).
  - destruct D as (k & D1 & D2). exists s'. split; [apply (in_tree_signature _ _ _ _ D1)|]. split; [exact D2|].
    apply bind_Ok_inv in E. destruct E as (y & Ey & E).
    assert (Hy : y = place s' o size).
    { unfold place. destruct (s_type s'); [unfold sub_chk in Ey; destruct (s_offset s' <=? size); [|discriminate]|idtac|idtac]; injection Ey as <-; reflexivity. }
    subst y. assert (X2 : hm_get (hm_insert r (place s' o size) s') (place s' o size) <> None) by (rewrite hm_get_insert, N.eqb_refl; discriminate).
    destruct (st_type t); [injection E as <-; exact X2|injection E as <-; exact X2|congruence].
Qed.

(** ** One buffer *)
Definition scanner_ok (l : list signature) (s : scanner) : Prop :=
  tree_ok BoundToStart l (header_tree s) /\ tree_ok BoundToEnd l (footer_tree s) /\ tree_ok Unbound l (unbound_tree s).
Lemma scanner_build_ok fuel l s : scanner_build fuel l = Ok s -> scanner_ok l s.
Proof.
  unfold scanner_build. intros E. apply bind_Ok_inv in E. destruct E as (h & E1 & E). apply bind_Ok_inv in E. destruct E as (f & E2 & E). apply bind_Ok_inv in E. destruct E as (u & E3 & E).
  injection E as <-. split; [|split]; cbn [header_tree footer_tree unbound_tree]; eapply tree_build_ok; eassumption.
Qed.
Lemma scan_buffer_inv c b c' : scan_buffer c b = Ok c' ->
  sc_scanner c' = sc_scanner c /\ data_size c' = data_size c /\ data_offset c' = data_offset c + len b
  /\ (b = [] /\ results c' = results c \/ b <> [] /\ exists r1 r2,
      (if data_offset c <? header_range_size (sc_scanner c) then scan_with_tree (header_tree (sc_scanner c)) (data_offset c) (data_size c) b 0 (results c) else Ok (results c)) = Ok r1
      /\ (let footer_start := if footer_range_size (sc_scanner c) <=? data_size c then data_size c - footer_range_size (sc_scanner c) else 0 in
          let remaining := data_offset c + len b - footer_start in
          if footer_start <=? data_offset c + len b then
            scan_with_tree (footer_tree (sc_scanner c)) (data_offset c) (data_size c) b (if remaining <? len b then len b - remaining else 0) r1 else Ok r1) = Ok r2
      /\ (if 0 <? range_end (unbound_tree (sc_scanner c)) then scan_with_tree (unbound_tree (sc_scanner c)) (data_offset c) (data_size c) b 0 r2 else Ok r2) = Ok (results c')).
Proof.
  unfold scan_buffer. destruct (N.eqb_spec (len b) 0) as [Hz|Hz].
  - intros [= <-]. split; [reflexivity|]. split; [reflexivity|]. split; [lia|]. left. split; [destruct b; [reflexivity|rewrite len_cons in Hz; lia]|reflexivity].
  - intros E. apply bind_Ok_inv in E. destruct E as (r1 & E1 & E). apply bind_Ok_inv in E. destruct E as (next & En & E). apply bind_Ok_inv in E. destruct E as (r2 & E2 & E). apply bind_Ok_inv in E. destruct E as (r3 & E3 & E).
    injection E as <-. unfold add_chk in En. destruct (data_offset c + len b <? two64); [|discriminate]. injection En as <-. cbn [sc_scanner data_size data_offset results].
    split; [reflexivity|]. split; [reflexivity|]. split; [reflexivity|]. right. split; [intros ->; apply Hz; reflexivity|]. exists r1, r2. split; [exact E1|]. split; [exact E2|exact E3].
Qed.
Definition reported (l : list signature) (data : list N) (U : N -> signature -> Prop) (r : list (N * signature)) : Prop :=
  forall k s, In (k, s) r -> In s l /\ match s_type s with Unbound => U k s | _ => present data s k end.
Lemma tree_report l data (U : N -> signature -> Prop) ty t o b bo r r' : tree_ok ty l t -> window data o b ->
  (forall s bo, s_type s = Unbound -> occurs (pattern s) data (o + bo) -> bo + size_of s <= len b -> U o s) ->
  scan_with_tree t o (len data) b bo r = Ok r' -> reported l data U r -> reported l data U r'.
Proof.
  intros T W HU E R k s Hk. destruct (tree_scan_sound _ _ _ _ _ _ _ _ _ E _ _ Hk) as [H|(H1 & -> & bo' & H2)]; [apply R; exact H|].
  destruct (tr_in _ _ _ T _ H1) as (T1 & T2). split; [exact T1|]. destruct (signature_scan_sound _ _ _ _ _ W H2) as (S1 & S2 & S3).
  destruct (s_type s) eqn:Es; [apply S3; unfold bound; congruence|apply S3; unfold bound; congruence|].
  unfold place. rewrite Es. apply (HU s bo'); [exact Es| |]; unfold scan_place in *; rewrite Es in *; assumption.
Qed.
Lemma buffer_report l data (U : N -> signature -> Prop) c b c' : scanner_ok l (sc_scanner c) -> data_size c = len data -> window data (data_offset c) b ->
  (forall s bo, s_type s = Unbound -> occurs (pattern s) data (data_offset c + bo) -> bo + size_of s <= len b -> U (data_offset c) s) ->
  scan_buffer c b = Ok c' -> reported l data U (results c) -> reported l data U (results c').
Proof.
  intros (T1 & T2 & T3) Es W HU E R. apply scan_buffer_inv in E. destruct E as (_ & _ & _ & [[_ ->]|(_ & r1 & r2 & E1 & E2 & E3)]); [exact R|]. rewrite Es in *.
  assert (R1 : reported l data U r1) by (destruct (_ <? _) in E1; [apply (tree_report _ _ _ _ _ _ _ _ _ _ T1 W HU E1 R)|injection E1 as <-; exact R]).
  assert (R2 : reported l data U r2).
  { cbv zeta in E2. revert E2. destruct (_ <=? data_offset c + len b); intros E2; [apply (tree_report _ _ _ _ _ _ _ _ _ _ T2 W HU E2 R1)|injection E2 as <-; exact R1]. }
  destruct (_ <? _) in E3; [apply (tree_report _ _ _ _ _ _ _ _ _ _ T3 W HU E3 R2)|injection E3 as <-; exact R2].
Qed.
Lemma buffer_keeps c b c' k : scan_buffer c b = Ok c' -> hm_get (results c) k <> None -> hm_get (results c') k <> None.
Proof.
  intros E H. apply scan_buffer_inv in E. destruct E as (_ & _ & _ & [[_ ->]|(_ & r1 & r2 & E1 & E2 & E3)]); [exact H|].
  assert (R1 : hm_get r1 k <> None) by (destruct (_ <? _) in E1; [apply (tree_scan_keeps _ _ _ _ _ _ _ _ _ _ E1 H)|injection E1 as <-; exact H]).
  assert (R2 : hm_get r2 k <> None).
  { cbv zeta in E2. revert E2. destruct (_ <=? data_offset c + len b); intros E2; [apply (tree_scan_keeps _ _ _ _ _ _ _ _ _ _ E2 R1)|injection E2 as <-; exact R1]. }
  destruct (_ <? _) in E3; [apply (tree_scan_keeps _ _ _ _ _ _ _ _ _ _ E3 R2)|injection E3 as <-; exact R2].
Qed.

Lemma signature_scan_present data s o b bo k : bound s -> agree data o b -> present data s k -> o <= k -> k + size_of s <= o + len b ->
  signature_scan s o (len data) b bo (len b) = Ok true
  /\ forall i x, nth_error (pattern s) (N.to_nat i) = Some x -> nth_error b (N.to_nat (k - o + i)) = Some x /\ k - o + i < len data - o.
Proof.
  intros B A [P1 P2] Hk Hb. destruct (occurs_inv _ _ _ P2) as (O1 & O2).
  assert (Ep : firstn (N.to_nat (size_of s)) (skipn (N.to_nat (k - o)) b) = pattern s).
  { unfold size_of in *. rewrite A by lia. replace (o + (k - o)) with k by lia. unfold len. rewrite Nat2N.id. exact O2. }
  split.
  - unfold signature_scan. unfold bound in B.
    assert (Hpo : match s_type s with BoundToEnd => sub_chk (len data) (s_offset s) | BoundToStart => Ok (s_offset s) | Unbound => Ok o end = Ok k).
    { destruct (s_type s); [|rewrite P1; reflexivity|congruence]. unfold sub_chk. destruct (N.leb_spec (s_offset s) (len data)); [f_equal; lia|lia]. }
    rewrite Hpo. cbn [bind]. destruct (N.ltb_spec k o); [lia|].
    assert (Hso : match s_type s with Unbound => bo | _ => k - o end = k - o) by (destruct (s_type s); [reflexivity|reflexivity|congruence]). rewrite Hso.
    destruct (N.ltb_spec (len b) (k - o + size_of s)); [lia|]. destruct (N.ltb_spec (len data) (k - o + size_of s)); [unfold size_of in *; lia|]. cbn [orb].
    rewrite slice_ok by lia. cbn [bind]. replace (k - o + size_of s - (k - o)) with (size_of s) by lia. rewrite Ep. rewrite (proj2 (bytes_eq_iff _ _) eq_refl).
    cbn [andb]. f_equal. destruct (s_type s); [apply N.eqb_eq; lia|apply N.eqb_eq; lia|congruence].
  - intros i x Hx. assert (Hi : i < size_of s) by (assert (Y : nth_error (pattern s) (N.to_nat i) <> None) by congruence; apply nth_error_Some in Y; unfold size_of, len; lia).
    split; [|unfold size_of in *; lia]. rewrite <- Ep in Hx.
    assert (Z : forall (l : list N) n j y, nth_error (firstn n l) j = Some y -> nth_error l j = Some y).
    { clear. induction l as [|a l IH]; intros [|n] [|j] y; cbn; try discriminate; auto. apply IH. }
    apply Z in Hx. rewrite nth_error_skipn_at in Hx. rewrite <- Hx. f_equal. lia.
Qed.
(** a signature at the start that stands in the first buffer *)
Lemma header_found l data c b c' s k : scanner_ok l (sc_scanner c) -> covers (range_end (header_tree (sc_scanner c))) s (root_of (header_tree (sc_scanner c))) = true ->
  data_size c = len data -> data_offset c = 0 -> agree data 0 b ->
  In s l -> s_type s = BoundToStart -> pattern s <> [] -> present data s k -> k + size_of s <= len b -> scan_buffer c b = Ok c' ->
  exists s', In s' l /\ s_type s' = BoundToStart /\ signature_scan s' 0 (len data) b 0 (len b) = Ok true /\ hm_get (results c') (s_offset s') <> None.
Proof.
  intros (T & _ & _) Hcov Es Eo A Hs Hty Hne HP Hb E. assert (Hsz : 0 < size_of s) by (unfold size_of; destruct (pattern s); [congruence|rewrite len_cons; lia]).
  pose proof HP as [P1 P2]. rewrite Hty in P1. pose proof (tr_range _ _ _ T _ Hs Hty) as HR.
  destruct (occurs_inv _ _ _ P2) as (O1 & _).
  assert (Bs : bound s) by (unfold bound; congruence).
  destruct (signature_scan_present data s 0 b 0 k Bs A HP) as (M & K); [lia|lia|].
  pose proof E as E0. apply scan_buffer_inv in E. destruct E as (_ & _ & _ & [[-> _]|(_ & r1 & r2 & E1 & E2 & E3)]); [rewrite len_nil in Hb; lia|].
  rewrite Es, Eo in *. unfold header_range_size in E1. destruct (N.ltb_spec 0 (range_end (header_tree (sc_scanner c)))) as [H0|H0] in E1; [|lia].
  destruct (tree_scan_covers (range_end (header_tree (sc_scanner c))) s _ _ _ _ _ _ M ltac:(unfold size_of in *; lia) ltac:(lia) ltac:(rewrite (tr_type _ _ _ T); discriminate)
    ltac:(intros p x Hx; unfold byte_of, base_of in Hx; rewrite Hty in Hx; destruct (N.ltb_spec p (s_offset s)) as [Hy|Hy]; [discriminate|]; specialize (K _ _ Hx); replace (k - 0 + (p - s_offset s)) with (0 + p) in K by lia; exact K)
    _ _ _ Hcov E1) as (s' & X1 & X2 & X3).
  destruct (tr_in _ _ _ T _ X1) as (Y1 & Y2). exists s'. split; [exact Y1|]. split; [exact Y2|]. split; [exact X2|].
  unfold place in X3. rewrite Y2 in X3.
  assert (R2 : hm_get r2 (s_offset s') <> None).
  { cbv zeta in E2. revert E2. destruct (_ <=? 0 + len b); intros E2; [apply (tree_scan_keeps _ _ _ _ _ _ _ _ _ _ E2 X3)|injection E2 as <-; exact X3]. }
  destruct (_ <? _) in E3; [apply (tree_scan_keeps _ _ _ _ _ _ _ _ _ _ E3 R2)|injection E3 as <-; exact R2].
Qed.
(** a signature at the end that stands in a buffer with the whole end range *)
Lemma footer_found l data c b c' s k : scanner_ok l (sc_scanner c) -> covers (range_end (footer_tree (sc_scanner c))) s (root_of (footer_tree (sc_scanner c))) = true ->
  data_size c = len data -> agree data (data_offset c) b -> room l (data_offset c) (len data) -> data_offset c <= len data ->
  In s l -> s_type s = BoundToEnd -> pattern s <> [] -> present data s k -> k + size_of s <= data_offset c + len b -> scan_buffer c b = Ok c' ->
  exists s', In s' l /\ s_type s' = BoundToEnd /\ signature_scan s' (data_offset c) (len data) b (len data - range_end (footer_tree (sc_scanner c)) - data_offset c) (len b) = Ok true
    /\ hm_get (results c') (len data - s_offset s') <> None.
Proof.
  intros (_ & T & _) Hcov Es A Hroom Hoff Hs Hty Hne HP Hb E. assert (Hsz : 0 < size_of s) by (unfold size_of; destruct (pattern s); [congruence|rewrite len_cons; lia]).
  pose proof HP as [P1 P2]. rewrite Hty in P1. pose proof (tr_range _ _ _ T _ Hs Hty) as HR.
  destruct (occurs_inv _ _ _ P2) as (O1 & _). set (o := data_offset c) in *. set (R := range_end (footer_tree (sc_scanner c))) in *.
  assert (HRle : R <= len data - o).
  { apply (tr_range_least _ _ _ T). intros x Hx Hxt. specialize (Hroom x Hx Hxt). unfold size_of. lia. }
  assert (HRo : o + R <= len data) by lia.
  assert (Bs : bound s) by (unfold bound; congruence).
  destruct (signature_scan_present data s o b (len data - R - o) k Bs A HP) as (M & K); [lia|lia|].
  pose proof E as E0. apply scan_buffer_inv in E. fold o in E. destruct E as (_ & _ & _ & [[-> _]|(_ & r1 & r2 & E1 & E2 & E3)]); [rewrite len_nil in Hb; lia|].
  rewrite Es in *. cbv zeta in E2. unfold footer_range_size in E2. fold R in E2.
  destruct (N.leb_spec R (len data)) as [H1|H1] in E2; [|lia]. destruct (N.leb_spec (len data - R) (o + len b)) as [H2|H2] in E2; [|lia].
  assert (Hst : (if o + len b - (len data - R) <? len b then len b - (o + len b - (len data - R)) else 0) = len data - R - o) by (destruct (N.ltb_spec (o + len b - (len data - R)) (len b)); lia).
  rewrite Hst in E2.
  destruct (tree_scan_covers R s _ _ _ _ _ _ M ltac:(lia) ltac:(lia) ltac:(rewrite (tr_type _ _ _ T); discriminate)
    ltac:(intros p x Hx; unfold byte_of, base_of in Hx; rewrite Hty in Hx; destruct (N.ltb_spec p (R - s_offset s)) as [Hy|Hy]; [discriminate|]; specialize (K _ _ Hx); replace (k - o + (p - (R - s_offset s))) with (len data - R - o + p) in K by lia; exact K)
    _ _ _ Hcov E2) as (s' & X1 & X2 & X3).
  destruct (tr_in _ _ _ T _ X1) as (Y1 & Y2). exists s'. split; [exact Y1|]. split; [exact Y2|]. split; [exact X2|].
  unfold place in X3. rewrite Y2 in X3.
  destruct (_ <? _) in E3; [apply (tree_scan_keeps _ _ _ _ _ _ _ _ _ _ E3 X3)|injection E3 as <-; exact X3].
Qed.

(** ** No panic *)
Lemma depth_child p objects k o : In (k, o) objects -> (depth o < depth (ONode p objects))%nat.
Proof.
  intros H. cbn [depth]. apply Nat.lt_succ_r. induction objects as [|[k' o'] l IH]; [destruct H|]. destruct H as [[= -> ->]|H]; [apply Nat.le_max_l|].
  specialize (IH H). etransitivity; [exact IH|apply Nat.le_max_r].
Qed.
Lemma signature_scan_total s o size b bo : (s_type s = BoundToEnd -> s_offset s <= size) -> exists m, signature_scan s o size b bo (len b) = Ok m.
Proof.
  intros H. unfold signature_scan.
  assert (X : exists x, match s_type s with BoundToEnd => sub_chk size (s_offset s) | BoundToStart => Ok (s_offset s) | Unbound => Ok o end = Ok x).
  { destruct (s_type s); [|eexists; reflexivity|eexists; reflexivity]. specialize (H eq_refl). unfold sub_chk. destruct (N.leb_spec (s_offset s) size); [eexists; reflexivity|lia]. }
  destruct X as (x & ->). cbn [bind]. destruct (x <? o); [eexists; reflexivity|].
  set (so := match s_type s with Unbound => bo | _ => x - o end). destruct (N.ltb_spec (len b) (so + size_of s)) as [?|Hb]; [eexists; reflexivity|].
  destruct (size <? so + size_of s); [eexists; reflexivity|]. cbn [orb]. rewrite slice_ok by lia. eexists. reflexivity.
Qed.
Lemma object_scan_total x o size b bo : (match x with Some (OSignature s) => s_type s = BoundToEnd -> s_offset s <= size | _ => True end) ->
  exists r, object_scan x o size b bo (len b) = Ok r.
Proof.
  destruct x as [[p ob|s]|]; intros H; [eexists; reflexivity| |eexists; reflexivity].
  destruct (signature_scan_total s o size b bo H) as (m & Em). cbn [object_scan]. rewrite Em. eexists. reflexivity.
Qed.
Definition fits (size : N) (n : node) : Prop := forall s, in_tree s (node_object n) -> s_type s = BoundToEnd -> s_offset s <= size.
Lemma node_scan_total n o size b bo : fits size n -> exists r, node_scan n o size b bo (len b) = Ok r.
Proof.
  destruct n as [p objects]. intros F. unfold node_scan. destruct (size <=? o); [eexists; reflexivity|].
  assert (HF : forall k, match object_get objects k with Some (OSignature s) => s_type s = BoundToEnd -> s_offset s <= size | _ => True end).
  { intros k. destruct (object_get objects k) as [[|s]|] eqn:E; [exact I| |exact I]. apply object_get_In in E. destruct E as (k' & E). apply F. apply (in_tree_signature _ _ _ _ E). }
  assert (X : exists k found, (if (bo + p <? len b) && (bo + p <? size - o) then x <- idx b (bo + p) ;; Ok (object_get objects (Some x)) else Ok None) = Ok found
    /\ (found = None \/ found = object_get objects k)).
  { destruct (N.ltb_spec (bo + p) (len b)) as [Hp|Hp]; cbn [andb]; [|exists None, None; auto]. destruct (bo + p <? size - o); [|exists None, None; auto].
    rewrite (idx_ok _ _ 0) by exact Hp. cbn [bind]. eexists (Some _), _. split; [reflexivity|right; reflexivity]. }
  destruct X as (k & found & -> & Hf). cbn [bind].
  assert (Hfound : match found with Some (OSignature s) => s_type s = BoundToEnd -> s_offset s <= size | _ => True end) by (destruct Hf as [->| ->]; [exact I|apply HF]).
  destruct found as [[p2 ob2|s]|]; [eexists; reflexivity| |apply object_scan_total; apply HF].
  destruct (signature_scan_total s o size b bo Hfound) as (m & ->). cbn [bind]. destruct m; [eexists; reflexivity|]. apply object_scan_total. apply HF.
Qed.
Lemma skip_loop_total t b bo o fuel : o < len b -> 1 <= o ->
  (o - 1 <= bo \/ 0 < match st_type t with Unbound => smallest_skip_value (skips t) | _ => smallest_pattern_size (skips t) end) ->
  exists v, skip_loop (S fuel) t b bo o = Ok v /\ (0 < match st_type t with Unbound => smallest_skip_value (skips t) | _ => smallest_pattern_size (skips t) end -> 0 < v).
Proof.
  intros H1 H2 H3. cbn [skip_loop]. rewrite (idx_ok _ _ 0) by exact H1. cbn [bind]. set (d := match st_type t with Unbound => smallest_skip_value (skips t) | _ => smallest_pattern_size (skips t) end) in *.
  set (v := if skip_value (skips t) (nth (N.to_nat o) b 0) =? 0 then d else skip_value (skips t) (nth (N.to_nat o) b 0)).
  unfold sub_chk. destruct (N.leb_spec 1 o); [|lia]. cbn [bind].
  assert (Hv : 0 < d -> 0 < v) by (unfold v; destruct (N.eqb_spec (skip_value (skips t) (nth (N.to_nat o) b 0)) 0); lia).
  exists v. split; [|exact Hv]. destruct H3 as [H3|H3].
  - destruct (N.leb_spec (o - 1) bo); [reflexivity|lia].
  - specialize (Hv H3). destruct (N.eqb_spec v 0); [lia|]. cbn [negb]. rewrite Bool.orb_true_r. reflexivity.
Qed.
Lemma tree_scan_total fuel t o size b : 2 <= len b -> 2 <= smallest_pattern_size (skips t) -> 0 < smallest_skip_value (skips t) ->
  forall n bo r, fits size n -> (forall s, in_tree s (node_object n) -> 0 < size_of s) ->
  (depth (node_object n) + N.to_nat (len b - bo) < fuel)%nat -> exists r', tree_scan fuel t o size b n bo r = Ok r'.
Proof.
  intros Hb Hs Hk. induction fuel as [|fuel IH]; intros n bo r F Z Hf; [lia|]. cbn [tree_scan].
  destruct (N.ltb_spec bo (len b)) as [Hbo|Hbo]; [|eexists; reflexivity].
  destruct (node_scan_total n o size b bo F) as (x & Ex). rewrite Ex. cbn [bind]. pose proof (node_scan_cases _ _ _ _ _ _ Ex) as C.
  destruct x as [|n'|s].
  - unfold sub_chk. destruct (N.leb_spec 1 (bo + N.min (len b) (smallest_pattern_size (skips t)))); [|lia]. cbn [bind].
    destruct (skip_loop_total t b bo (N.min (bo + N.min (len b) (smallest_pattern_size (skips t)) - 1) (len b - 1)) (length b)) as (v & -> & Hv); [lia|lia|right; destruct (st_type t); lia|].
    cbn [bind]. assert (Hv' : 0 < v) by (apply Hv; destruct (st_type t); lia).
    destruct (st_type t); [eexists; reflexivity|eexists; reflexivity|]. apply IH; [exact F|exact Z|lia].
  - destruct C as (k & C). apply IH.
    + intros s Hs'. apply F. apply (in_tree_node _ _ _ _ _ C Hs').
    + intros s Hs'. apply Z. apply (in_tree_node _ _ _ _ _ C Hs').
    + pose proof (depth_child (fst n) (snd n) _ _ C) as D. unfold node_object in *. lia.
  - destruct C as (k & C1 & C2). pose proof (in_tree_signature s (fst n) (snd n) _ C1) as Ht.
    assert (X : exists y, match s_type s with BoundToEnd => sub_chk size (s_offset s) | BoundToStart => Ok (s_offset s) | Unbound => Ok o end = Ok y).
    { specialize (F s Ht). destruct (s_type s); [|eexists; reflexivity|eexists; reflexivity]. specialize (F eq_refl). unfold sub_chk. destruct (N.leb_spec (s_offset s) size); [eexists; reflexivity|lia]. }
    destruct X as (y & ->). cbn [bind]. pose proof (Z s Ht). destruct (st_type t); [eexists; reflexivity|eexists; reflexivity|]. apply IH; [exact F|exact Z|lia].
Qed.
Definition sizes_ok (l : list signature) : Prop := forall s, In s l -> 2 <= len (pattern s).
Lemma with_tree_total l ty t o size b bo r : tree_ok ty l t -> sizes_ok l -> (exists s, In s l /\ s_type s = ty) ->
  (forall s, In s l -> s_type s = BoundToEnd -> s_offset s <= size) -> 2 <= len b -> exists r', scan_with_tree t o size b bo r = Ok r'.
Proof.
  intros T Z X F Hb. pose proof (tr_skips _ _ _ T X) as K. destruct (skip_of_ok l (skips t)) as (K1 & K2); [exact Z|destruct X as (s & Hs & _); intros ->; destruct Hs|exact K|].
  unfold scan_with_tree. apply tree_scan_total; [exact Hb|exact K1|exact K2| | |].
  - intros s Hs Hty. apply F; [apply (tr_in _ _ _ T); exact Hs|exact Hty].
  - intros s Hs. destruct (tr_in _ _ _ T s Hs) as (H1 & _). specialize (Z s H1). unfold size_of. lia.
  - unfold node_depth, node_object. unfold len. lia.
Qed.
Lemma type_dec ty l : (exists s, In s l /\ s_type s = ty) \/ (forall s, In s l -> s_type s <> ty).
Proof.
  destruct (existsb (fun s => type_eq (s_type s) ty) l) eqn:E.
  - left. apply existsb_exists in E. destruct E as (s & H1 & H2). apply type_eq_iff in H2. exists s. auto.
  - right. intros s Hs Hty. assert (Y : existsb (fun s => type_eq (s_type s) ty) l = true) by (apply existsb_exists; exists s; split; [exact Hs|apply type_eq_iff; exact Hty]). congruence.
Qed.
Lemma buffer_total l (data : list N) c b : scanner_ok l (sc_scanner c) -> sizes_ok l -> data_size c = len data -> data_offset c + len b < two64 ->
  data_offset c = 0 \/ data_offset c + len b <= len data -> 2 <= len data -> len b <> 1 ->
  (forall s, In s l -> s_type s = BoundToEnd -> s_offset s <= len data) -> exists c', scan_buffer c b = Ok c'.
Proof.
  intros (T1 & T2 & T3) Z Es Hov W Hd Hb F. unfold scan_buffer. destruct (N.eqb_spec (len b) 0) as [Hz|Hz]; [eexists; reflexivity|]. rewrite Es.
  assert (Hb2 : 2 <= len b) by lia.
  assert (X1 : exists r1, (if data_offset c <? header_range_size (sc_scanner c) then scan_with_tree (header_tree (sc_scanner c)) (data_offset c) (len data) b 0 (results c) else Ok (results c)) = Ok r1).
  { destruct (N.ltb_spec (data_offset c) (header_range_size (sc_scanner c))) as [H|H]; [|eexists; reflexivity]. apply (with_tree_total l _ _ _ _ _ _ _ T1 Z); [|exact F|exact Hb2].
    destruct (type_dec BoundToStart l) as [X|X]; [exact X|]. destruct (tr_empty _ _ _ T1 X) as (_ & _ & X3). unfold header_range_size in H. lia. }
  destruct X1 as (r1 & ->). cbn [bind]. unfold add_chk. destruct (N.ltb_spec (data_offset c + len b) two64); [|lia]. cbn [bind].
  match goal with |- exists c', (r <- ?A ;; _) = _ => assert (X2 : exists r2, A = Ok r2) end.
  { destruct (_ <=? data_offset c + len b) eqn:Ef; [|eexists; reflexivity].
    destruct (type_dec BoundToEnd l) as [X|X]; [apply (with_tree_total l _ _ _ _ _ _ _ T2 Z X F Hb2)|].
    destruct (tr_empty _ _ _ T2 X) as (X1 & X2 & X3). unfold footer_range_size in *. rewrite X3 in *. destruct (N.leb_spec 0 (len data)) in Ef; [|lia]. destruct (N.leb_spec 0 (len data)); [|lia]. rewrite N.sub_0_r in *.
    apply N.leb_le in Ef. unfold scan_with_tree. rewrite X1. cbn [tree_scan].
    set (start := if data_offset c + len b - len data <? len b then len b - (data_offset c + len b - len data) else 0).
    assert (Hst : len b <= start \/ 2 <= start < len b) by (unfold start; destruct (N.ltb_spec (data_offset c + len b - len data) (len b)); lia).
    destruct (N.ltb_spec start (len b)) as [Hlt|Hge]; [|eexists; reflexivity].
    destruct (node_scan_total (0, []) (data_offset c) (len data) b start) as (x & Ex).
    { intros s Hs. inversion Hs as [|p ob k o Hin]; subst. destruct Hin. }
    rewrite Ex. cbn [bind]. pose proof (node_scan_cases _ _ _ _ _ _ Ex) as C. destruct x as [|n'|s']; [|destruct C as (k & [])|destruct C as (k & [] & _)].
    rewrite X2. cbn [skip_empty smallest_pattern_size]. rewrite N.min_0_r, N.add_0_r. unfold sub_chk at 1. destruct (N.leb_spec 1 start); [|lia]. cbn [bind].
    destruct (skip_loop_total (footer_tree (sc_scanner c)) b start (N.min (start - 1) (len b - 1)) (length b)) as (v & -> & _); [lia|lia|left; lia|]. cbn [bind].
    rewrite (tr_type _ _ _ T2). eexists. reflexivity. }
  destruct X2 as (r2 & ->). cbn [bind].
  assert (X3 : exists r3, (if 0 <? range_end (unbound_tree (sc_scanner c)) then scan_with_tree (unbound_tree (sc_scanner c)) (data_offset c) (len data) b 0 r2 else Ok r2) = Ok r3).
  { destruct (N.ltb_spec 0 (range_end (unbound_tree (sc_scanner c)))) as [H1|H1]; [|eexists; reflexivity]. apply (with_tree_total l _ _ _ _ _ _ _ T3 Z); [|exact F|exact Hb2].
    destruct (type_dec Unbound l) as [X|X]; [exact X|]. destruct (tr_empty _ _ _ T3 X) as (_ & _ & X3). lia. }
  destruct X3 as (r3 & ->). cbn [bind]. eexists. reflexivity.
Qed.
