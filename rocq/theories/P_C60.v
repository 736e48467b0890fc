(** * C60: the finder reports every file entry once, with its path *)
From Coq Require Import Lia.
From Verif Require Import Base BaseLemmas Finder_model Finder_spec
  Paths_model VfsVolumes_model VfsVolumes_spec P_C59.
Ltac Zify.zify_post_hook ::= idtac.

Scheme tree_mut := Induction for tree Sort Prop with forest_mut := Induction for forest Sort Prop.
Combined Scheme tree_forest_ind from tree_mut, forest_mut.

(** ** The rounds of the search *)
Section Proof.
Context {E : Type}.
Variable name : E -> option (list N).
Variable number : E -> res N.
Variable sub : E -> N -> res E.
Notation round := (finder_round name number sub).
Notation loop := (finder_loop name number sub).
Notation next := (finder_next name number sub).
Notation calls := (finder_calls name number sub).

Definition st p s : finder E := {| fd_components := p; fd_states := s; fd_started := true |}.

(** From [f], the calls of [next] give the items and arrive at [g], none of them taking
    more than [k] rounds. The last call may be under way, which [f] and [g] being between
    rounds allows. *)
Inductive gives : finder E -> list (finding E) -> finder E -> Prop :=
| gives_nil f : gives f [] f
| gives_on f g items h : round f = GoOn g -> gives g items h -> gives f items h
| gives_item f x g items h : round f = Return (Some x) g -> gives g items h -> gives f (x :: items) h.

Lemma gives_app f a g b h : gives f a g -> gives g b h -> gives f (a ++ b) h.
Proof. induction 1; intros; cbn; [assumption| |]; [eapply gives_on|eapply gives_item]; eauto. Qed.

Lemma gives_search :
  (forall t, answers number sub t -> forall p s,
     gives (st (p ++ [name (tree_entry t)]) ((tree_entry t, forest_size (match t with Tree _ f => f end), 0) :: s))
       (search name p t) (st p s)) /\
  (forall f, forall e n i p s, answers_from number sub e i f -> n = i + forest_size f -> n < two64 ->
     gives (st p ((e, n, i) :: s)) (search_all name p f) (st p ((e, n, n) :: s))).
Proof.
  apply tree_forest_ind.
  - intros e subs IH [H1 [H2 H3]] p s. cbn [tree_entry search]. apply gives_app with (g := st (p ++ [name e]) ((e, forest_size subs, forest_size subs) :: s)).
    + apply IH; auto.
    + eapply gives_item; [|apply gives_nil]. unfold finder_round. cbn. rewrite N.leb_refl. rewrite removelast_last. reflexivity.
  - intros e n i p s _ -> _. cbn [forest_size search_all]. rewrite N.add_0_r. apply gives_nil.
  - intros f IH e n i p s [H1 H2] Hn Hb. cbn [forest_size] in Hn. cbn [search_all].
    eapply gives_item; [|apply (IH e n (i + 1) p s H2); lia].
    unfold finder_round. cbn [st fd_states fd_components fd_started]. destruct (N.leb_spec n i); [lia|]. unfold add_chk. destruct (N.ltb_spec (i + 1) two64); [|lia].
    destruct H1 as [->|(x & -> & Hx)]; [reflexivity|]. cbv iota beta. rewrite Hx. reflexivity.
  - intros t IHt f IH e n i p s [H1 [H2 H3]] Hn Hb. cbn [forest_size] in Hn. cbn [search_all].
    apply gives_app with (g := st p ((e, n, i + 1) :: s)); [|apply (IH e n (i + 1) p s H3); lia].
    eapply gives_on; [|apply (IHt H2 p)].
    unfold finder_round. cbn [st fd_states fd_components fd_started]. destruct (N.leb_spec n i); [lia|]. unfold add_chk. destruct (N.ltb_spec (i + 1) two64); [|lia].
    rewrite H1. cbv iota beta. destruct t as [x subs]. destruct H2 as [Hx _]. cbn [tree_entry]. rewrite Hx. reflexivity.
Qed.

(** ** From rounds to calls *)
Lemma loop_more k k' f r : loop k f = Some r -> (k <= k')%nat -> loop k' f = Some r.
Proof.
  revert k' f. induction k as [|k IH]; intros k' f H L; [discriminate|]. destruct k' as [|k']; [lia|]. cbn in *. destruct (round f); auto. apply IH; auto. lia.
Qed.
Lemma round_started f : fd_started f = true -> match round f with GoOn g => fd_started g = true | Return _ g => fd_started g = true | Crash => True end.
Proof.
  intros H. unfold finder_round. destruct (fd_states f) as [|[[e n] i] s]; [exact H|]. destruct (n <=? i); [exact H|]. destruct (add_chk two64 i 1); try exact I.
  destruct (sub e i); try exact H; try exact I. destruct (number a0); try exact H; exact I.
Qed.

(** The same list of items, by calls *)
Fixpoint calls_loop (k : nat) (n : nat) (f : finder E) : option (list (option (finding E))) :=
  match n with
  | O => Some []
  | S n => match loop k f with
           | Some (Ok (item, g)) => match calls_loop k n g with Some l => Some (item :: l) | None => None end
           | _ => None
           end
  end.
Lemma calls_loop_more n : forall k k' f r, calls_loop k n f = Some r -> (k <= k')%nat -> calls_loop k' n f = Some r.
Proof.
  induction n as [|n IH]; intros k k' f r H L; [exact H|]. cbn in *. destruct (loop k f) as [[[item g]| |]|] eqn:El; try discriminate.
  rewrite (loop_more _ _ _ _ El L). destruct (calls_loop k n g) as [l|] eqn:Ec; [|discriminate]. rewrite (IH _ _ _ _ Ec L). exact H.
Qed.
Lemma loop_started k : forall f item g, fd_started f = true -> loop k f = Some (Ok (item, g)) -> fd_started g = true.
Proof.
  induction k as [|k IH]; intros f item g Hf H; [discriminate|]. cbn in H. pose proof (round_started f Hf) as R. destruct (round f); [eauto| |discriminate].
  injection H as -> ->. exact R.
Qed.
Lemma calls_of_loop root n : forall k f r, fd_started f = true -> calls_loop k n f = Some r -> calls k root n f = Some (Ok r).
Proof.
  induction n as [|n IH]; intros k f r Hf H; [injection H as <-; reflexivity|]. cbn in *. unfold finder_next. rewrite Hf.
  destruct (loop k f) as [[[item g]| |]|] eqn:El; try discriminate. destruct (calls_loop k n g) as [l|] eqn:Ec; [|discriminate].
  rewrite (IH k g l (loop_started _ _ _ _ Hf El) Ec). injection H as <-. reflexivity.
Qed.
Lemma done_calls k n p : (0 < k)%nat -> calls_loop k n (st p []) = Some (repeat None n).
Proof. intros Hk. induction n as [|n IH]; [reflexivity|]. destruct k; [lia|]. cbn in *. rewrite IH. reflexivity. Qed.
Lemma gives_calls f items g : gives f items g -> forall m p, g = st p [] ->
  exists k, calls_loop k (length items + m) f = Some (map Some items ++ repeat None m).
Proof.
  induction 1 as [f|f g items h R _ IH|f x g items h R _ IH]; intros m p Hg.
  - exists 1%nat. subst. apply done_calls. lia.
  - destruct (IH m p Hg) as [k Hk]. exists (S k). destruct (length items + m)%nat as [|n] eqn:El.
    + cbn in *. exact Hk.
    + cbn [calls_loop] in *. cbn [finder_loop]. rewrite R. destruct (loop k g) as [[[item g']| |]|]; try discriminate.
      destruct (calls_loop k n g') as [l|] eqn:Ec; [|discriminate]. rewrite (calls_loop_more _ _ (S k) _ _ Ec); [exact Hk|lia].
  - destruct (IH m p Hg) as [k Hk]. exists (S k). cbn [length Nat.add calls_loop finder_loop map app]. rewrite R.
    rewrite (calls_loop_more _ _ (S k) _ _ Hk); [reflexivity|lia].
Qed.
End Proof.

(** The calls of [next], from a new finder, give what the search gives: one after the other
    and nothing after that, as often as it is called. No call panics and each ends: [rounds]
    is a number of rounds of its inner loop that suffices. *)
Theorem C60_finds_everything_partial :
  forall E (name : E -> option (list N)) number sub t,
  answers number sub t ->
  forall more, exists rounds0, forall rounds, (rounds0 <= rounds)%nat ->
  finder_calls name number sub rounds (Ok (Some (tree_entry t))) (length (search name [] t) + more) finder_new
  = Some (Ok (map Some (search name [] t) ++ repeat None more)).
Proof.
  intros E name number sub t H more. pose proof (proj1 (gives_search name number sub) t H [] []) as G.
  destruct (gives_calls name number sub _ _ _ G more [] eq_refl) as [k Hk]. exists k. intros rounds L.
  apply (calls_loop_more name number sub _ _ rounds) in Hk; [|exact L].
  assert (Hpos : exists n, (length (search name [] t) + more)%nat = S n).
  { destruct t as [e subs]. cbn [search]. rewrite app_length. cbn [length]. eexists. rewrite <- Nat.add_assoc, Nat.add_comm. cbn [Nat.add]. rewrite <- Nat.add_succ_comm || idtac. reflexivity. }
  destruct Hpos as [n En]. rewrite En in *. cbn [finder_calls finder_next finder_new fd_started finder_start]. unfold finder_next. cbn [fd_started finder_new].
  destruct t as [e subs]. cbn [tree_entry answers] in *. destruct H as [Hn [Hb Hs]]. unfold finder_start. rewrite Hn.
  cbn [calls_loop app] in Hk. fold (st [name e] [(e, forest_size subs, 0)]).
  destruct (finder_loop name number sub rounds (st [name e] [(e, forest_size subs, 0)])) as [[[item g]| |]|] eqn:El; try discriminate.
  destruct (calls_loop name number sub rounds n g) as [l|] eqn:Ec; [|discriminate].
  rewrite (calls_of_loop name number sub _ n rounds g l); [injection Hk as <-; reflexivity| |exact Ec].
  eapply loop_started; [|exact El]. reflexivity.
Qed.
Print Assumptions C60_finds_everything_partial.

(** Everything in the tree is found and nothing else, each entry with the names on the way
    from the root to it. *)
Lemma search_prefix {E} (name : E -> option (list N)) :
  (forall t p e q, In (Found e q) (search name p t) <-> exists r, q = p ++ r /\ in_tree name t r e) /\
  (forall f p e q, In (Found e q) (search_all name p f) <-> exists t r, q = p ++ r /\ in_forest t f /\ in_tree name t r e).
Proof.
  apply tree_forest_ind.
  - intros x subs IH p e q. cbn [search]. rewrite in_app_iff, IH. split.
    + intros [(t & r & -> & H1 & H2)|[H|[]]].
      * exists (name x :: r). split; [now rewrite <- app_assoc|]. now apply in_sub with t.
      * injection H as <- <-. exists [name x]. split; [reflexivity|constructor].
    + intros (r & -> & H). inversion H as [? ?|? ? t path ? H1 H2]; subst.
      * right. left. reflexivity.
      * left. exists t, path. split; [now rewrite <- app_assoc|auto].
  - intros p e q. cbn. split; [intros []|]. intros (t & r & _ & H & _). inversion H.
  - intros f IH p e q. cbn [search_all In]. rewrite IH. split.
    + intros [H|(t & r & E1 & H1 & H2)]; [discriminate|]. exists t, r. repeat split; auto. now constructor.
    + intros (t & r & E1 & H1 & H2). right. exists t, r. inversion H1; subst. auto.
  - intros t IHt f IH p e q. cbn [search_all]. rewrite in_app_iff, IHt, IH. split.
    + intros [(r & E1 & H)|(u & r & E1 & H1 & H2)]; [exists t, r|exists u, r]; repeat split; auto; now constructor.
    + intros (u & r & E1 & H1 & H2). inversion H1; subst; [left|right]; eauto.
Qed.
Theorem C60_found_iff_in_the_tree :
  forall E (name : E -> option (list N)) t e path,
  In (Found e path) (search name [] t) <-> in_tree name t path e.
Proof.
  intros E name t e path. rewrite (proj1 (search_prefix name)). cbn. split; [intros (r & -> & H); exact H|eauto].
Qed.
Print Assumptions C60_found_iff_in_the_tree.

(** As many are found as there are entries: none is reported twice. *)
Definition is_found {E} (x : finding E) : bool := match x with Found _ _ => true | Failed => false end.
Theorem C60_found_once :
  forall E (name : E -> option (list N)) t,
  length (filter is_found (search name [] t)) = entries t.
Proof.
  intros E name t. generalize (@nil (option (list N))).
  enough (G : (forall t p, length (filter is_found (search name p t)) = entries t) /\
              (forall f p, length (filter is_found (search_all name p f)) = entries_all f)) by (intros; apply G).
  clear t. apply (tree_forest_ind E (fun t => forall p, length (filter is_found (search name p t)) = entries t) (fun f => forall p, length (filter is_found (search_all name p f)) = entries_all f)).
  - intros e subs IH p. cbn [search entries]. rewrite filter_app, app_length, IH. apply Nat.add_1_r.
  - reflexivity.
  - intros f IH p. cbn. apply IH.
  - intros t IHt f IH p. cbn [search_all entries_all]. rewrite filter_app, app_length, IHt, IH. reflexivity.
Qed.
Print Assumptions C60_found_once.

(** A root that is missing, cannot be retrieved or cannot be listed *)
Theorem C60_no_root :
  forall E (name : E -> option (list N)) number sub rounds calls, (0 < rounds)%nat ->
  finder_calls name number sub rounds (Ok None) calls finder_new = Some (Ok (repeat None calls)) /\
  (forall root, root = Err \/ (exists e, root = Ok (Some e) /\ number e = Err) ->
   finder_calls name number sub rounds root (S calls) finder_new = Some (Ok (Some Failed :: repeat None calls))).
Proof.
  intros E name number sub rounds calls Hr.
  assert (D : forall root n, finder_calls name number sub rounds root n {| fd_components := []; fd_states := []; fd_started := true |} = Some (Ok (repeat None n))).
  { intros root n. apply calls_of_loop; [reflexivity|]. apply (done_calls name number sub rounds n [] Hr). }
  split.
  - destruct calls as [|n]; [reflexivity|]. cbn. rewrite D. reflexivity.
  - intros root [->|(e & -> & He)]; cbn [finder_calls]; unfold finder_next, finder_start; cbn [fd_started finder_new].
    + rewrite D. reflexivity.
    + rewrite He, D. reflexivity.
Qed.
Print Assumptions C60_no_root.

(** A directory that is listed in itself, as a damaged file system can have it: the first
    call does not return, whatever number of rounds it takes, and the path grows with every
    round. *)
Theorem C60_returns_refuted :
  forall rounds,
  finder_next (fun _ : unit => None) (fun _ => Ok 1) (fun _ _ => Ok tt) rounds (Ok (Some tt)) finder_new = None.
Proof.
  intros rounds. unfold finder_next. cbn [fd_started finder_new finder_start].
  assert (G : forall k p s, finder_loop (fun _ : unit => None) (fun _ => Ok 1) (fun _ _ => Ok tt) k
    {| fd_components := p; fd_states := (tt, 1, 0) :: s; fd_started := true |} = None).
  { induction k as [|k IH]; intros p s; [reflexivity|]. cbn. apply IH. }
  apply G.
Qed.
Print Assumptions C60_returns_refuted.

(** The iterator of an entry gives its sub file entries in order, an error for each one that
    cannot be read, and nothing after that. *)
Theorem C60_iterator_lists_the_sub_entries :
  forall E (sub : E -> N -> res E) e number more,
  number < two64 -> (forall i, i < number -> sub e i <> Panic) ->
  entries_calls sub (N.to_nat number + more) e number 0 =
  Ok (map (fun i => Some (sub e i)) (seqN 0 (N.to_nat number)) ++ repeat None more).
Proof.
  intros E sub e number more Hn Hp.
  assert (G : forall k i, i + N.of_nat k = number ->
    entries_calls sub (k + more) e number i = Ok (map (fun i => Some (sub e i)) (seqN i k) ++ repeat None more)).
  { induction k as [|k IH]; intros i Hi.
    - cbn [Nat.add seqN map app]. assert (i = number) by lia. subst i. clear Hi. induction more as [|m IHm]; [reflexivity|].
      cbn [entries_calls entries_next]. unfold entries_next. rewrite N.leb_refl. cbn [bind]. rewrite IHm. reflexivity.
    - cbn [Nat.add entries_calls]. unfold entries_next. destruct (N.leb_spec number i); [lia|].
      specialize (Hp i ltac:(lia)). unfold add_chk. destruct (N.ltb_spec (i + 1) two64); [|lia].
      specialize (IH (i + 1) ltac:(lia)). destruct (sub e i) eqn:Es; cbn [bind]; [| |congruence]; rewrite IH; cbn [bind seqN map app]; rewrite Es; reflexivity. }
  apply (G (N.to_nat number) 0). lia.
Qed.
Print Assumptions C60_iterator_lists_the_sub_entries.

(** ** Searching a file system of partitions or layers *)
(** The name of an entry, and a path as the finder reports it as the path of a lookup: the
    root, which has no name, is the empty first component. *)
Definition volume_entry_name {A} (kind : volume_kind) (e : volume_entry A) : option (list N) :=
  match volume_name kind e with Ok name => name | _ => None end.
Definition path_of (components : list (option (list N))) : vfs_path :=
  VfsPathString (map (fun c => match c with Some name => name | None => [] end) components).

Fixpoint parts_forest {A} (system : volume_system A) (i : N) (k : nat) : forest (volume_entry A) :=
  match k with
  | O => Empty
  | S k => match vs_get system i with
           | Ok part => Beneath (Tree (VPart i part) Empty) (parts_forest system (i + 1) k)
           | _ => Broken (parts_forest system (i + 1) k)
           end
  end.
Lemma parts_size {A} (system : volume_system A) k : forall i, forest_size (parts_forest system i k) = N.of_nat k.
Proof. induction k as [|k IH]; intros i; [reflexivity|]. cbn [parts_forest]. destruct (vs_get system i); cbn [forest_size]; rewrite IH; lia. Qed.
Lemma parts_answer {A} (system : volume_system A) k : forall i,
  (forall j, i <= j < i + N.of_nat k -> vs_get system j <> Panic) ->
  answers_from volume_number_of_subs volume_sub (VRoot system) i (parts_forest system i k).
Proof.
  induction k as [|k IH]; intros i H; [exact I|]. cbn [parts_forest]. pose proof (H i ltac:(lia)) as Hi.
  assert (R : answers_from volume_number_of_subs volume_sub (VRoot system) (i + 1) (parts_forest system (i + 1) k)) by (apply IH; intros; apply H; lia).
  destruct (vs_get system i) as [part| |] eqn:E; [| |congruence]; cbn [answers_from answers tree_entry volume_sub]; rewrite E; cbn [bind].
  - repeat split; auto.
  - auto.
Qed.
Lemma parts_in {A} (system : volume_system A) t k : forall i,
  in_forest t (parts_forest system i k) <-> exists j part, i <= j < i + N.of_nat k /\ vs_get system j = Ok part /\ t = Tree (VPart j part) Empty.
Proof.
  induction k as [|k IH]; intros i; cbn [parts_forest].
  - split; [inversion 1|]. intros (j & part & H & _). lia.
  - split.
    + intros H. destruct (vs_get system i) as [part| |] eqn:E; inversion H; subst.
      * exists i, part. split; [lia|auto].
      * apply IH in H2. destruct H2 as (j & p & L & R). exists j, p. split; [lia|auto].
      * apply IH in H2. destruct H2 as (j & p & L & R). exists j, p. split; [lia|auto].
      * apply IH in H2. destruct H2 as (j & p & L & R). exists j, p. split; [lia|auto].
    + intros (j & part & L & G & ->). destruct (N.eq_dec j i) as [->|Hj].
      * rewrite G. constructor.
      * assert (I' : in_forest (Tree (VPart j part) Empty) (parts_forest system (i + 1) k)) by (apply IH; exists j, part; split; [lia|auto]).
        destruct (vs_get system i); now constructor.
Qed.

(** The finder reports every partition or layer that can be read, and the path it reports
    with an entry leads back to that entry. *)
Theorem C60_paths_lead_back :
  forall A (fs : volume_file_system A),
  is_open fs -> (forall i, i < vs_number (vfs_system fs) -> vs_get (vfs_system fs) i <> Panic) ->
  exists items,
  (forall more, exists rounds0, forall rounds, (rounds0 <= rounds)%nat ->
     finder_calls (volume_entry_name (vfs_kind fs)) volume_number_of_subs volume_sub rounds (Ok (Some (volume_root fs)))
       (length items + more) finder_new = Some (Ok (map Some items ++ repeat None more))) /\
  (forall e components, In (Found e components) items -> volume_by_path fs (path_of components) = Ok (Some e)) /\
  (forall i part, i < vs_number (vfs_system fs) -> vs_get (vfs_system fs) i = Ok part ->
     exists components, In (Found (VPart i part) components) items) /\
  length (filter is_found items) = S (length (filter (fun i => match vs_get (vfs_system fs) i with Ok _ => true | _ => false end)
                                                (seqN 0 (N.to_nat (vs_number (vfs_system fs)))))).
Proof.
  intros A fs Ho Hg. destruct (open_number fs Ho) as [_ B].
  set (sys := vfs_system fs) in *. set (kind := vfs_kind fs). set (k := N.to_nat (vs_number sys)).
  assert (Ek : N.of_nat k = vs_number sys) by apply N2Nat.id.
  set (t := Tree (VRoot sys) (parts_forest sys 0 k)).
  assert (Ht : answers volume_number_of_subs volume_sub t).
  { unfold t. cbn [answers]. rewrite parts_size, Ek. split; [reflexivity|]. split; [exact B|]. apply parts_answer. intros j L. apply Hg. lia. }
  exists (search (volume_entry_name kind) [] t). split; [exact (C60_finds_everything_partial _ _ _ _ t Ht)|]. split; [|split].
  - intros e components H. apply C60_found_iff_in_the_tree in H. inversion H as [? ?|? ? u path ? H1 H2]; subst.
    + reflexivity.
    + apply parts_in in H1. destruct H1 as (j & part & L & G & ->). inversion H2 as [? ?|? ? u path' ? H3 H4]; subst; [|inversion H3].
      assert (L' : j < vs_number sys) by lia.
      assert (S1 : volume_sub (volume_root fs) j = Ok (VPart j part)) by (cbn [volume_sub volume_root]; fold sys; rewrite G; reflexivity).
      destruct (C59_listed_entries_are_found A fs (vs_number sys) j (VPart j part) Ho eq_refl L' S1) as (name & N1 & N2 & N3 & _).
      unfold path_of. cbn [map]. unfold volume_entry_name, kind. rewrite N1. cbn [volume_name].
      destruct N2 as (tx & T1 & T2). rewrite path_of_name in N3; [exact N3|subst; now apply kind_no_slash with (j + 1)|subst; destruct (vfs_kind fs); discriminate].
  - intros i part L G. exists [volume_entry_name kind (VRoot sys); volume_entry_name kind (VPart i part)].
    apply C60_found_iff_in_the_tree. apply in_sub with (Tree (VPart i part) Empty); [|constructor].
    apply parts_in. exists i, part. split; [lia|auto].
  - rewrite C60_found_once. unfold t. cbn [entries]. f_equal. generalize 0. clearbody k. clear. induction k as [|k IH]; intros i; [reflexivity|].
    cbn [parts_forest seqN filter]. destruct (vs_get sys i); cbn [entries_all entries]; rewrite IH; reflexivity.
Qed.
Print Assumptions C60_paths_lead_back.

(** ** A file system: a root with a directory of two files, one of which cannot be read, a
    directory that cannot be listed, and a file *)
Definition case_number (e : N) : res N :=
  if e =? 0 then Ok 3 else if e =? 1 then Ok 2 else if e =? 2 then Err else Ok 0.
Definition case_sub (e i : N) : res N :=
  if e =? 0 then Ok (1 + i) else if (e =? 1) && (i =? 0) then Ok 4 else Err.
Definition case_name (e : N) : option (list N) := if e =? 0 then None else Some [e].
Definition case_tree : tree N :=
  Tree 0 (Beneath (Tree 1 (Beneath (Tree 4 Empty) (Broken Empty))) (Broken (Beneath (Tree 3 Empty) Empty))).
Example C60_case : answers case_number case_sub case_tree /\
  search case_name [] case_tree =
  [Found 4 [None; Some [1]; Some [4]]; Failed; Found 1 [None; Some [1]]; Failed; Found 3 [None; Some [3]]; Found 0 [None]] /\
  finder_calls case_name case_number case_sub 10 (Ok (Some 0)) 8 finder_new =
  Some (Ok (map Some (search case_name [] case_tree) ++ [None; None])).
Proof.
  split; [|split; reflexivity]. cbn. repeat split; auto. right. exists 2. auto.
Qed.
