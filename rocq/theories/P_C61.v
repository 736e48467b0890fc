(** * C61: opening a location gives the same whatever was opened before *)
From Coq Require Import Lia String.
From Verif Require Import Base BaseLemmas VfsContext_model VfsContext_spec.
Open Scope N_scope.
Open Scope list_scope.
Ltac Zify.zify_post_hook ::= idtac.

Section Proof.
Context {FS : Type}.
Variable fs_open : vfs_type -> option FS -> location -> res FS.
Variable type_of : option location -> vfs_type.

(** What is kept under a key is what opening gives for every location with that key. *)
Definition good (c : cache (FS := FS)) : Prop :=
  forall key fs, cache_get c key = Some fs ->
  forall l, agrees type_of l -> location_type l <> TFake -> lookup_key l = key -> fresh fs_open l = Ok fs.

Lemma get_filter kept (c : cache (FS := FS)) key fs : cache_get (filter (fun entry => kept (fst entry)) c) key = Some fs ->
  cache_get c key = Some fs.
Proof.
  induction c as [|[k x] c IH]; cbn [filter cache_get fst]; [auto|]. destruct (kept k) eqn:Ek; cbn [cache_get].
  - destruct (location_eq_dec k key); auto.
  - intros H. destruct (location_eq_dec k key) as [->|]; [|auto]. exfalso. clear IH.
    induction c as [|[k' x'] c IH]; cbn [filter cache_get fst] in H; [discriminate|].
    destruct (kept k') eqn:Ek'; cbn [cache_get] in H; [|auto]. destruct (location_eq_dec k' key) as [->|]; [congruence|auto].
Qed.
Lemma good_filter kept c : good c -> good (filter (fun entry => kept (fst entry)) c).
Proof. intros H key fs G. apply H. now apply get_filter with kept. Qed.

(** Locations that agree and have the same key open the same. *)
Lemma same_key l l' : agrees type_of l -> agrees type_of l' -> location_type l <> TFake -> lookup_key l = lookup_key l' ->
  fresh fs_open l = fresh fs_open l'.
Proof.
  destruct l as [p t|p q t], l' as [p' t'|p' q' t']; cbn [agrees location_type location_parent lookup_key]; unfold lookup_key; cbn [location_parent].
  - intros [-> _] [-> _] H _. cbn [fresh]. destruct (type_of None); reflexivity.
  - intros _ [_ [H _]] _ E. congruence.
  - intros [_ [H _]] _ _ E. congruence.
  - intros [-> _] [-> _] H <-. cbn [fresh]. destruct (type_of (Some q)); reflexivity.
Qed.

Lemma open_ok l : forall c, good c -> agrees type_of l ->
  fst (context_open fs_open c l) = fresh fs_open l /\ good (snd (context_open fs_open c l)).
Proof.
  assert (Step : forall l c parent_fs, good c -> agrees type_of l -> location_type l <> TFake ->
    fresh fs_open l = fs_open (location_type l) parent_fs (lookup_key l) ->
    let r := match fs_open (location_type l) parent_fs (lookup_key l) with
             | Ok fs => (Ok fs, (lookup_key l, fs) :: c) | Err => (Err, c) | Panic => (Panic, c) end in
    fst r = fresh fs_open l /\ good (snd r)).
  { clear l. intros l c parent_fs Hc Ha Hf E. rewrite E. destruct (fs_open (location_type l) parent_fs (lookup_key l)) as [fs| |] eqn:Eo; cbn [fst snd]; auto.
    split; [reflexivity|]. intros key x G l' Ha' Hf' Hk. cbn [cache_get] in G. destruct (location_eq_dec (lookup_key l) key) as [Ek|Ek].
    - injection G as <-. rewrite <- E. apply same_key; congruence || auto.
    - eapply Hc; eauto. }
  induction l as [p t|p parent IH t]; intros c Hc Ha; cbn [context_open location_type].
  - destruct (vfs_type_eq_dec t TFake) as [->|Hf]; [split; [reflexivity|exact Hc]|].
    assert (R : fst (match cache_get c (lookup_key (LBase p t)) with
      | Some fs => (Ok fs, c)
      | None => match fs_open t None (lookup_key (LBase p t)) with Ok fs => (Ok fs, (lookup_key (LBase p t), fs) :: c) | Err => (Err, c) | Panic => (Panic, c) end end) = fresh fs_open (LBase p t)
      /\ good (snd (match cache_get c (lookup_key (LBase p t)) with
      | Some fs => (Ok fs, c)
      | None => match fs_open t None (lookup_key (LBase p t)) with Ok fs => (Ok fs, (lookup_key (LBase p t), fs) :: c) | Err => (Err, c) | Panic => (Panic, c) end end))).
    { destruct (cache_get c (lookup_key (LBase p t))) as [fs|] eqn:G.
      - cbn [fst snd]. split; [|exact Hc]. symmetry. eapply Hc; eauto.
      - apply (Step (LBase p t) c None Hc Ha Hf). cbn [fresh]. destruct t; try reflexivity. congruence. }
    destruct t; try exact R. congruence.
  - destruct (vfs_type_eq_dec t TFake) as [->|Hf]; [split; [reflexivity|exact Hc]|].
    pose proof Ha as Ha0. destruct Ha as [_ [_ Hp]].
    assert (Fr : fresh fs_open (LLayer p parent t) = (fs <- fresh fs_open parent ;; fs_open t (Some fs) parent)).
    { cbn [fresh]. destruct t; try reflexivity. congruence. }
    set (key := lookup_key (LLayer p parent t)).
    assert (R : forall r, r = (match cache_get c key with
      | Some fs => (Ok fs, c)
      | None => match context_open fs_open c parent with
                | (Ok fs, c) => match fs_open t (Some fs) key with Ok fs => (Ok fs, (key, fs) :: c) | Err => (Err, c) | Panic => (Panic, c) end
                | (Err, c) => (Err, c) | (Panic, c) => (Panic, c) end end) ->
      fst r = fresh fs_open (LLayer p parent t) /\ good (snd r)).
    { intros r ->. destruct (cache_get c key) as [fs|] eqn:G.
      - cbn [fst snd]. split; [|exact Hc]. symmetry. eapply Hc; eauto.
      - destruct (IH c Hc Hp) as [I1 I2]. destruct (context_open fs_open c parent) as [[fs| |] c1]; cbn [fst snd] in I1, I2.
        + apply (Step (LLayer p parent t) c1 (Some fs) I2 Ha0 Hf). rewrite Fr, <- I1. reflexivity.
        + cbn [fst snd]. rewrite Fr, <- I1. auto.
        + cbn [fst snd]. rewrite Fr, <- I1. auto. }
    destruct t; try (apply R; reflexivity). congruence.
Qed.
End Proof.

(** Every call of a history answers as if it were the first, whichever of the opened file
    systems are still in use, provided the locations agree on what is where. Missing from
    the property: locations that do not. *)
Theorem C61_history_partial :
  forall FS (fs_open : vfs_type -> option FS -> location -> res FS) type_of history,
  Forall (fun call => agrees type_of (snd call)) history ->
  context_run fs_open [] history = map (fun call => fresh fs_open (snd call)) history.
Proof.
  intros FS fs_open type_of history H.
  assert (G : good fs_open type_of []) by (intros key fs E; discriminate).
  revert G. generalize (@nil (location * FS)) as c. induction H as [|[kept l] history Hl _ IH]; intros c G; [reflexivity|].
  cbn [context_run map snd]. destruct (open_ok fs_open type_of l (filter (fun entry => kept (fst entry)) c) (good_filter _ _ kept c G) Hl) as [E1 E2].
  destruct (context_open fs_open (filter (fun entry => kept (fst entry)) c) l) as [answer c1]. cbn [fst snd] in E1, E2.
  rewrite E1, (IH c1 E2). reflexivity.
Qed.
Print Assumptions C61_history_partial.

(** File systems that say what they are and where *)
Inductive case_file_system := CaseFS (type : vfs_type) (at_ : location).
Definition case_open (type : vfs_type) (parent : option case_file_system) (l : location) : res case_file_system :=
  match type, parent with
  | TOs, None => Ok (CaseFS type l)
  | TOs, Some _ => Err
  | _, None => Err
  | _, Some _ => Ok (CaseFS type l)
  end.
Definition case_file : location := LBase (3, chars "/tmp/image") TOs.

(** The same file opened as QCOW and then as VHD: the second call gives the QCOW file system
    while that is in use, although opening as VHD alone gives another. *)
Theorem C61_type_ignored_refuted :
  let qcow := LLayer (4, chars "/") case_file TQcow in
  let vhd := LLayer (4, chars "/") case_file TVhd in
  context_run case_open [] [(fun _ => true, qcow); (fun _ => true, vhd)] = [Ok (CaseFS TQcow case_file); Ok (CaseFS TQcow case_file)] /\
  context_run case_open [] [(fun _ => true, vhd)] = [Ok (CaseFS TVhd case_file)].
Proof. split; reflexivity. Qed.
Print Assumptions C61_type_ignored_refuted.

(** Anything opened in the root directory is the file system of the operating system, if that
    is in use. *)
Theorem C61_root_directory_refuted :
  let l := LLayer (4, chars "/") os_root TOs in
  context_run case_open [] [(fun _ => true, case_file); (fun _ => true, l)] = [Ok (CaseFS TOs os_root); Ok (CaseFS TOs os_root)] /\
  context_run case_open [] [(fun _ => false, l)] = [Err].
Proof. split; reflexivity. Qed.
Print Assumptions C61_root_directory_refuted.

(** The text of a location: right for a base, and wrong for every layer, where the type and
    the text of the parent have changed places. *)
Theorem C61_base_text : forall path type, location_text (LBase path type) = location_lines (LBase path type).
Proof. reflexivity. Qed.
Print Assumptions C61_base_text.
Theorem C61_layer_text_refuted : forall path parent type,
  location_text (LLayer path parent type) <> location_lines (LLayer path parent type).
Proof.
  intros path parent type. cbn [location_text location_lines].
  assert (H : exists t, location_lines parent = 116 :: t).
  { clear. induction parent as [p t|p q [r E] t]; cbn [location_lines].
    - eexists. reflexivity.
    - rewrite E. eexists. reflexivity. }
  destruct H as [t ->]. destruct type; discriminate.
Qed.
Print Assumptions C61_layer_text_refuted.

(** ** A QCOW image with a partition table and a file system in it, opened in any order *)
Definition case_layer := LLayer (4, chars "/qcow1") case_file TQcow.
Definition case_partition := LLayer (4, chars "/mbr1") case_layer TMbr.
Definition case_root := LLayer (0, chars "/") case_partition TExt.
Definition case_types (parent : option location) : vfs_type :=
  match parent with
  | None => TOs
  | Some l => if location_eq_dec l case_file then TQcow else if location_eq_dec l case_layer then TMbr else TExt
  end.
Example C61_case :
  let history := [(fun _ => true, case_root); (fun _ => false, case_partition); (fun _ => true, case_layer); (fun _ => true, case_file); (fun _ => true, case_root)] in
  Forall (fun call => agrees case_types (snd call)) history /\
  context_run case_open [] history =
  [Ok (CaseFS TExt case_partition); Ok (CaseFS TMbr case_layer); Ok (CaseFS TQcow case_file); Ok (CaseFS TOs os_root); Ok (CaseFS TExt case_partition)].
Proof.
  split; [|reflexivity]. repeat constructor; cbn; repeat split; try reflexivity; discriminate.
Qed.
