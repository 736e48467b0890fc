(** * C66: the fake file system holds what was added to it *)
From Coq Require Import Lia.
From Verif Require Import Base BaseLemmas Paths_model P_C44 FakeFs_model.
Open Scope N_scope.
Open Scope list_scope.
Ltac Zify.zify_post_hook ::= idtac.

(** A history of adding files, and what is in the file system after it *)
Fixpoint add_all (files : list (list N * list N)) (fs : fake_fs) : list (res unit) * fake_fs :=
  match files with
  | [] => ([], fs)
  | (path, data) :: files => let '(r, fs) := add_file_entry path data fs in let '(rs, fs) := add_all files fs in (r :: rs, fs)
  end.
(** The data of the file at a path given as a text *)
Definition data_at (path : list N) (fs : fake_fs) : option (list N) :=
  match fake_get (string_path_from path) fs with
  | Some id => match nth_error (fs_entries fs) id with Some e => Some (fe_data e) | None => None end
  | None => None
  end.
(** The last data added under a path *)
Fixpoint last_added (path : list N) (files : list (list N * list N)) : option (list N) :=
  match files with
  | [] => None
  | (p, data) :: files => match last_added path files with Some d => Some d | None => if list_eq_dec N.eq_dec p path then Some data else None end
  end.

Lemma get_insert path q id paths : path_get q (path_insert path id paths) = if list_eq_dec N.eq_dec path q then Some id else path_get q paths.
Proof.
  unfold path_insert. cbn [path_get]. destruct (list_eq_dec N.eq_dec path q) as [|Hne]; [reflexivity|].
  induction paths as [|[p i] paths IH]; [reflexivity|]. cbn [filter fst]. destruct (list_eq_dec N.eq_dec p path) as [->|Hp]; cbn [path_get].
  - destruct (list_eq_dec N.eq_dec path q); [contradiction|exact IH].
  - destruct (list_eq_dec N.eq_dec p q); [reflexivity|exact IH].
Qed.
Definition ids_ok (fs : fake_fs) : Prop := forall p id, path_get p (fs_paths fs) = Some id -> (id < length (fs_entries fs))%nat.
Lemma key_ok path fs : path <> [] -> fake_get (string_path_from path) fs = path_get path (fs_paths fs).
Proof. intros H. unfold fake_get. rewrite C44_string_round_trip_partial by exact H. reflexivity. Qed.
Lemma add_data path data fs : ids_ok fs ->
  let fs' := snd (add_file_entry path data fs) in
  ids_ok fs' /\ forall q, q <> [] -> data_at q fs' = if list_eq_dec N.eq_dec path q then Some data else data_at q fs.
Proof.
  intros Hi. cbv zeta. assert (E : snd (add_file_entry path data fs) = mk_fs (path_insert path (length (fs_entries fs)) (fs_paths fs)) (fs_entries fs ++ [mk_entry data 0])) by (unfold add_file_entry; destruct (path_get path (fs_paths fs)); reflexivity).
  rewrite E. split.
  - intros p id. cbn [fs_paths fs_entries]. rewrite get_insert, app_length. cbn [length]. destruct (list_eq_dec N.eq_dec path p); [intros [= <-]; lia|]. intros H. apply Hi in H. lia.
  - intros q Hq. unfold data_at. rewrite !key_ok by exact Hq. cbn [fs_paths fs_entries]. rewrite get_insert. destruct (list_eq_dec N.eq_dec path q).
    + rewrite nth_error_app2, Nat.sub_diag by lia. reflexivity.
    + destruct (path_get q (fs_paths fs)) as [id|] eqn:G; [|reflexivity]. rewrite nth_error_app1 by (eapply Hi; exact G). reflexivity.
Qed.
Lemma add_all_data files : forall fs, ids_ok fs ->
  forall q, q <> [] -> data_at q (snd (add_all files fs)) = match last_added q files with Some d => Some d | None => data_at q fs end.
Proof.
  induction files as [|[p d] files IH]; intros fs Hi q Hq; cbn [add_all last_added]; [reflexivity|].
  destruct (add_data p d fs Hi) as [H1 H2]. destruct (add_file_entry p d fs) as [r fs'] eqn:E. cbn [snd] in H1, H2. destruct (add_all files fs') as [rs fs''] eqn:E2. cbn [snd].
  specialize (IH fs' H1 q Hq). rewrite E2 in IH. cbn [snd] in IH. rewrite IH, H2 by exact Hq. destruct (last_added q files); [reflexivity|]. destruct (list_eq_dec N.eq_dec p q); reflexivity.
Qed.
Lemma new_ids : ids_ok fake_new.
Proof. intros p id. discriminate. Qed.

(** After any history the data at a path is the last that was added under it. *)
Theorem C66_last_added :
  forall files path, path <> [] -> data_at path (snd (add_all files fake_new)) = last_added path files.
Proof. intros files path H. rewrite add_all_data by (exact H || exact new_ids). destruct (last_added path files); reflexivity. Qed.
Print Assumptions C66_last_added.

Lemma in_last path files : last_added path files = None <-> ~ In path (map fst files).
Proof.
  induction files as [|[p d] files IH]; cbn [last_added map fst In]; [intuition|].
  destruct (last_added path files); [split; [discriminate|intros H; exfalso; apply H; right; destruct (in_dec (list_eq_dec N.eq_dec) path (map fst files)) as [|N]; [assumption|apply IH in N; discriminate]]|].
  destruct (list_eq_dec N.eq_dec p path); [split; [discriminate|intros H; exfalso; apply H; left; assumption]|]. split; [intros _ [|]; [contradiction|apply IH; [reflexivity|assumption]]|reflexivity].
Qed.
Lemma add_result files : forall fs, NoDup (map fst files) -> (forall p, In p (map fst files) -> path_get p (fs_paths fs) = None) ->
  Forall (fun r => r = Ok tt) (fst (add_all files fs)).
Proof.
  induction files as [|[p d] files IH]; intros fs Hd Hn; cbn [add_all]; [constructor|]. inversion Hd as [|? ? N1 N2]; subst.
  unfold add_file_entry. rewrite (Hn p) by (left; reflexivity). set (fs' := mk_fs _ _).
  assert (K : Forall (fun r => r = Ok tt) (fst (add_all files fs'))).
  { apply IH; [exact N2|]. intros q Hq. subst fs'. cbn [fs_paths]. rewrite get_insert. destruct (list_eq_dec N.eq_dec p q) as [->|]; [contradiction|]. apply Hn. right. exact Hq. }
  destruct (add_all files fs') as [rs fs'']. constructor; [reflexivity|exact K].
Qed.

(** If no path is added twice, all succeed, each file is found with its data and nothing else is. *)
Theorem C66_added_is_found_partial :
  forall files, NoDup (map fst files) ->
  let '(results, fs) := add_all files fake_new in
  Forall (fun r => r = Ok tt) results /\
  (forall path data, path <> [] -> In (path, data) files -> data_at path fs = Some data /\ fake_exists (string_path_from path) fs = true) /\
  (forall path, path <> [] -> ~ In path (map fst files) -> fake_get (string_path_from path) fs = None /\ fake_exists (string_path_from path) fs = false).
Proof.
  intros files Hd. pose proof (add_result files fake_new Hd (fun p _ => eq_refl)) as R. pose proof (C66_last_added files) as L.
  assert (I : forall fs, ids_ok fs -> ids_ok (snd (add_all files fs))).
  { clear. induction files as [|[p d] files IH]; intros fs H; cbn [add_all]; [exact H|]. destruct (add_data p d fs H) as [H1 _]. destruct (add_file_entry p d fs) as [r fs']. specialize (IH fs' H1). destruct (add_all files fs'). exact IH. }
  specialize (I fake_new new_ids). destruct (add_all files fake_new) as [results fs]. cbn [fst snd] in *. split; [exact R|].
  assert (X : forall path, fake_exists (string_path_from path) fs = match fake_get (string_path_from path) fs with Some _ => true | None => false end) by reflexivity.
  split.
  - intros path data Hp Hin. rewrite X. assert (E : last_added path files = Some data).
    { clear - Hd Hin. induction files as [|[p d] files IH]; [contradiction|]. cbn [last_added]. inversion Hd as [|? ? N1 N2]; subst. destruct Hin as [[= -> ->]|Hin].
      - rewrite (proj2 (in_last path files) N1). destruct (list_eq_dec N.eq_dec path path); [reflexivity|contradiction].
      - rewrite IH by assumption. reflexivity. }
    specialize (L path Hp). rewrite E in L. split; [exact L|]. unfold data_at in L. destruct (fake_get (string_path_from path) fs); [reflexivity|discriminate].
  - intros path Hp Hn. rewrite X. specialize (L path Hp). rewrite (proj2 (in_last path files) Hn) in L. unfold data_at in L.
    destruct (fake_get (string_path_from path) fs) as [id|] eqn:G; [|split; reflexivity]. exfalso. rewrite key_ok in G by exact Hp. apply I in G. apply nth_error_Some in G. destruct (nth_error (fs_entries fs) id); [discriminate|contradiction].
Qed.
Print Assumptions C66_added_is_found_partial.
Example C66_case : NoDup (map fst [([47; 97], [1; 2]); ([47; 98; 47; 99], [3])]).
Proof. repeat constructor; cbn; intuition discriminate. Qed.

(** Adding a file under a path that is in use fails and replaces the file all the same. *)
Theorem C66_failed_add_refuted :
  forall files path data old, path <> [] -> data_at path (snd (add_all files fake_new)) = Some old ->
  let '(result, fs) := add_file_entry path data (snd (add_all files fake_new)) in
  result = Err /\ data_at path fs = Some data.
Proof.
  intros files path data old Hp H. set (fs := snd (add_all files fake_new)) in *.
  assert (E : fst (add_file_entry path data fs) = Err).
  { unfold data_at in H. rewrite key_ok in H by exact Hp. unfold add_file_entry. destruct (path_get path (fs_paths fs)); [reflexivity|discriminate]. }
  assert (I : forall files fs, ids_ok fs -> ids_ok (snd (add_all files fs))).
  { clear. induction files as [|[p d] files IH]; intros fs H; cbn [add_all]; [exact H|]. destruct (add_data p d fs H) as [H1 _]. destruct (add_file_entry p d fs) as [r fs']. specialize (IH fs' H1). destruct (add_all files fs'). exact IH. }
  destruct (add_data path data fs (I files fake_new new_ids)) as [_ D]. specialize (D path Hp). destruct (add_file_entry path data fs) as [r fs']. cbn [fst snd] in *. split; [exact E|].
  rewrite D. destruct (list_eq_dec N.eq_dec path path); [reflexivity|contradiction].
Qed.
Print Assumptions C66_failed_add_refuted.

(** Two readers of a file share one position: the second goes on where the first stopped. *)
Theorem C66_shared_position_refuted :
  forall path data a b, path <> [] ->
  let fs := snd (add_file_entry path data fake_new) in
  exists id, fake_get (string_path_from path) fs = Some id /\
  let '(first, fs1) := fake_read id a fs in
  exists id2, fake_get (string_path_from path) fs1 = Some id2 /\
  first = Ok (firstn (N.to_nat a) data) /\ fst (fake_read id2 b fs1) = Ok (firstn (N.to_nat b) (skipn (N.to_nat a) data)).
Proof.
  intros path data a b Hp. cbv zeta. exists 0%nat. unfold add_file_entry. cbn [snd fs_paths fake_new path_get length fs_entries app]. split.
  { rewrite key_ok by exact Hp. cbn [fs_paths path_insert path_get]. destruct (list_eq_dec N.eq_dec path path); [reflexivity|contradiction]. }
  unfold fake_read at 1. cbn [nth_error fs_entries fe_position fe_data N.to_nat skipn firstn app]. exists 0%nat. split.
  { rewrite key_ok by exact Hp. cbn [fs_paths path_insert path_get]. destruct (list_eq_dec N.eq_dec path path); [reflexivity|contradiction]. }
  split; [reflexivity|]. unfold fake_read. cbn [nth_error fs_entries fst fe_position fe_data]. f_equal. f_equal. rewrite N.add_0_l. unfold len. rewrite Nat2N.id, firstn_length.
  destruct (Nat.min_spec (N.to_nat a) (length data)) as [[_ ->]|[L ->]]; [reflexivity|]. rewrite !skipn_all2 by lia. reflexivity.
Qed.
Print Assumptions C66_shared_position_refuted.
