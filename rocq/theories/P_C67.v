(** * C67: The files an image names are looked for in the directory of the image *)
From Verif Require Import Base BaseLemmas Strings_model Paths_model Resolver_model.
Open Scope N_scope. Open Scope list_scope.
Ltac Zify.zify_post_hook ::= idtac.

(** ** Specification *)

(** A plain file name: not empty, no separator, not the parent directory *)
Definition plain_name (name : list N) : Prop :=
  name <> [] /\ ~ In 0x2f name /\ name <> [0x2e; 0x2e].

(** A directory: not empty and written without a separator at the end *)
Definition directory (base : list N) : Prop := base <> [] /\ last base 0 <> 0x2f.

(** [path] lies in [base]: it is [base], a separator and names *)
Definition lies_in (base path : list N) : Prop :=
  exists names, Forall plain_name names /\
    path = base ++ flat_map (fun name => 0x2f :: name) names.

(** ** Proofs *)
Lemma push_plain : forall base name, directory base -> plain_name name ->
  path_buf_push base name = base ++ 0x2f :: name /\ directory (base ++ 0x2f :: name).
Proof.
  intros base name [Hb Hl] (Hn & Hs & _). split.
  - unfold path_buf_push. destruct name as [|c name]; [congruence|]. cbn [is_absolute].
    destruct (N.eqb_spec c 0x2f) as [->|_]; [exfalso; apply Hs; left; reflexivity|].
    destruct base as [|b base] using rev_ind; [congruence|]. clear IHbase.
    rewrite rev_app_distr. cbn [rev app]. rewrite last_last in Hl.
    destruct (N.eqb_spec b 0x2f); [congruence|]. reflexivity.
  - split; [intros E; apply app_eq_nil in E; destruct E; discriminate|].
    destruct name as [|c name] using rev_ind; [congruence|]. clear IHname.
    change (0x2f :: name ++ [c]) with ((0x2f :: name) ++ [c]).
    rewrite app_assoc, last_last. intros ->. apply Hs, in_or_app. right. left. reflexivity.
Qed.

Lemma os_join_plain : forall names base, directory base -> Forall plain_name names ->
  os_join base (map CString names) = Ok (base ++ flat_map (fun name => 0x2f :: name) names).
Proof.
  induction names as [|n names IH]; intros base Hb Hn; cbn [map os_join flat_map].
  - now rewrite app_nil_r.
  - inversion Hn; subst. destruct (push_plain base n Hb H1) as [E D].
    rewrite E, IH by assumption. now rewrite <- app_assoc.
Qed.

Lemma os_join_app : forall pre base post,
  os_join base (pre ++ post) = (p <- os_join base pre ;; os_join p post).
Proof.
  induction pre as [|c pre IH]; intros base post; [reflexivity|].
  destruct c; cbn [app os_join bind]; [reflexivity|apply IH|reflexivity].
Qed.

Lemma os_join_kinds : forall comps base,
  (exists p, os_join base comps = Ok p) /\ (exists names, comps = map CString names) \/
  os_join base comps = Err /\ ~ (exists names, comps = map CString names).
Proof.
  induction comps as [|c comps IH]; intros base.
  - left. split; [eexists; reflexivity|exists []; reflexivity].
  - destruct c as [l|s|l]; cbn [os_join].
    1,3: right; split; [reflexivity|intros [[|n names] E]; discriminate].
    destruct (IH (path_buf_push base s)) as [[P (names & E)]|[E H]].
    + left. split; [exact P|]. exists (s :: names). cbn. now rewrite E.
    + right. split; [exact E|]. intros [[|n names] En]; [discriminate|].
      injection En as _ En. apply H. exists names. exact En.
Qed.

Lemma parent_of_join : forall {A} (l : list A) (a : A), l <> [] ->
  parent_directory (l ++ [a]) = l /\ file_name (l ++ [a]) = Ok (Some a).
Proof.
  intros A l a Hl. destruct l as [|b l]; [congruence|]. clear Hl. split.
  - unfold parent_directory. rewrite app_length. cbn [length].
    destruct (Nat.ltb_spec 1 (S (length l) + 1)); [|lia].
    replace (S (length l) + 1 - 1)%nat with (length (b :: l) + 0)%nat by (cbn [length]; lia).
    rewrite firstn_app_2. cbn [firstn]. apply app_nil_r.
  - unfold file_name. rewrite len_app. change (len [a]) with 1.
    assert (1 <= len (b :: l)) by (rewrite len_cons; lia).
    destruct (N.ltb_spec 1 (len (b :: l) + 1)); [|lia].
    unfold sub_chk. destruct (N.leb_spec 1 (len (b :: l) + 1)); [|lia]. cbn [bind].
    replace (len (b :: l) + 1 - 1) with (len (b :: l)) by lia.
    unfold idx, len. rewrite Nat2N.id, nth_error_app2, Nat.sub_diag by reflexivity.
    reflexivity.
Qed.

(** ** Theorems *)

(** Plain names lead to the file of those names in the directory and to no other, and a
    file that cannot be opened is an error. *)
Theorem C67_os_plain_names_partial :
  forall {D} (open_file : list N -> option D) base names,
  directory base -> Forall plain_name names ->
  let path := base ++ flat_map (fun name => 0x2f :: name) names in
  lies_in base path /\
  os_get_data_stream open_file base (map CString names) =
  match open_file path with Some d => Ok (Some d) | None => Err end.
Proof.
  intros D open_file base names Hb Hn path. split.
  - exists names. split; [assumption|reflexivity].
  - unfold os_get_data_stream. rewrite os_join_plain by assumption. reflexivity.
Qed.
Print Assumptions C67_os_plain_names_partial.

(** Missing: any file of the system can be named. An image whose backing or parent file
    name is the path of a file gets that file, whatever the directory of the image; what
    comes before that name is of no effect. *)
Theorem C67_os_in_directory_refuted :
  (forall {D} (open_file : list N -> option D) base names path after d,
     is_absolute path = true ->
     os_get_data_stream open_file base (map CString names ++ CString path :: after) =
     os_get_data_stream open_file path after /\
     (open_file path = Some d ->
      os_get_data_stream open_file base [CString path] = Ok (Some d))) /\
  (forall base, directory base -> exists path,
     is_absolute path = true /\ ~ lies_in base path) /\
  (forall {D} (open_file : list N -> option D) base name d, directory base ->
     open_file (base ++ [0x2f; 0x2e; 0x2e; 0x2f] ++ name) = Some d ->
     os_get_data_stream open_file base [CString ([0x2e; 0x2e; 0x2f] ++ name)] = Ok (Some d)).
Proof.
  split; [|split].
  - intros D open_file base names path after d Ha. split.
    + unfold os_get_data_stream. rewrite os_join_app.
      destruct (os_join_kinds (map CString names) base) as [[[p E] _]|[_ H]];
        [|exfalso; apply H; exists names; reflexivity].
      rewrite E. cbn [bind os_join].
      unfold path_buf_push at 1. rewrite Ha. reflexivity.
    + intros E. unfold os_get_data_stream. cbn [os_join bind]. unfold path_buf_push.
      rewrite Ha, E. reflexivity.
  - intros base [Hb Hl]. exists [0x2f]. split; [reflexivity|].
    intros (names & F & E). destruct base as [|b base]; [congruence|].
    injection E as Eb E. symmetry in E. apply app_eq_nil in E. destruct E as [-> _].
    subst b. cbn in Hl. congruence.
  - intros D open_file base name d [Hb Hl] E. unfold os_get_data_stream.
    cbn [os_join bind app]. unfold path_buf_push. cbn [is_absolute].
    change (0x2e =? 0x2f) with false. cbv iota.
    destruct base as [|b base] using rev_ind; [congruence|]. clear IHbase.
    rewrite rev_app_distr. cbn [rev app]. rewrite last_last in Hl.
    destruct (N.eqb_spec b 0x2f); [congruence|]. cbn [app] in E |- *. rewrite E. reflexivity.
Qed.
Print Assumptions C67_os_in_directory_refuted.

(** The resolvers do not agree on a file that is not there: that of the operating system
    never answers that there is no such file, the others do. *)
Theorem C67_no_such_file_refuted :
  (forall {D} (open_file : list N -> option D) base comps,
     os_get_data_stream open_file base comps <> Ok None /\
     os_get_data_stream open_file base comps <> Panic) /\
  (forall {E D} (entry : vfs_path -> res (option E)) (stream : E -> res (option D)) base comps path,
     vfs_new_with_join base comps = Ok path -> entry path = Ok None ->
     vfs_get_data_stream entry stream base comps = Ok None) /\
  (forall {D} comps, @fake_get_data_stream D comps = Ok None).
Proof.
  split; [|split].
  - intros D open_file base comps. unfold os_get_data_stream.
    destruct (os_join_kinds comps base) as [[[p E] _]|[E _]]; rewrite E; cbn [bind].
    + destruct (open_file p); split; discriminate.
    + split; discriminate.
  - intros E D entry stream base comps path H1 H2. unfold vfs_get_data_stream.
    rewrite H1. cbn [bind]. rewrite H2. reflexivity.
  - reflexivity.
Qed.
Print Assumptions C67_no_such_file_refuted.

(** What each kind of path makes of a component *)
Definition joined (path : vfs_path) (c : path_component) (path' : vfs_path) : Prop :=
  match path, c, path' with
  | VExt l, CByteString b, VExt l' => l' = l ++ [b]
  | VExt l, CString s, VExt l' => l' = l ++ [bytestring_from_str s]
  | VFat l, CByteString b, VFat l' => l' = l ++ [FatByteString b]
  | VFat l, CUcs2String u, VFat l' => l' = l ++ [FatUcs2String u]
  | VFat l, CString s, VFat l' => l' = l ++ [FatUcs2String (ucs2_from_str s)]
  | VNtfs l, CUcs2String u, VNtfs l' => l' = l ++ [u]
  | VNtfs l, CString s, VNtfs l' => l' = l ++ [ucs2_from_str s]
  | VString l, CString s, VString l' => l' = l ++ [s]
  | VOs p, CString s, VOs p' => p' = path_buf_push p s
  | _, _, _ => False
  end.
Inductive joined_all : vfs_path -> list path_component -> vfs_path -> Prop :=
| joined_none : forall path, joined_all path [] path
| joined_one : forall path c path1 rest path2,
    joined path c path1 -> joined_all path1 rest path2 -> joined_all path (c :: rest) path2.

Lemma joined_step : forall path c rest,
  vfs_new_with_join path (c :: rest) =
  (path1 <- vfs_new_with_join path [c] ;; vfs_new_with_join path1 rest).
Proof.
  intros [l|l|l|p|l] [b|s|u] rest; cbn; reflexivity.
Qed.

Lemma joined_single : forall path c path1,
  vfs_new_with_join path [c] = Ok path1 <-> joined path c path1.
Proof.
  intros [l|l|l|p|l] [b|s|u] path1; cbn; split; intros H;
    try discriminate; try contradiction;
    try (injection H as <-; reflexivity);
    destruct path1; try contradiction; subst; reflexivity.
Qed.

(** Joining puts the components behind the path in their order, each as its file system
    writes names, or fails for a kind of name that the file system does not have. *)
Theorem C67_join :
  forall path comps,
  vfs_new_with_join path comps <> Panic /\
  (forall path', vfs_new_with_join path comps = Ok path' <-> joined_all path comps path').
Proof.
  intros path comps. split.
  - revert path. induction comps as [|c comps IH]; intros path.
    + destruct path; discriminate.
    + rewrite joined_step.
      destruct (vfs_new_with_join path [c]) as [p| |] eqn:E; cbn [bind].
      * apply IH.
      * discriminate.
      * destruct path as [l|l|l|p|l], c as [b|s|u]; discriminate.
  - revert path. induction comps as [|c comps IH]; intros path path'.
    + split.
      * intros E. destruct path; cbn in E; injection E as <-; constructor.
      * intros J. inversion J; subst. destruct path'; reflexivity.
    + rewrite joined_step. split.
      * intros E. apply bind_Ok_inv in E. destruct E as (p & E1 & E2).
        econstructor; [apply joined_single; exact E1|apply IH; exact E2].
      * intros J. inversion J as [|? ? p ? ? J1 J2]; subst.
        apply joined_single in J1. rewrite J1. cbn [bind]. apply IH. exact J2.
Qed.
Print Assumptions C67_join.

Definition has_components (path : vfs_path) : Prop :=
  match path with
  | VExt l | VNtfs l | VString l => l <> []
  | VFat l => l <> []
  | VOs _ => False
  end.

(** The directory of a joined name is the path it was joined to, and joining the name of
    the result to that directory leads to the result. *)
Theorem C67_parent_of_join :
  forall path c path', has_components path ->
  vfs_new_with_join path [c] = Ok path' ->
  vfs_parent_directory path' = Some path /\
  exists name, vfs_file_name path' = Some (Ok (Some name)) /\
    vfs_new_with_join path [name] = Ok path'.
Proof.
  intros [l|l|l|p|l] c path' Hp E; cbn in Hp; try contradiction;
    destruct c as [b|s|u]; cbn in E; try discriminate; injection E as <-;
    cbn [vfs_parent_directory vfs_file_name];
    match goal with |- context [parent_directory (?l ++ [?a])] =>
      destruct (parent_of_join l a Hp) as [P1 P2] end;
    rewrite P1, P2; split; try reflexivity;
    eexists; (split; [reflexivity|]); cbn; reflexivity.
Qed.
Print Assumptions C67_parent_of_join.

(** What a VFS file resolver finds is what the file system has at the joined path. *)
Theorem C67_vfs_resolver :
  forall {E D} (entry : vfs_path -> res (option E)) (stream : E -> res (option D)) base comps d,
  vfs_get_data_stream entry stream base comps = Ok (Some d) <->
  exists path e, joined_all base comps path /\ entry path = Ok (Some e) /\
    stream e = Ok (Some d).
Proof.
  intros E D entry stream base comps d. unfold vfs_get_data_stream. split.
  - intros H. apply bind_Ok_inv in H. destruct H as (path & H1 & H).
    apply bind_Ok_inv in H. destruct H as ([e|] & H2 & H); [|discriminate].
    exists path, e. split; [|split; assumption]. apply C67_join. exact H1.
  - intros (path & e & H1 & H2 & H3). apply C67_join in H1. rewrite H1. cbn [bind].
    rewrite H2. cbn [bind]. exact H3.
Qed.
Print Assumptions C67_vfs_resolver.

(** ** Concrete cases *)

(** "/img" and "bands", "1f" *)
Example C67_plain_met : directory [0x2f; 0x69] /\ Forall plain_name [[0x62]; [0x31; 0x66]] /\
  os_get_data_stream (fun p => Some p) [0x2f; 0x69] [CString [0x62]; CString [0x31; 0x66]]
  = Ok (Some [0x2f; 0x69; 0x2f; 0x62; 0x2f; 0x31; 0x66]).
Proof.
  split; [split; discriminate|]. split; [|reflexivity].
  repeat constructor; try discriminate; cbn; intuition discriminate.
Qed.
(** "/i" and "/e/p" *)
Example C67_outside_met :
  os_get_data_stream (fun p => Some p) [0x2f; 0x69] [CString [0x2f; 0x65; 0x2f; 0x70]]
  = Ok (Some [0x2f; 0x65; 0x2f; 0x70]).
Proof. reflexivity. Qed.
Example C67_join_met :
  vfs_new_with_join (VNtfs [[]; [0x61]]) [CString [0x62]] = Ok (VNtfs [[]; [0x61]; [0x62]]) /\
  vfs_new_with_join (VExt [[]; [0x61]]) [CString [0x62; 0; 0x63]] = Ok (VExt [[]; [0x61]; [0x62]]) /\
  vfs_new_with_join (VExt [[]]) [CUcs2String [0x62]] = Err.
Proof. repeat split. Qed.

(** ** What this means for QCOW images *)
From Verif Require Import Qcow_model Qcow_spec P_C29.

(** The resolver of an operating system directory as the model of QCOW images has it: a
    name is the bytes of a byte string, the same as its characters below 128. *)
Definition os_resolver (open_file : list N -> option (list N)) (base name : list N)
  : option (list N) :=
  match os_get_data_stream open_file base [CString name] with
  | Ok data_stream => data_stream
  | _ => None
  end.

(** An image that names the path of any other well-formed file of the system as its backing
    file is opened with that file, whatever its own directory is. *)
Theorem C67_qcow_outside_refuted :
  forall open_file base name file other, directory base -> plain_name name ->
  open_file (base ++ 0x2f :: name) = Some file ->
  qcow_header_ok file -> qcow_has_backing file = true ->
  is_absolute (qcow_name file) = true -> Forall (fun c => c < 128) (qcow_name file) ->
  open_file (qcow_name file) = Some other ->
  qcow_header_ok other -> qcow_has_backing other = false ->
  exists fuel fs, qcow_image_open fuel (os_resolver open_file base) name = Ok fs /\
    map fst fs = [file; other].
Proof.
  intros open_file base name file other Hb Hn Ef Hf Bf Ha _ Eo Ho Bo.
  apply C29_open_image. apply qcow_more.
  - unfold os_resolver, os_get_data_stream. cbn [os_join bind].
    rewrite (proj1 (push_plain base name Hb Hn)), Ef. reflexivity.
  - assumption.
  - assumption.
  - apply qcow_last; [|assumption..].
    unfold os_resolver, os_get_data_stream. cbn [os_join bind]. unfold path_buf_push.
    rewrite Ha, Eo. reflexivity.
Qed.
Print Assumptions C67_qcow_outside_refuted.

(** An image in "/i" with the backing file "/x" *)
Definition outside : list N := header1 112 2 0 ++ [0x2f; 0x78].
Definition elsewhere : list N := header1 0 0 0.
Definition os_files (path : list N) : option (list N) :=
  if list_eq_dec N.eq_dec path [0x2f; 0x69; 0x2f; 0x61] then Some outside
  else if list_eq_dec N.eq_dec path [0x2f; 0x78] then Some elsewhere
  else None.
Example C67_qcow_outside_met :
  directory [0x2f; 0x69] /\ plain_name [0x61] /\
  os_files ([0x2f; 0x69] ++ 0x2f :: [0x61]) = Some outside /\
  qcow_header_ok outside /\ qcow_has_backing outside = true /\
  is_absolute (qcow_name outside) = true /\ Forall (fun c => c < 128) (qcow_name outside) /\
  os_files (qcow_name outside) = Some elsewhere /\
  qcow_header_ok elsewhere /\ qcow_has_backing elsewhere = false.
Proof.
  split; [split; discriminate|].
  split; [split; [discriminate|split; [cbn; intuition discriminate|discriminate]]|].
  split; [reflexivity|]. split; [header|]. split; [reflexivity|]. split; [reflexivity|].
  split; [vm_compute; repeat constructor|]. split; [vm_compute; reflexivity|].
  split; [header|reflexivity].
Qed.
