(** * Proofs for C54: directories, paths and whole volumes of NTFS *)
From Coq Require Import Permutation Sorted.
From Verif Require Import Base BaseLemmas Bytes_model Streams_model Streams_spec Streams_proofs BlockTree_model Blocks_model Blocks_proofs
  Strings_model Strings_spec Strings_proofs Part_spec Part_model Headers_model Headers_spec Headers_proofs
  Ntfs_model Ntfs_spec Ntfs_proofs NtfsCompressed_model NtfsFs_model NtfsFs_spec NtfsFs_proofs NtfsFs2_spec NtfsFs2_proofs
  P_C33.
Ltac Zify.zify_post_hook ::= idtac.

(** ** Attributes *)
Lemma shown_one l s name t p : shows l s -> t <> 0x30 -> pieces name t l = [p] -> get_attribute s name t = Some p.
Proof.
  intros S H E. pose proof (shows_attribute _ _ S name t H) as G. rewrite E in G. destruct get_attribute; [|discriminate].
  cbn [assembled] in G. congruence.
Qed.
Lemma shown_none l s name t : shows l s -> t <> 0x30 -> pieces name t l = [] -> get_attribute s name t = None.
Proof.
  intros S H E. pose proof (shows_attribute _ _ S name t H) as G. rewrite E in G. destruct get_attribute; [destruct G|reflexivity].
Qed.
Lemma whole volume cs l s name t q runs : shows l s -> t <> 0x30 -> in_clusters volume cs l name t q runs ->
  exists a, get_attribute s name t = Some a /\ flag (ma_non_resident a) 0 = true /\ ma_flags a mod 256 = 0 /\
    grouped 0 runs (ma_groups a) /\ sizes a = sizes q.
Proof.
  intros S Ht (p & groups & Hp & K1 & K2 & Hq & Hs & P & D & G & _).
  pose proof (shows_attribute _ _ S name t Ht) as Ha.
  destruct (get_attribute s name t) as [a|] eqn:Eg; [|rewrite Ha in Hp; discriminate].
  exists a. split; [reflexivity|].
  destruct (pieces name t l) as [|p' [|p'' ps]] eqn:E; [discriminate|..]; injection Hp as ->.
  - cbn [assembled] in Ha. subst a. destruct Hq as [->|[]]. split; [exact K1|]. split; [exact K2|]. split; [|reflexivity].
    cbn [flat_map] in P. rewrite app_nil_r in P.
    destruct Hs as (g & Hg & _). rewrite Hg in *. apply Permutation_sym, Permutation_length_1_inv in P. congruence.
  - destruct Ha as (_ & _ & B1 & B2 & _ & B3 & B4 & B5). split; [congruence|]. split; [congruence|]. split; [|now apply B5].
    replace (ma_groups a) with groups; [exact G|]. symmetry.
    apply sorted_unique; auto; [apply (grouped_sorted _ _ _ G)|]. now rewrite B3, P.
Qed.
(** The attribute with the times is the only one of its type. *)
Lemma times_piece l : sound l ->
  match content_of_type 0x10 l with
  | None => pieces None 0x10 l = []
  | Some c => exists a, pieces None 0x10 l = [a] /\ In a l /\ ma_type a = 0x10 /\ resident a /\ ma_resident_data a = c /\ 48 <= len c
  end.
Proof.
  intros [H1 H2]. unfold content_of_type. induction H1 as [|a l Ha H1 IH]; [reflexivity|].
  apply Forall_cons_iff in H2 as [H2 H3]. cbn [find pieces filter]. fold (pieces None 0x10 l).
  destruct (N.eqb_spec (ma_type a) 0x10) as [E|E].
  - destruct H2 as (H2 & _ & _). destruct (H2 E) as (Hn & Hr & Hl). cbn [option_map]. exists a. rewrite Hn. cbn [equal_names andb].
    repeat split; auto; [|now left]. f_equal. destruct (pieces None 0x10 l) as [|b m] eqn:Ep; [reflexivity|]. exfalso.
    assert (Ib : In b (pieces None 0x10 l)) by (rewrite Ep; now left). apply in_pieces in Ib as (Ib & Nb & Tb).
    rewrite Forall_forall in Ha. destruct (Ha b Ib) as (C & _ & _); [rewrite E; discriminate|congruence..|]. unfold resident in Hr. congruence.
  - rewrite andb_false_r. specialize (IH H3). destruct (option_map _ _) as [c|]; [|exact IH].
    destruct IH as (b & I1 & I2 & I3). exists b. split; [exact I1|]. split; [now right|exact I3].
Qed.
Lemma file_sound volume cs es runs n l : file volume cs es runs n l -> sound l.
Proof. now intros [|]. Qed.

(** ** Directories *)
Lemma directory_index_ok volume cs l s items : buffer volume -> 0 < cs -> sound l -> Forall usable l -> shows l s ->
  is_directory l = true -> directory volume cs l items ->
  exists d bs irs, directory_index_of cs s = Ok d /\ di_folding d = negb (case_sensitive l) /\
    index_ready volume cs bs irs d /\ (irs = [] \/ 42 <= bs <= 65535) /\ buffer (di_root d) /\
    node_items volume cs bs irs (di_root d) 16 items.
Proof.
  intros Hb Hcs Hs U S Hd D. destruct D as [r irs items Er Hr root F1 F2 F3 Ha Hi].
  assert (Ir : In r (pieces i30 0x90 l)) by (rewrite Er; now left). apply in_pieces in Ir as (Ir & _ & _).
  assert (Br : buffer root) by (rewrite Forall_forall in U; apply (U r Ir)).
  assert (L : 16 <= len root) by (inversion Hi; lia).
  assert (Ef : (match get_attribute s None 0x10 with
             | Some a => i <- standard_of a ;; Ok (negb ((si_maximum_versions i =? 0) && (si_version i =? 1)))
             | None => Ok true end) = Ok (negb (case_sensitive l))).
  { pose proof (times_piece l Hs) as T. unfold case_sensitive. destruct (content_of_type 0x10 l) as [c|].
    - destruct T as (a & T1 & T2 & T3 & T4 & T5 & T6). rewrite (shown_one l s None 0x10 a S) by (assumption || discriminate).
      rewrite Forall_forall in U. rewrite standard_content; [|apply (U a T2)|assumption..|now rewrite T5].
      rewrite T5. reflexivity.
    - rewrite (shown_none l s None 0x10 S) by (assumption || discriminate). reflexivity. }
  assert (Eh : has_group s i30 = true) by (rewrite (shows_name _ _ S); exact Hd).
  assert (Ex : exists t size, (match get_attribute s i30 0xa0 with
                         | Some a => t <- index_initialize cs a ;; Ok (field root 8 4, t)
                         | None => Ok (0, bt_new 0 0 0) end) = Ok (size, t) /\
     (irs = [] \/ 42 <= field root 8 4 <= 65535) /\
     forall f, index_ready volume cs (field root 8 4) irs {| di_cluster := cs; di_entry_size := size; di_tree := t; di_root := root; di_folding := f |}).
  { destruct Ha as [[Ha ->]|[(q & Hq) [Ha Hbs]]].
    - rewrite (shown_none l s i30 0xa0 S) by (assumption || discriminate). exists (bt_new 0 0 0), 0. split; [reflexivity|].
      split; [now left|]. intros f. split; auto; try constructor.
    - destruct (whole volume cs l s i30 0xa0 q irs S ltac:(discriminate) Hq) as (a & Eg & K1 & K2 & K3 & K4).
      destruct Hq as (p & groups & _ & _ & _ & _ & _ & _ & _ & _ & Hin & Hal & Hal2). unfold sizes in K4. injection K4 as Z1 Z2 Z3 Z4 Z5.
      assert (Hin' : Forall (run_inside volume cs) irs) by exact Hin. change (2 ^ 64) with two64 in Hal2.
      destruct (index_initialize_ok volume cs irs a Hcs Ha Hin' K3 K1 K2) as (t & Et & Ht); [lia|lia|].
      rewrite Eg, Et. exists t, (field root 8 4). split; [reflexivity|]. split; [now right|]. intros f.
      split; cbn [di_cluster di_entry_size di_tree]; auto; lia. }
  destruct Ex as (t & size & Et & Hbs & Hready).
  eexists. exists (field root 8 4), irs. split; [|split; [|split; [apply Hready|split; [exact Hbs|split; [exact Br|exact Hi]]]]]; [|reflexivity].
  unfold directory_index_of. rewrite Eh. cbn [check bind].
  rewrite (shown_one l s i30 0x90 r S) by (assumption || discriminate). cbn [of_option bind].
  unfold ma_is_resident. rewrite land_one. unfold resident in Hr. rewrite Hr. cbn [negb check bind]. fold root.
  rewrite (index_root_header_ok' _ Br Logic.I). destruct (N.leb_spec 16 (len root)); [|lia]. cbn [bind]. unfold index_root_header_of.
  rewrite F1, F2. cbn [N.eqb Pos.eqb check bind]. change (2 ^ 21) with 2097152 in F3.
  destruct (N.ltb_spec (field root 8 4) 20); [lia|]. destruct (N.ltb_spec 2097152 (field root 8 4)); [lia|]. cbn [orb negb check bind].
  rewrite Ef. cbn [bind]. rewrite Et. cbn [bind]. reflexivity.
Qed.
Lemma folded_ok table name : buffer table -> len table = 131072 -> ucs2_case_folding name (upcase_of table) = folded table name.
Proof.
  intros Hb Hl. unfold ucs2_case_folding, folded. apply map_ext. intros c. unfold upcase_of.
  destruct (N.ltb_spec c 65536).
  - rewrite (u16_at _ Hb) by lia. destruct (N.eqb_spec c (field table (2 * c) 2)); [assumption|reflexivity].
  - unfold u16_le, bytes_to_uint_le, add_chk. destruct (2 * c + 2 <? two64); [|reflexivity]. cbn [bind]. unfold slice.
    destruct (N.leb_spec (2 * c + 2) (len table)); [lia|]. now rewrite andb_false_r.
Qed.

(** ** What a file shows *)
Lemma sequence_reference n q : n < 2 ^ 48 -> q < 2 ^ 16 -> N.lor n (N.shiftl q 48 mod two64) = n + 2 ^ 48 * q.
Proof.
  intros H1 H2. rewrite N.mod_small.
  - rewrite N.lor_comm, N.shiftl_mul_pow2. rewrite Checksums_proofs.lor_disjoint by exact H1. rewrite N.mul_comm. apply N.add_comm.
  - rewrite N.shiftl_mul_pow2. change two64 with (2 ^ 16 * 2 ^ 48). apply N.mul_lt_mono_pos_r; [reflexivity|exact H2].
Qed.
Lemma shown_file volume cs es runs n l s via : sound l -> shows l s -> n < 2 ^ 48 ->
  buffer (mft_bytes volume cs es runs n) ->
  file_shows (field (mft_bytes volume cs es runs n) 16 2) n via l
    {| fe_number := n; fe_entry := entry_value (mft_bytes volume cs es runs n); fe_attributes := s;
       fe_directory_entry := option_map item_entry via; fe_is_directory := existsb (fun a => equal_names i30 (ma_name a)) l |}.
Proof.
  intros Hs S Hn Hb. split; cbn [fe_number fe_is_directory fe_attributes].
  - reflexivity.
  - destruct via; reflexivity.
  - destruct via as [i|]; [reflexivity|]. unfold fe_reference. cbn [fe_directory_entry option_map fe_number fe_entry entry_value me_sequence].
    apply sequence_reference; [exact Hn|]. apply (field_lt _ Hb 16 2).
  - destruct via; reflexivity.
  - intros E. unfold fe_size. cbn [fe_attributes]. rewrite (shown_none l s None 0x80 S) by (assumption || discriminate). reflexivity.
  - intros q Hq E. unfold fe_size. cbn [fe_attributes]. pose proof (shows_attribute _ _ S None 0x80 ltac:(discriminate)) as G.
    destruct (get_attribute s None 0x80) as [a|]; [|rewrite G in Hq; destruct Hq].
    destruct (pieces None 0x80 l) as [|p [|p' ps]]; [destruct Hq|..].
    + cbn [assembled] in G. destruct Hq as [<-|[]]. now subst a.
    + destruct E as [E|E]; [discriminate|]. destruct G as (_ & _ & _ & _ & _ & _ & _ & G). specialize (G q Hq E).
      unfold sizes in G. now injection G.
  - unfold fe_link_target. cbn [fe_attributes]. now rewrite (shows_reparse _ _ S).
  - unfold fe_flags. cbn [fe_attributes]. rewrite (shows_times _ _ S). now destruct (content_of_type 0x10 l).
  - reflexivity.
  - exact S.
Qed.
Lemma entry_number volume cs es runs t n l : mft_ready volume cs es runs t -> file volume cs es runs n l ->
  (n + 1) * es <= clusters runs * cs /\ buffer (mft_bytes volume cs es runs n).
Proof.
  intros R F. assert (H : (n + 1) * es <= clusters runs * cs) by (destruct F as [? H|? ? ? ? ? H]; apply H).
  split; [exact H|]. now apply (get_entry_bytes volume cs es runs t n R).
Qed.
(** The entries are fewer than 2^48: those of the volumes have 42 bytes at least. *)
Record opened (volume : list N) (runs : list run) (table : list N) (v : ntfs_volume) : Prop := {
  o_mft : mft_ready volume (mt_cluster (nv_mft v)) (mt_entry_size (nv_mft v)) runs (nv_mft v);
  o_number : mt_entries (nv_mft v) < 2 ^ 48;
  o_table : nv_upcase v = table /\ buffer table /\ len table = 131072 }.
Section opened.
  Context (volume : list N) (runs : list run) (table : list N) (v : ntfs_volume).
  Hypothesis O : opened volume runs table v.
  Let cs := mt_cluster (nv_mft v).
  Let es := mt_entry_size (nv_mft v).
  Let R : mft_ready volume cs es runs (nv_mft v) := o_mft _ _ _ _ O.

  Lemma number_small n l : file volume cs es runs n l -> n < mt_entries (nv_mft v).
  Proof.
    intros F. destruct (entry_number volume cs es runs _ n l R F) as [H _]. rewrite (r_entries _ _ _ _ _ R).
    pose proof (r_es _ _ _ _ _ R). apply N.lt_le_trans with (n + 1); [lia|]. apply N.div_le_lower_bound; [lia|]. now rewrite N.mul_comm.
  Qed.
  Lemma by_number n l via : file volume cs es runs n l ->
    exists f, ends (fun m => e <~ now (get_entry volume (nv_mft v) n) ;; file_entry_of m volume (nv_mft v) n e (option_map item_entry via)) (Ok f) /\
      file_shows (field (mft_bytes volume cs es runs n) 16 2) n via l f.
  Proof.
    intros F. destruct (file_entry_ok volume cs es runs (nv_mft v) n l (option_map item_entry via) R F) as (s & E & S & G & _).
    eexists. split; [rewrite G; exact E|]. apply shown_file; [eapply file_sound, F|exact S| |eapply entry_number; eassumption].
    pose proof (number_small n l F). pose proof (o_number _ _ _ _ O). lia.
  Qed.
  Lemma by_identifier n l : file volume cs es runs n l ->
    exists f, ends (fun m => ntfs_by_identifier m volume v n) (Ok f) /\
      file_shows (field (mft_bytes volume cs es runs n) 16 2) n None l f.
  Proof.
    intros F. destruct (by_number n l None F) as (f & E & H). exists f. split; [|exact H].
    unfold ntfs_by_identifier. pose proof (number_small n l F). destruct (N.leb_spec (mt_entries (nv_mft v)) n); [lia|]. exact E.
  Qed.
  Lemma by_item i l : file volume cs es runs (fst i mod 2 ^ 48) l ->
    exists f, ends (fun m => entry_of m volume v (item_entry i)) (Ok f) /\
      file_shows (field (mft_bytes volume cs es runs (fst i mod 2 ^ 48)) 16 2) (fst i mod 2 ^ 48) (Some i) l f.
  Proof.
    intros F. destruct (by_number (fst i mod 2 ^ 48) l (Some i) F) as (f & E & H). exists f. split; [|exact H].
    unfold entry_of. cbn [de_reference item_entry]. rewrite land_48. exact E.
  Qed.
  Definition usable_file n l (F : file volume cs es runs n l) : Forall usable l.
  Proof. destruct (file_entry_ok volume cs es runs (nv_mft v) n l None R F) as (s & _ & _ & _ & U). exact U. Qed.

  Lemma listing_ok n l q via items f : file volume cs es runs n l -> file_shows q n via l f -> is_directory l = true ->
    directory volume cs l items -> can_list items ->
    exists s, ends (fun m => sub_entries m volume v f) (Ok s) /\ ds_entries s = map item_entry (listed items).
  Proof.
    intros F H D1 D2 [C1 C2].
    destruct (directory_index_ok volume cs l (fe_attributes f) items) as (d & bs & irs & E & _ & Rd & Hbs & Bd & Hi); auto.
    { apply R. } { apply R. } { eapply file_sound, F. } { eapply usable_file, F. } { apply H. }
    exists (extended {| ds_entries := []; ds_short := [] |} items). split; [|reflexivity].
    unfold sub_entries. rewrite (f_directory _ _ _ _ _ H), D1. cbn [negb]. fold cs. rewrite E. cbn [now obind].
    unfold list_entries. apply (proj2 (proj2 (listing volume cs bs irs d Rd Hbs)) _ _ _ Hi Bd); [exact C1|].
    split; [exact C2|]. intros k _ [].
  Qed.
  Lemma name_ok' n l q via items f name : file volume cs es runs n l -> file_shows q n via l f -> is_directory l = true ->
    directory volume cs l items -> ordered (compared table l) items ->
    exists d, directory_index_of cs (fe_attributes f) = Ok d /\
    ends (fun m => search_name m volume (upcase_of (nv_upcase v)) d name)
      (Ok (option_map item_entry (found (compared table l) name items))).
  Proof.
    intros F H D1 D2 Ho.
    destruct (directory_index_ok volume cs l (fe_attributes f) items) as (d & bs & irs & E & Ef & Rd & Hbs & Bd & Hi); auto.
    { apply R. } { apply R. } { eapply file_sound, F. } { eapply usable_file, F. } { apply H. }
    exists d. split; [exact E|]. unfold search_name.
    destruct (o_table _ _ _ _ O) as (Et & Bt & Lt). rewrite Et.
    assert (Ec : forall x, fold_name d (upcase_of table) x = compared table l x).
    { intros x. unfold fold_name, compared. rewrite Ef. destruct (case_sensitive l); [reflexivity|]. cbn [negb]. now apply folded_ok. }
    assert (Ho' : ordered (fold_name d (upcase_of table)) items).
    { clear - Ho Ec. unfold ordered in *. induction Ho as [|i items _ IH Fa]; constructor; [exact IH|].
      eapply Forall_impl; [|exact Fa]. cbn beta. intros j. now rewrite !Ec. }
    pose proof (proj2 (proj2 (searching volume cs bs irs d Rd Hbs (fold_name d (upcase_of table)) (fold_name d (upcase_of table) name))) _ _ _ Hi Bd Ho') as G.
    replace (found (compared table l) name items) with (matching (fold_name d (upcase_of table)) (fold_name d (upcase_of table) name) items); [exact G|].
    unfold found, matching. clear - Ec. induction items as [|i items IH]; [reflexivity|]. cbn [find]. rewrite IH. now rewrite !Ec.
  Qed.
  Lemma none_by_name n l q via f name items : file volume cs es runs n l -> file_shows q n via l f ->
    is_directory l = false \/ is_directory l = true /\ directory volume cs l items /\ ordered (compared table l) items /\
      found (compared table l) name items = None ->
    ends (fun m => sub_entry_by_name m volume v f name) (Ok None).
  Proof.
    intros F H D. unfold sub_entry_by_name. rewrite (f_directory _ _ _ _ _ H).
    destruct D as [D|(D1 & D2 & Ho & E)]; rewrite ?D, ?D1; cbn [negb]; [apply ends_now|].
    destruct (name_ok' n l q via items f name F H D1 D2 Ho) as (d & Ed & E'). fold cs. rewrite Ed. cbn [now obind].
    rewrite E in E'. eapply ends_bind; [exact E'|]. apply ends_now.
  Qed.
  Lemma some_by_name n l q via f name items i (k : file_entry -> nat -> out (option file_entry)) r :
    file volume cs es runs n l -> file_shows q n via l f ->
    is_directory l = true -> directory volume cs l items -> ordered (compared table l) items ->
    found (compared table l) name items = Some i ->
    ends (fun m => f <~ entry_of m volume v (item_entry i) ;; k f m) r ->
    ends (fun m => x <~ sub_entry_by_name m volume v f name ;; match x with Some f => k f m | None => now (Ok None) end) r.
  Proof.
    intros F H D1 D2 Ho E Hk. unfold sub_entry_by_name. rewrite (f_directory _ _ _ _ _ H), D1. cbn [negb].
    destruct (name_ok' n l q via items f name F H D1 D2 Ho) as (d & Ed & E'). fold cs. rewrite Ed. cbn [now obind].
    rewrite E in E'. cbn [option_map] in E'. destruct E' as [m1 E'], Hk as [m2 Hk].
    exists (Nat.max m1 m2). intros m Hm. rewrite (E' m) by lia. cbn [obind]. rewrite <- (Hk m) by lia.
    destruct (entry_of m volume v (item_entry i)) as [[| |]|]; reflexivity.
  Qed.
  Lemma by_name n l q via f name items i l' : file volume cs es runs n l -> file_shows q n via l f ->
    is_directory l = true -> directory volume cs l items -> ordered (compared table l) items ->
    found (compared table l) name items = Some i -> file volume cs es runs (fst i mod 2 ^ 48) l' ->
    exists g, ends (fun m => sub_entry_by_name m volume v f name) (Ok (Some g)) /\
      file_shows (field (mft_bytes volume cs es runs (fst i mod 2 ^ 48)) 16 2) (fst i mod 2 ^ 48) (Some i) l' g.
  Proof.
    intros F H D1 D2 Ho E F'. destruct (by_item i l' F') as (g & Eg & G). exists g. split; [|exact G].
    unfold sub_entry_by_name. rewrite (f_directory _ _ _ _ _ H), D1. cbn [negb].
    destruct (name_ok' n l q via items f name F H D1 D2 Ho) as (d & Ed & E'). fold cs. rewrite Ed. cbn [now obind].
    rewrite E in E'. eapply ends_bind; [exact E'|]. cbn [option_map]. eapply ends_bind; [exact Eg|]. apply ends_now.
  Qed.
  Lemma number_ok n l q via items f : file volume cs es runs n l -> file_shows q n via l f -> is_directory l = true ->
    directory volume cs l items -> can_list items ->
    ends (fun m => number_of_sub_entries m volume v f) (Ok (length (listed items))).
  Proof.
    intros F H D1 D2 C. destruct (listing_ok n l q via items f F H D1 D2 C) as (s & E & Es).
    unfold number_of_sub_entries. rewrite (f_directory _ _ _ _ _ H), D1. cbn [negb]. eapply ends_bind; [exact E|].
    rewrite Es, map_length. apply ends_now.
  Qed.
  Lemma index_ok n l q via items f i item l' : file volume cs es runs n l -> file_shows q n via l f -> is_directory l = true ->
    directory volume cs l items -> can_list items -> nth_error (listed items) i = Some item ->
    file volume cs es runs (fst item mod 2 ^ 48) l' ->
    exists g, ends (fun m => sub_entry_by_index m volume v f i) (Ok g) /\
      file_shows (field (mft_bytes volume cs es runs (fst item mod 2 ^ 48)) 16 2) (fst item mod 2 ^ 48) (Some item) l' g.
  Proof.
    intros F H D1 D2 C E F'. destruct (listing_ok n l q via items f F H D1 D2 C) as (s & E1 & Es).
    destruct (by_item item l' F') as (g & Eg & G). exists g. split; [|exact G].
    unfold sub_entry_by_index. eapply ends_bind; [exact E1|]. unfold directory_entry_by_index. rewrite Es, nth_error_map, E.
    cbn [option_map of_option bind item_entry de_short]. rewrite andb_false_r. exact Eg.
  Qed.
  Lemma index_out n l q via items f i : file volume cs es runs n l -> file_shows q n via l f -> is_directory l = true ->
    directory volume cs l items -> can_list items -> (length (listed items) <= i)%nat ->
    ends (fun m => sub_entry_by_index m volume v f i) Err.
  Proof.
    intros F H D1 D2 C E. destruct (listing_ok n l q via items f F H D1 D2 C) as (s & E1 & Es).
    unfold sub_entry_by_index. eapply ends_bind; [exact E1|]. unfold directory_entry_by_index. rewrite Es, nth_error_map.
    apply nth_error_None in E. rewrite E. apply ends_now.
  Qed.
  Lemma walk_ok n via names r : leads volume cs es runs table n via names r ->
    exists answer, ends (fun m => f <~ (e <~ now (get_entry volume (nv_mft v) n) ;; file_entry_of m volume (nv_mft v) n e (option_map item_entry via)) ;;
        ntfs_walk m volume v names f) (Ok answer) /\
      match r, answer with
      | Some (k, via', l'), Some g => file_shows (field (mft_bytes volume cs es runs k) 16 2) k via' l' g
      | None, None => True
      | _, _ => False
      end.
  Proof.
    induction 1 as [n via l F|n via l items name i names r F D1 D2 Ho E L IH|n via l items name names F D1 D2 Ho E|n via l name names F D].
    - destruct (by_number n l via F) as (f & E & H). exists (Some f). split; [|exact H].
      eapply ends_bind; [exact E|]. apply ends_now.
    - destruct (by_number n l via F) as (f & Ef & H). destruct IH as (answer & IH & G). exists answer. split; [|exact G].
      eapply ends_bind; [exact Ef|]. cbn [ntfs_walk].
      apply (some_by_name n l _ via f name items i (fun f m => ntfs_walk m volume v names f) _ F H D1 D2 Ho E).
      unfold entry_of. cbn [de_reference item_entry]. rewrite land_48. exact IH.
    - destruct (by_number n l via F) as (f & Ef & H). exists None. split; [|exact Logic.I].
      eapply ends_bind; [exact Ef|]. cbn [ntfs_walk]. eapply ends_bind with (a := None); [|apply ends_now].
      eapply none_by_name; [exact F|exact H|]. right. eauto.
    - destruct (by_number n l via F) as (f & Ef & H). exists None. split; [|exact Logic.I].
      eapply ends_bind; [exact Ef|]. cbn [ntfs_walk]. eapply ends_bind with (a := None); [|apply ends_now].
      eapply (none_by_name n l _ via f name []); [exact F|exact H|]. now left.
  Qed.
  Lemma path_ok names r : leads volume cs es runs table 5 None names r ->
    exists answer, ends (fun m => ntfs_by_path m volume v ([] :: names)) (Ok answer) /\
      match r, answer with
      | Some (k, via', l'), Some g => file_shows (field (mft_bytes volume cs es runs k) 16 2) k via' l' g
      | None, None => True
      | _, _ => False
      end.
  Proof.
    intros L. destruct (walk_ok 5 None names r L) as (answer & E & G). exists answer. split; [|exact G].
    unfold ntfs_by_path. change (len (@nil N) =? 0) with true. cbn [negb]. unfold ntfs_root, ntfs_by_identifier.
    assert (H : 5 < mt_entries (nv_mft v)) by (destruct L; eapply number_small; eassumption).
    destruct (N.leb_spec (mt_entries (nv_mft v)) 5); [lia|]. exact E.
  Qed.
End opened.

(** ** Opening a volume *)
Lemma no_list l s : collected l s -> Forall (fun a => ma_type a <> 0x20) l -> as_list s = None.
Proof.
  intros C H. rewrite (c_list _ _ C). pose proof (c_index _ _ C None 0x20 ltac:(discriminate)) as Hi.
  destruct index_of as [i|]; [|reflexivity]. destruct Hi as (a & _ & Hi). exfalso.
  destruct (pieces None 0x20 l) as [|p q] eqn:Ep; [destruct Hi|].
  assert (Ip : In p (pieces None 0x20 l)) by (rewrite Ep; now left). apply in_pieces in Ip as (I1 & _ & I2).
  rewrite Forall_forall in H. now apply (H p).
Qed.
Lemma metadata_ok volume cs es runs t n l : mft_ready volume cs es runs t -> entry_has volume cs es runs n l -> single l ->
  exists s, ends (fun m => metadata_attributes m volume t n) (Ok s) /\ shows l s /\ Forall usable l.
Proof.
  intros R H [S N20]. destruct (entry_attributes volume cs es runs t n l [] no_attributes R H collected_none S) as (U & s & E & C).
  destruct (get_entry_ok volume cs es runs t n l R H) as [G _]. cbn [app] in C.
  exists s. split; [|split; [now apply collected_shows|exact U]].
  unfold metadata_attributes. rewrite G. cbn [now obind entry_value me_is_bad me_is_allocated negb].
  refine (ends_bind _ (fun m s => _) s _ E _). rewrite (no_list _ _ C N20). apply ends_now.
Qed.
Lemma bytes_at_whole (d : list N) : bytes_at d 0 (len d) = d.
Proof. unfold bytes_at. change (N.to_nat 0) with O. cbn [skipn]. unfold len. rewrite Nat2N.id. apply firstn_all. Qed.
Lemma information_ok volume cs es runs t l label information : mft_ready volume cs es runs t ->
  entry_has volume cs es runs 3 l -> single l ->
  (pieces None 0x60 l = [] /\ label = None \/
   exists a, pieces None 0x60 l = [a] /\ resident a /\ ma_flags a mod 256 = 0 /\ N.even (len (ma_resident_data a)) = true /\
     label = Some (text16 (ma_resident_data a) 0 (len (ma_resident_data a)))) ->
  (pieces None 0x70 l = [] /\ information = None \/
   exists a, pieces None 0x70 l = [a] /\ resident a /\ ma_flags a mod 256 = 0 /\ 12 <= len (ma_resident_data a) /\
     information = Some (volume_information_of (ma_resident_data a))) ->
  ends (fun m => read_volume_information m volume t) (Ok (label, information)).
Proof.
  intros R H Hs H1 H2. destruct (metadata_ok volume cs es runs t 3 l R H Hs) as (s & E & S & U).
  assert (Hu : forall name ty a, pieces name ty l = [a] -> buffer (ma_resident_data a)).
  { intros name ty a Ea. assert (Ia : In a (pieces name ty l)) by (rewrite Ea; now left).
    apply in_pieces in Ia as (Ia & _). rewrite Forall_forall in U. now apply (U a). }
  unfold read_volume_information. refine (ends_bind _ (fun m s => _) s _ E _). cbn beta.
  assert (L : match get_attribute s None 0x60 with
     | Some a => check (ma_is_resident a) ;;; check (negb (ma_is_compressed a)) ;;;
                   l <- u16string_from_le_bytes (ma_resident_data a) ;; Ok (Some l)
     | None => Ok None end = Ok label).
  { destruct H1 as [[Ep ->]|(a & Ep & A1 & A2 & A3 & ->)].
    - now rewrite (shown_none l s None 0x60 S ltac:(discriminate) Ep).
    - rewrite (shown_one l s None 0x60 a S ltac:(discriminate) Ep). unfold ma_is_resident, ma_is_compressed.
      rewrite land_one, A1, land_low, A2. cbn [negb check bind].
      destruct (Hu _ _ _ Ep) as [_ Hl]. change (2 ^ 64) with two64 in Hl. rewrite u16_text by assumption. cbn [bind].
      unfold text16. now rewrite bytes_at_whole. }
  rewrite L. cbn [now obind].
  assert (I2 : match get_attribute s None 0x70 with
     | Some a => check (negb (ma_is_compressed a)) ;;; check (ma_is_resident a) ;;;
                   i <- volume_information_read (ma_resident_data a) ;; Ok (Some i)
     | None => Ok None end = Ok information).
  { destruct H2 as [[Ep ->]|(a & Ep & A1 & A2 & A3 & ->)].
    - now rewrite (shown_none l s None 0x70 S ltac:(discriminate) Ep).
    - rewrite (shown_one l s None 0x70 a S ltac:(discriminate) Ep). unfold ma_is_resident, ma_is_compressed.
      rewrite land_one, A1, land_low, A2. cbn [negb check bind].
      rewrite (volume_information_ok' _ (Hu _ _ _ Ep) Logic.I). destruct (N.leb_spec 12 (len (ma_resident_data a))); [|lia]. reflexivity. }
  rewrite I2. cbn [now obind]. apply ends_now.
Qed.
Lemma content_wf volume cs rs size valid : wf_bytes volume -> wf_bytes (attribute_content volume cs rs size valid).
Proof.
  intros Hw. unfold attribute_content, padded. apply wf_bytes_firstn. apply wf_bytes_app. split.
  - unfold bytes_at. apply wf_bytes_firstn, wf_bytes_skipn. induction rs as [|r rs IH]; cbn [flat_map]; [constructor|].
    apply wf_bytes_app. split; [|exact IH]. destruct r; cbn [run_content].
    + unfold bytes_at. now apply wf_bytes_firstn, wf_bytes_skipn.
    + apply Forall_forall. intros x Hx. apply repeat_spec in Hx as ->. reflexivity.
  - apply Forall_forall. intros x Hx. apply repeat_spec in Hx as ->. reflexivity.
Qed.
Lemma first_read volume st size content k : (forall ops, seeks_ok size content 0 ops ->
    Streams_model.run (ntfs_block_stream_step volume st) (tt, 0) ops =
      ((tt, fst (Streams_model.run (file_step size content) 0 ops)), snd (Streams_model.run (file_step size content) 0 ops))) ->
  snd (stream_read (ns_size st) (ntfs_block_rd volume st) (tt, 0) k) = Ok (bytes_at content 0 k).
Proof.
  intros H. specialize (H [Read k] (conj Logic.I Logic.I)). cbn [Streams_model.run] in H. unfold ntfs_block_stream_step, stream_step in H.
  destruct (stream_read (ns_size st) (ntfs_block_rd volume st) (tt, 0) k) as [st' d].
  cbn [file_step fst snd] in H. apply (f_equal snd) in H. cbn [snd] in H. injection H as ->. reflexivity.
Qed.
Lemma table_ok volume cs es runs t l q irs : mft_ready volume cs es runs t -> mt_cluster t = cs ->
  entry_has volume cs es runs 10 l -> single l -> in_clusters volume cs l None 0x80 q irs ->
  ma_valid q <= clusters irs * cs -> ma_valid q <= ma_data_size q -> 131072 <= ma_data_size q < 2 ^ 63 ->
  let table := bytes_at (attribute_content volume cs irs (ma_data_size q) (ma_valid q)) 0 131072 in
  ends (fun m => read_case_folding m volume t) (Ok table) /\ buffer table /\ len table = 131072.
Proof.
  intros R Ec H Hs Hq V1 V2 Z table. destruct (metadata_ok volume cs es runs t 10 l R H Hs) as (s & E & S & U).
  destruct (whole volume cs l s None 0x80 q irs S ltac:(discriminate) Hq) as (a & Ea & A1 & A2 & A3 & A4).
  destruct Hq as (_ & _ & _ & _ & _ & _ & _ & _ & _ & _ & Hin & B1 & B2).
  unfold sizes in A4. injection A4 as Z1 Z2 Z3 Z4 Z5.
  destruct (C33_reads_are_the_content volume cs irs (ma_groups a) (ma_allocated q) (ma_data_size q) (ma_valid q) (ma_unit a)) as (st & E1 & E2); auto.
  { apply R. } { apply Z. } { destruct (r_volume _ _ _ _ _ R) as [_ Hv]. exact Hv. }
  pose proof (first_read volume st _ _ 131072 E2) as E3. clear E2.
  assert (Lt : len table = 131072).
  { unfold table. rewrite len_bytes_at. unfold attribute_content. rewrite len_padded. lia. }
  split; [|split; [|exact Lt]].
  - unfold read_case_folding. refine (ends_bind _ (fun m s => _) s _ E _). cbn beta. rewrite Ea. cbn [of_option now obind].
    unfold ma_is_resident, ma_is_compressed. rewrite land_one, A1, land_low, A2. cbn [negb].
    change (0 =? 0) with true. change (1 =? 0) with false. cbn [negb]. rewrite Ec.
    unfold ma_stream, ma_is_compressed. rewrite land_low, A2. change (negb (0 =? 0)) with false. rewrite Z1, Z2, Z3, E1. cbn [now obind].
    rewrite E3. cbn [now obind].
    fold table. rewrite Lt. change (131072 =? 131072) with true. cbn [check bind]. apply ends_now.
  - split; [|rewrite Lt; reflexivity]. unfold table, bytes_at. apply wf_bytes_firstn, wf_bytes_skipn, content_wf.
    apply (r_volume _ _ _ _ _ R).
Qed.
Lemma one_of_in l x : one_of l x = true -> In x l.
Proof. unfold one_of. rewrite existsb_exists. intros (y & H & E). apply N.eqb_eq in E. now subst. Qed.
Lemma boot_sizes d : ntfs_boot_ok d = true -> 0 < nb_cluster_block_size (ntfs_boot_of d) /\ 42 <= nb_mft_entry_size (ntfs_boot_of d) <= 65535.
Proof.
  intros H. unfold ntfs_boot_ok in H. repeat (apply andb_true_iff in H as [H ?]).
  cbn [ntfs_boot_of nb_cluster_block_size nb_mft_entry_size]. rewrite !N.leb_le in *. split; [|lia].
  assert (Hc : In (ntfs_cluster d) (map (fun e => 2 ^ e) [8; 9; 10; 11; 12; 13; 14; 15; 16; 17; 18; 19; 20; 21])) by now apply one_of_in.
  apply in_map_iff in Hc as (e & <- & _). destruct (2 ^ e) eqn:Ez; [|reflexivity]. exfalso. revert Ez. apply N.pow_nonzero. discriminate.
Qed.
Lemma open_ok volume runs table label information : volume_ok volume runs table label information ->
  exists v, ends (fun m => ntfs_open m volume) (Ok v) /\ opened volume runs table v /\ nv_boot v = boot volume /\
    mt_cluster (nv_mft v) = cluster_of volume /\ mt_entry_size (nv_mft v) = entry_of_size volume /\
    nv_label v = label /\ nv_information v = information.
Proof.
  intros [Hb (B1 & B2 & B3 & B4) (l & a & last & M0) (li & I1 & I2 & I3 & I4) (lt & q & irs & T1 & T2 & T3 & T4 & T5 & T6 & T7)].
  set (first := bytes_at volume (nb_mft_block (boot volume) * cluster_of volume) (entry_of_size volume)) in *. cbn zeta in M0.
  destruct M0 as (M1 & M2 & M3 & M4 & M5 & M6 & M7 & M8 & M9 & M10 & M11 & M12 & M13 & M14 & M15).
  pose proof (boot_sizes _ B2) as [Hc He]. fold (boot volume) in Hc, He. fold (cluster_of volume) in Hc. fold (entry_of_size volume) in He.
  assert (Hv : len volume < two64) by apply Hb.
  assert (Eb : ntfs_boot_read (bytes_at volume 0 512) = Ok (boot volume)).
  { rewrite ntfs_boot_ok'; [now rewrite B2|now apply buffer_bytes|]. split; rewrite field_part by lia; assumption. }
  destruct M4 as [S N20]. assert (Bf : buffer first) by now apply buffer_bytes.
  pose proof (buffer_record _ (field first 4 2) Bf) as Br. fold (entry_record first) in Br.
  destruct (attributes_loop _ Br _ _ M3 [] no_attributes collected_none S) as (U & s & Es & C). cbn [app] in C.
  pose proof (collected_shows _ _ C U) as Sh.
  set (cs := cluster_of volume) in *. set (es := entry_of_size volume) in *. 
  destruct (mft_group_ready volume cs es runs last (ma_allocated a / es * es)) as (t & Et & R); auto.
  { pose proof (N.mul_div_le (ma_allocated a) es ltac:(lia)). change (2 ^ 64) with two64 in M14. lia. }
  destruct (table_ok volume cs es runs t lt q irs R (r_cluster _ _ _ _ _ R) T1 T2 T3 T4 T5 T6) as (Tt & Tb & Tl).
  rewrite <- T7 in Tt, Tb, Tl.
  exists {| nv_boot := boot volume; nv_mft := t; nv_upcase := table; nv_information := information; nv_label := label |}.
  cbn [nv_boot nv_mft nv_upcase nv_information nv_label].
  split; [|split; [|repeat split; try apply R]].
  - unfold ntfs_open. rewrite read_inside by lia. cbn [now obind]. rewrite Eb. cbn [now obind].
    fold (cluster_of volume). fold cs. unfold div_chk. destruct (N.eqb_spec cs 0); [lia|]. cbn [now obind].
    destruct (N.ltb_spec (0xffffffffffffffff / cs) (nb_mft_block (boot volume))) as [L|_].
    { exfalso. revert L. apply N.le_ngt. apply N.div_le_lower_bound; [lia|]. rewrite N.mul_comm. unfold two64 in Hv. lia. }
    fold (entry_of_size volume). fold es.
    assert (Em : ends (fun m => mft_initialize m volume cs es (nb_mft_block (boot volume))) (Ok t)).
    { unfold mft_initialize, mul_chk at 1. destruct (N.ltb_spec (nb_mft_block (boot volume) * cs) two64); [|lia]. cbn [now obind].
      unfold mft_entry_read_at. destruct (N.ltb_spec es 42); [lia|]. destruct (N.ltb_spec 65535 es); [lia|]. cbn [orb negb check bind].
      rewrite read_inside by assumption. cbn [bind]. fold first. rewrite mft_entry_ok by assumption.
      cbn [now obind entry_value me_is_bad me_is_allocated negb].
      refine (ends_bind _ (fun m s => _) s _ Es _). cbn beta.
      rewrite (shown_one l s None 0x80 a Sh ltac:(discriminate) M5). cbn [of_option now obind].
      unfold ma_is_resident, ma_is_compressed. rewrite land_one, M6, land_low, M7. 
      change (0 =? 0) with true. change (1 =? 0) with false. cbn [negb].
      unfold div_chk. destruct (N.eqb_spec es 0); [lia|]. cbn [now obind].
      unfold mul_chk at 1. pose proof (N.mul_div_le (ma_allocated a) es ltac:(lia)) as Hle. change (2 ^ 64) with two64 in M14.
      destruct (N.ltb_spec (ma_allocated a / es * es) two64); [|lia]. cbn [now obind]. rewrite N.div_mul by lia.
      destruct (N.leb_spec 0xffffffff (ma_allocated a / es)); [lia|].
      rewrite M8. cbn [nth_error unwrap now obind]. rewrite Et. cbn [now obind]. rewrite (no_list _ _ C N20). cbn [now obind add_entries].
      apply ends_now. }
    refine (ends_bind _ (fun m t => _) t _ Em _). cbn beta.
    refine (ends_bind _ (fun m x => _) (label, information) _ _ _).
    + now apply (information_ok volume cs es runs t li).
    + cbn beta. refine (ends_bind _ (fun m x => _) table _ Tt _). apply ends_now.
  - split; cbn [nv_mft nv_upcase].
    + rewrite (r_cluster _ _ _ _ _ R), (r_size _ _ _ _ _ R). exact R.
    + rewrite (r_entries _ _ _ _ _ R). apply N.lt_trans with (2 ^ 32); [|reflexivity]. apply N.div_lt_upper_bound; [lia|]. nia.
    + split; [reflexivity|]. split; assumption.
Qed.
