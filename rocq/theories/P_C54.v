(** * C54: NTFS volumes: files by number and by path, directories *)
From Coq Require Import Permutation Sorted.
From Verif Require Import Base BaseLemmas Bytes_model Streams_model Streams_spec Streams_proofs BlockTree_model Blocks_model Blocks_proofs
  Strings_model Strings_spec Strings_proofs Part_spec Part_model Headers_model Headers_spec Headers_proofs
  Ntfs_model Ntfs_spec Ntfs_proofs NtfsCompressed_model NtfsFs_model NtfsFs_spec NtfsFs_proofs NtfsFs2_spec NtfsFs2_proofs
  NtfsFs3_proofs P_C33 P_C53.
Ltac Zify.zify_post_hook ::= idtac.

(** In all of these the MFT has one entry for itself. Missing: an MFT whose own attributes are
    in several entries. *)

(** Opening a volume gives its boot record, the label and the version. *)
Theorem C54_open_partial : forall volume runs table label information,
  volume_ok volume runs table label information ->
  exists v, ends (fun fuel => ntfs_open fuel volume) (Ok v) /\ nv_boot v = boot volume /\
    nv_label v = label /\ nv_information v = information.
Proof.
  intros volume runs table label information H. destruct (open_ok _ _ _ _ _ H) as (v & E & _ & E1 & _ & _ & E2 & E3).
  exists v. auto.
Qed.
Print Assumptions C54_open_partial.
Lemma opened_volume volume runs table label information v : volume_ok volume runs table label information ->
  ends (fun fuel => ntfs_open fuel volume) (Ok v) -> opened volume runs table v /\
  mt_cluster (nv_mft v) = cluster_of volume /\ mt_entry_size (nv_mft v) = entry_of_size volume.
Proof.
  intros H E. destruct (open_ok _ _ _ _ _ H) as (v' & E' & O & _ & E1 & E2 & _).
  pose proof (ends_unique _ _ _ E E') as Ev. injection Ev as ->. auto.
Qed.


(** A file by its number. *)
Theorem C54_identifier_partial : forall volume runs table label information v,
  volume_ok volume runs table label information -> ends (fun fuel => ntfs_open fuel volume) (Ok v) ->
  forall n l, file volume (cluster_of volume) (entry_of_size volume) runs n l ->
  exists f, ends (fun fuel => ntfs_by_identifier fuel volume v n) (Ok f) /\
    file_shows (field (mft_bytes volume (cluster_of volume) (entry_of_size volume) runs n) 16 2) n None l f.
Proof.
  intros volume runs table label information v volume_sound volume_open.
  intros n l F. destruct (opened_volume _ _ _ _ _ _ volume_sound volume_open) as (O & E1 & E2). rewrite <- E1, <- E2 in *.
  now apply (by_identifier volume runs table v O).
Qed.
Print Assumptions C54_identifier_partial.
(** A directory lists its items, each of which is a file: how many they are, the file of each
    number, and none beyond. *)
Theorem C54_listing_partial : forall volume runs table label information v,
  volume_ok volume runs table label information -> ends (fun fuel => ntfs_open fuel volume) (Ok v) ->
  forall n l via sequence f items,
  file volume (cluster_of volume) (entry_of_size volume) runs n l -> file_shows sequence n via l f -> is_directory l = true ->
  directory volume (cluster_of volume) l items -> can_list items ->
  ends (fun fuel => number_of_sub_entries fuel volume v f) (Ok (length (listed items))) /\
  (forall i item l', nth_error (listed items) i = Some item -> file volume (cluster_of volume) (entry_of_size volume) runs (fst item mod 2 ^ 48) l' ->
    exists g, ends (fun fuel => sub_entry_by_index fuel volume v f i) (Ok g) /\
      file_shows (field (mft_bytes volume (cluster_of volume) (entry_of_size volume) runs (fst item mod 2 ^ 48)) 16 2) (fst item mod 2 ^ 48) (Some item) l' g) /\
  (forall i, (length (listed items) <= i)%nat -> ends (fun fuel => sub_entry_by_index fuel volume v f i) Err).
Proof.
  intros volume runs table label information v volume_sound volume_open.
  destruct (opened_volume _ _ _ _ _ _ volume_sound volume_open) as (O & E1 & E2). rewrite <- E1, <- E2 in *.
  intros n l via sequence f items F H D1 D2 C. split; [|split].
  - now apply (number_ok volume runs table v O n l sequence via).
  - intros i item l' Hi F'. now apply (index_ok volume runs table v O n l sequence via items f i item l').
  - intros i Hi. now apply (index_out volume runs table v O n l sequence via items f i).
Qed.
Print Assumptions C54_listing_partial.
(** A name leads to the item with that name, in the case of the directory: the first file
    with it, or none. *)
Theorem C54_name_partial : forall volume runs table label information v,
  volume_ok volume runs table label information -> ends (fun fuel => ntfs_open fuel volume) (Ok v) ->
  forall n l via sequence f items name,
  file volume (cluster_of volume) (entry_of_size volume) runs n l -> file_shows sequence n via l f -> is_directory l = true ->
  directory volume (cluster_of volume) l items -> ordered (compared table l) items ->
  match found (compared table l) name items with
  | Some item => forall l', file volume (cluster_of volume) (entry_of_size volume) runs (fst item mod 2 ^ 48) l' ->
      exists g, ends (fun fuel => sub_entry_by_name fuel volume v f name) (Ok (Some g)) /\
        file_shows (field (mft_bytes volume (cluster_of volume) (entry_of_size volume) runs (fst item mod 2 ^ 48)) 16 2) (fst item mod 2 ^ 48) (Some item) l' g
  | None => ends (fun fuel => sub_entry_by_name fuel volume v f name) (Ok None)
  end.
Proof.
  intros volume runs table label information v volume_sound volume_open.
  destruct (opened_volume _ _ _ _ _ _ volume_sound volume_open) as (O & E1 & E2). rewrite <- E1, <- E2 in *.
  intros n l via sequence f items name F H D1 D2 Ho. destruct (found (compared table l) name items) as [item|] eqn:E.
  - intros l' F'. now apply (by_name volume runs table v O n l sequence via f name items item l').
  - apply (none_by_name volume runs table v O n l sequence via f name items F H). right. auto.
Qed.
Print Assumptions C54_name_partial.
(** A file that is no directory has no sub entries. *)
Theorem C54_no_directory_partial : forall volume runs table label information v,
  volume_ok volume runs table label information -> ends (fun fuel => ntfs_open fuel volume) (Ok v) ->
  forall n l via sequence f, file volume (cluster_of volume) (entry_of_size volume) runs n l -> file_shows sequence n via l f -> is_directory l = false ->
  ends (fun fuel => number_of_sub_entries fuel volume v f) (Ok 0%nat) /\
  (forall i, ends (fun fuel => sub_entry_by_index fuel volume v f i) Err) /\
  (forall name, ends (fun fuel => sub_entry_by_name fuel volume v f name) (Ok None)).
Proof.
  intros volume runs table label information v volume_sound volume_open.
  intros n l via sequence f _ H D. unfold number_of_sub_entries, sub_entry_by_index, sub_entries, sub_entry_by_name.
  rewrite (f_directory _ _ _ _ _ H), D. cbn [negb now obind]. split; [apply ends_now|]. split; intros; apply ends_now.
Qed.
Print Assumptions C54_no_directory_partial.
(** An absolute path leads from the root, entry 5, name by name. *)
Theorem C54_paths_partial : forall volume runs table label information v,
  volume_ok volume runs table label information -> ends (fun fuel => ntfs_open fuel volume) (Ok v) ->
  forall names result,
  leads volume (cluster_of volume) (entry_of_size volume) runs table 5 None names result ->
  exists answer, ends (fun fuel => ntfs_by_path fuel volume v ([] :: names)) (Ok answer) /\
    match result with
    | Some (n, via, l) => exists f, answer = Some f /\ file_shows (field (mft_bytes volume (cluster_of volume) (entry_of_size volume) runs n) 16 2) n via l f
    | None => answer = None
    end.
Proof.
  intros volume runs table label information v volume_sound volume_open.
  destruct (opened_volume _ _ _ _ _ _ volume_sound volume_open) as (O & E1 & E2). rewrite <- E1, <- E2 in *.
  intros names result L. destruct (path_ok volume runs table v O names result L) as (answer & E & G).
  exists answer. split; [exact E|]. destruct result as [[[n via] l]|], answer as [g|]; try contradiction; eauto.
Qed.
Print Assumptions C54_paths_partial.
(** Other paths lead nowhere. *)
Theorem C54_relative_paths : forall volume v path, (forall names, path <> [] :: names) ->
  ends (fun fuel => ntfs_by_path fuel volume v path) (Ok None).
Proof.
  intros volume v [|[|c first] names] H; [apply ends_now|exfalso; now apply (H names)|].
  unfold ntfs_by_path. rewrite len_cons. destruct (N.eqb_spec (len first + 1) 0); [lia|]. apply ends_now.
Qed.
Print Assumptions C54_relative_paths.

(** ** A case *)
(** A volume of 13 clusters of 512 bytes: the boot record, an MFT of 11 entries and a block of
    an index. The root has in its index the files f, in entry 6, and a, in entry 7, the second
    in the block: a symbolic link to f. It is case-sensitive. The upper case table is a hole. *)
Definition fill (n : nat) (l : list N) := firstn n (l ++ repeat 0 n).
Definition att (t : N) (name content : list N) : list N :=
  let o := 24 + 2 * len name in
  let size := (o + len content + 7) / 8 * 8 in
  fill (N.to_nat size) (le_bytes 4 t ++ le_bytes 4 size ++ [0; len name; 24; 0; 0; 0; 0; 0] ++ le_bytes 4 (len content) ++
    le_bytes 2 o ++ [0; 0] ++ flat_map (fun c => [c; 0]) name ++ content).
Definition natt (t : N) (name : list N) (last allocated dsize valid : N) (rs : list N) : list N :=
  let o := 64 + 2 * len name in
  let size := (o + len rs + 7) / 8 * 8 in
  fill (N.to_nat size) (le_bytes 4 t ++ le_bytes 4 size ++ [1; len name; 64; 0; 0; 0; 0; 0] ++ le_bytes 8 0 ++ le_bytes 8 last ++
    le_bytes 2 o ++ [0; 0; 0; 0; 0; 0] ++ le_bytes 8 allocated ++ le_bytes 8 dsize ++ le_bytes 8 valid ++ flat_map (fun c => [c; 0]) name ++ rs).
Definition ent (seq : N) (atts : list N) : list N :=
  fill 510 ([70; 73; 76; 69; 48; 0; 2; 0] ++ le_bytes 8 0 ++ le_bytes 2 seq ++ le_bytes 2 1 ++ le_bytes 2 56 ++ le_bytes 2 1 ++ le_bytes 4 0 ++
    le_bytes 4 512 ++ le_bytes 8 0 ++ le_bytes 8 0 ++ [1; 0; 0; 0; 0; 0; 0; 0] ++ atts ++ [255; 255; 255; 255]) ++ [1; 0].
Definition std (flags version : N) := le_bytes 8 1 ++ le_bytes 8 2 ++ le_bytes 8 3 ++ le_bytes 8 4 ++ le_bytes 4 flags ++ le_bytes 4 0 ++ le_bytes 4 version ++ le_bytes 4 0.
Definition key (name : list N) (space : N) := le_bytes 8 (5 + 5 * 2 ^ 48) ++ le_bytes 8 1 ++ le_bytes 8 2 ++ le_bytes 8 3 ++ le_bytes 8 4 ++ le_bytes 8 0 ++ le_bytes 8 3 ++ le_bytes 4 32 ++ le_bytes 4 0 ++ [len name; space] ++ flat_map (fun c => [c; 0]) name.
Definition val (reference : N) (k : list N) (sub : option N) : list N :=
  let base := (16 + len k + 7) / 8 * 8 in
  match sub with
  | None => fill (N.to_nat base) (le_bytes 8 reference ++ le_bytes 2 base ++ le_bytes 2 (len k) ++ le_bytes 4 0 ++ k)
  | Some vcn => fill (N.to_nat base) (le_bytes 8 reference ++ le_bytes 2 (base + 8) ++ le_bytes 2 (len k) ++ le_bytes 4 1 ++ k) ++ le_bytes 8 vcn
  end.
Definition lastv := le_bytes 8 0 ++ le_bytes 2 16 ++ le_bytes 2 0 ++ le_bytes 4 2.
Definition i30n := [0x24; 0x49; 0x33; 0x30].
Definition bootr := Eval vm_compute in
  fill 512 ([0xeb; 0x52; 0x90; 0x4e; 0x54; 0x46; 0x53; 0x20; 0x20; 0x20; 0x20] ++ le_bytes 2 512 ++ [1] ++ repeat 0 26 ++ le_bytes 8 13 ++ le_bytes 8 1 ++ le_bytes 8 1 ++ le_bytes 4 1 ++ le_bytes 4 1 ++ le_bytes 8 0x1234).
Definition r16 (v : list N) := le_bytes 4 0x30 ++ le_bytes 4 1 ++ le_bytes 4 512 ++ le_bytes 4 1 ++ le_bytes 4 16 ++ le_bytes 4 (16 + len v) ++ le_bytes 4 (16 + len v) ++ le_bytes 4 1 ++ v.
Definition e0 := Eval vm_compute in
  ent 1 (att 0x10 [] (std 6 0) ++ natt 0x80 [] 10 5632 5632 5632 [0x11; 11; 1; 0]).
Definition e3 := Eval vm_compute in
  ent 3 (att 0x10 [] (std 6 0) ++ att 0x60 [] [86; 0; 49; 0] ++ att 0x70 [] (repeat 0 8 ++ [3; 1; 0; 0])).
Definition e5 := Eval vm_compute in
  ent 5 (att 0x10 [] (std 6 1) ++ att 0x90 i30n (r16 (val (6 + 6 * 2 ^ 48) (key [102] 3) (Some 0) ++ lastv)) ++ natt 0xa0 i30n 0 512 512 512 [0x11; 1; 12; 0]).
Definition e6 := Eval vm_compute in
  ent 6 (att 0x10 [] (std 32 0) ++ att 0x80 [] [102; 111; 111]).
Definition e7 := Eval vm_compute in
  ent 7 (att 0x10 [] (std 32 0) ++ att 0xc0 [] (le_bytes 4 0xa000000c ++ le_bytes 4 16 ++ le_bytes 2 0 ++ le_bytes 2 2 ++ le_bytes 2 2 ++ le_bytes 2 2 ++ le_bytes 4 0 ++ [102; 0; 102; 0])).
Definition e10 := Eval vm_compute in
  ent 10 (att 0x10 [] (std 6 0) ++ natt 0x80 [] 255 131072 131072 0 [0x02; 0; 1; 0]).
Definition indx := Eval vm_compute in
  let v := val (7 + 7 * 2 ^ 48) (key [97] 3) None ++ lastv in
  fill 510 ([0x49; 0x4e; 0x44; 0x58; 40; 0; 2; 0] ++ le_bytes 8 0 ++ le_bytes 8 0 ++ le_bytes 4 24 ++ le_bytes 4 (24 + len v) ++ le_bytes 4 488 ++ le_bytes 4 0 ++ [1; 0; 0; 0; 0; 0; 0; 0] ++ v) ++ [1; 0].
Definition unused_entry := Eval vm_compute in
  ent 1 [].
Definition vol : list N := bootr ++ e0 ++ unused_entry ++ unused_entry ++ e3 ++ unused_entry ++ e5 ++ e6 ++ e7 ++ unused_entry ++ unused_entry ++ e10 ++ indx.

Definition mft_runs : list run := [Allocated 11 1].
Definition attributes_of (e : list N) (os : list nat) (ns : list (nat * run)) : list mft_attribute :=
  map (fun o => resident_of (skipn o (entry_record e))) os ++
  map (fun o => non_resident_of (skipn (fst o) (entry_record e)) (map as_data_run [snd o])) ns.
Definition l0 := Eval vm_compute in attributes_of e0 [56]%nat [(128%nat, Allocated 11 1)].
Definition l3 := Eval vm_compute in attributes_of e3 [56; 128; 160]%nat [].
Definition l5 := Eval vm_compute in attributes_of e5 [56; 128]%nat [(304%nat, Allocated 1 12)].
Definition l6 := Eval vm_compute in attributes_of e6 [56; 128]%nat [].
Definition l7 := Eval vm_compute in attributes_of e7 [56; 128]%nat [].
Definition l10 := Eval vm_compute in attributes_of e10 [56]%nat [(128%nat, Hole 256)].
Lemma entries : forall n e, In (n, e) [(0, e0); (3, e3); (5, e5); (6, e6); (7, e7); (10, e10)] ->
  mft_bytes vol 512 512 mft_runs n = e.
Proof.
  cbn [In]. intros n e H. repeat (destruct H as [H|H]; [injection H as <- <-; vm_compute; reflexivity|]). destruct H.
Qed.
Lemma entries_ok : Forall entry_ok [e0; e3; e5; e6; e7; e10].
Proof.
  repeat apply Forall_cons; try apply Forall_nil; unfold entry_ok, record_ok; repeat match goal with |- _ /\ _ => split end;
    try (vm_compute; (reflexivity || discriminate));
    (intros k Hk; change (k < 1) in Hk; assert (k = 0) as -> by lia; split; vm_compute; reflexivity).
Qed.
Ltac all_attributes := match goal with |- attributes_from ?e ?o ?l' =>
  let H := fresh in assert (H : exists l, attributes_from e o l /\ l = l'); [eexists; split|destruct H as (? & H & <-); exact H] end.
Ltac no_more := apply attributes_end; vm_compute; (reflexivity || discriminate).
Lemma a0 : attributes_from (entry_record e0) 56 l0.
Proof.
  all_attributes.
  - next_resident. next_runs [Allocated 11 1] [0x11; 11; 1]; [|no_more].
    apply (encoded_allocated 0 11 1 1 1 [] []); [lia|lia|reflexivity|unfold two63; lia|cbn; lia|constructor].
  - vm_compute. reflexivity.
Qed.
Lemma a3 : attributes_from (entry_record e3) 56 l3.
Proof. all_attributes; [next_resident; next_resident; next_resident; no_more|vm_compute; reflexivity]. Qed.
Lemma a5 : attributes_from (entry_record e5) 56 l5.
Proof.
  all_attributes.
  - next_resident. next_resident. next_runs [Allocated 1 12] [0x11; 1; 12]; [|no_more].
    apply (encoded_allocated 0 1 12 1 1 [] []); [lia|lia|reflexivity|unfold two63; lia|cbn; lia|constructor].
  - vm_compute. reflexivity.
Qed.
Lemma a6 : attributes_from (entry_record e6) 56 l6.
Proof. all_attributes; [next_resident; next_resident; no_more|vm_compute; reflexivity]. Qed.
Lemma a7 : attributes_from (entry_record e7) 56 l7.
Proof. all_attributes; [next_resident; next_resident; no_more|vm_compute; reflexivity]. Qed.
Lemma a10 : attributes_from (entry_record e10) 56 l10.
Proof.
  all_attributes.
  - next_resident. next_runs [Hole 256] [0x02; 0; 1]; [|no_more].
    apply (encoded_hole 0 256 2 [] []); [lia|reflexivity|constructor].
  - vm_compute. reflexivity.
Qed.
Ltac sound_list := split;
  [repeat (apply FOP_cons; [repeat apply Forall_cons; try apply Forall_nil|]); try apply FOP_nil;
     unfold compatible; cbn [ma_type ma_name ma_non_resident]; intros; (discriminate || congruence)
  |unfold resident; repeat apply Forall_cons; try apply Forall_nil;
     cbn [ma_type ma_name ma_non_resident ma_resident_data]; (split; [|split]); intros; try discriminate;
     (split; [reflexivity|split; [reflexivity|vm_compute; (reflexivity || discriminate)]])].
Lemma sound_all : sound l0 /\ sound l3 /\ sound l5 /\ sound l6 /\ sound l7 /\ sound l10.
Proof. repeat match goal with |- _ /\ _ => split end; unfold l0, l3, l5, l6, l7, l10; sound_list. Qed.
Ltac no_list := repeat apply Forall_cons; try apply Forall_nil; cbn [ma_type]; discriminate.
Lemma files : file vol 512 512 mft_runs 5 l5 /\ file vol 512 512 mft_runs 6 l6 /\ file vol 512 512 mft_runs 7 l7.
Proof.
  pose proof entries_ok as K. rewrite Forall_forall in K. destruct sound_all as (_ & _ & S5 & S6 & S7 & _).
  split; [|split]; apply file_one; try assumption; try no_list; unfold entry_has.
  - rewrite (entries 5 e5) by (cbn; tauto). split; [vm_compute; discriminate|]. split; [apply K; cbn; tauto|exact a5].
  - rewrite (entries 6 e6) by (cbn; tauto). split; [vm_compute; discriminate|]. split; [apply K; cbn; tauto|exact a6].
  - rewrite (entries 7 e7) by (cbn; tauto). split; [vm_compute; discriminate|]. split; [apply K; cbn; tauto|exact a7].
Qed.
Definition upper : list N := bytes_at (attribute_content vol 512 [Hole 256] 131072 0) 0 131072.
Lemma vol_cluster : cluster_of vol = 512 /\ entry_of_size vol = 512 /\ nb_mft_block (boot vol) = 1.
Proof. vm_compute. auto. Qed.
Example C54_case_volume : volume_ok vol mft_runs upper (Some [86; 49]) (Some (3, 1, 0)).
Proof.
  destruct vol_cluster as (Ec & Ee & Em). destruct sound_all as (S0 & S3 & _ & _ & _ & S10).
  pose proof entries_ok as K. rewrite Forall_forall in K. split; rewrite ?Ec, ?Ee, ?Em.
  - split; [apply wf_bytesb_iff; vm_compute; reflexivity|vm_compute; reflexivity].
  - repeat match goal with |- _ /\ _ => split end; vm_compute; (reflexivity || discriminate).
  - exists l0, (nth 1 l0 (nth 0 l0 (resident_of []))), 10. cbn zeta.
    change (bytes_at vol (1 * 512) 512) with e0 || (assert (E0 : bytes_at vol (1 * 512) 512 = e0) by (vm_compute; reflexivity); rewrite E0).
    split; [vm_compute; discriminate|]. split; [apply K; cbn; tauto|]. split; [exact a0|]. split; [split; [exact S0|no_list]|].
    split; [reflexivity|]. split; [reflexivity|]. split; [reflexivity|]. split; [reflexivity|]. split; [right; reflexivity|].
    split; [repeat constructor|]. split; [apply Forall_cons; [|apply Forall_nil]; split; vm_compute; (reflexivity || discriminate)|].
    split; [apply Forall_cons; [|apply Forall_nil]; reflexivity|]. split; [vm_compute; discriminate|]. split; vm_compute; reflexivity.
  - exists l3. unfold entry_has. rewrite (entries 3 e3) by (cbn; tauto).
    split; [split; [vm_compute; discriminate|split; [apply K; cbn; tauto|exact a3]]|]. split; [split; [exact S3|no_list]|]. split; right.
    + exists (nth 1 l3 (resident_of [])). repeat match goal with |- _ /\ _ => split end; vm_compute; reflexivity.
    + exists (nth 2 l3 (resident_of [])). repeat match goal with |- _ /\ _ => split end; vm_compute; (reflexivity || discriminate).
  - exists l10, (nth 1 l10 (resident_of [])), [Hole 256]. unfold entry_has. rewrite (entries 10 e10) by (cbn; tauto).
    split; [split; [vm_compute; discriminate|split; [apply K; cbn; tauto|exact a10]]|]. split; [split; [exact S10|no_list]|].
    split; [|split; [vm_compute; discriminate|split; [vm_compute; discriminate|split; [split; [vm_compute; discriminate|vm_compute; reflexivity]|]]]].
    2: { change (ma_data_size (nth 1 l10 (resident_of []))) with 131072. change (ma_valid (nth 1 l10 (resident_of []))) with 0.
         unfold upper. reflexivity. }
    + exists (nth 1 l10 (resident_of [])), (ma_groups (nth 1 l10 (resident_of []))).
      split; [reflexivity|]. split; [reflexivity|]. split; [reflexivity|]. split; [left; reflexivity|].
      split; [eexists; split; reflexivity|]. split; [apply Permutation_refl|]. split; [repeat constructor; intros []|].
      split; [apply (grouped_cons 0 [Hole 256] [] 255 []); [right; reflexivity|constructor]|].
      split; [apply Forall_cons; [|apply Forall_nil]; split; [reflexivity|exact Logic.I]|]. split; vm_compute; discriminate.
Qed.
Definition root_index : list N := Eval vm_compute in ma_resident_data (nth 1 l5 (resident_of [])).
Definition index_record : list N := Eval vm_compute in record_of indx 40.
Definition item_f : N * file_name := Eval vm_compute in (field root_index 32 8, file_name_of (key_bytes root_index 32)).
Definition item_a : N * file_name := Eval vm_compute in (field index_record 48 8, file_name_of (key_bytes index_record 48)).
Ltac computed := unfold value_ok; repeat match goal with |- _ /\ _ => split end; vm_compute; (reflexivity || discriminate).
Lemma root_items : directory vol 512 l5 [item_a; item_f].
Proof.
  assert (Hq : exists q, in_clusters vol 512 l5 i30 0xa0 q [Allocated 1 12]).
  { exists (nth 2 l5 (resident_of [])), (nth 2 l5 (resident_of [])), (ma_groups (nth 2 l5 (resident_of []))).
    split; [reflexivity|]. split; [reflexivity|]. split; [reflexivity|]. split; [left; reflexivity|].
    split; [eexists; split; reflexivity|]. split; [apply Permutation_refl|]. split; [repeat constructor; intros []|].
    split; [apply (grouped_cons 0 [Allocated 1 12] [] 0 []); [right; reflexivity|constructor]|].
    split; [apply Forall_cons; [|apply Forall_nil]; split; vm_compute; (reflexivity || discriminate)|]. split; vm_compute; discriminate. }
  apply (directory_index vol 512 l5 (nth 1 l5 (resident_of [])) [Allocated 1 12] [item_a; item_f]);
    [reflexivity|reflexivity|vm_compute; reflexivity|vm_compute; reflexivity|..].
  - split; vm_compute; discriminate.
  - right. split; [exact Hq|]. split; [repeat constructor|]. split; vm_compute; discriminate.
  - change (ma_resident_data (nth 1 l5 (resident_of []))) with root_index. change (field root_index 8 4) with 512.
    assert (Hi : index_block vol 512 512 [Allocated 1 12] 0 index_record).
    { exists [], (Allocated 1 12), []. split; [reflexivity|]. split; [vm_compute; discriminate|]. split; [vm_compute; discriminate|]. cbn zeta.
      assert (E : bytes_at (flat_map (run_content vol 512) [Allocated 1 12]) (0 * 512) 512 = indx) by (vm_compute; reflexivity). rewrite E.
      split; [vm_compute; reflexivity|]. split; [vm_compute; discriminate|]. split; [|vm_compute; reflexivity].
      unfold record_ok. split; [vm_compute; reflexivity|]. split; [vm_compute; reflexivity|]. split; [vm_compute; reflexivity|].
      split; [vm_compute; discriminate|]. intros k Hk. change (k < 1) in Hk. assert (k = 0) as -> by lia. split; vm_compute; reflexivity. }
    assert (Ha : node_items vol 512 512 [Allocated 1 12] index_record 24 [item_a]).
    { apply node_values; [vm_compute; discriminate|vm_compute; discriminate|vm_compute; reflexivity|vm_compute; discriminate|].
      apply (values_more vol 512 512 [Allocated 1 12] index_record 152 48 [] 136 []);
        [computed|computed|computed| |computed|computed|computed|computed|].
      - apply sub_none. reflexivity.
      - apply values_last; [reflexivity|computed|reflexivity|apply sub_none; reflexivity]. }
    apply node_values; [vm_compute; discriminate|vm_compute; discriminate|vm_compute; reflexivity|vm_compute; discriminate|].
    apply (values_more vol 512 512 [Allocated 1 12] root_index 144 32 [item_a] 128 []);
      [computed|computed|computed| |computed|computed|computed|computed|].
    + apply (sub_node vol 512 512 [Allocated 1 12] root_index 32 index_record); [reflexivity|vm_compute; discriminate|exact Hi|exact Ha].
    + apply values_last; [reflexivity|computed|reflexivity|apply sub_none; reflexivity].
Qed.
Lemma root_compared : compared upper l5 = fun name => name.
Proof. unfold compared. assert (E : case_sensitive l5 = true) by (vm_compute; reflexivity). rewrite E. reflexivity. Qed.
Lemma root_ordered : ordered (compared upper l5) [item_a; item_f].
Proof.
  rewrite root_compared.
  apply SSorted_cons; [apply SSorted_cons; [apply SSorted_nil|apply Forall_nil]|]. apply Forall_cons; [|apply Forall_nil].
  change (lex_lt [97] [102]). constructor. reflexivity.
Qed.
(** The files by path, and what the root lists. *)
Example C54_case_paths : exists v, ends (fun fuel => ntfs_open fuel vol) (Ok v) /\
  (exists f, ends (fun fuel => ntfs_by_path fuel vol v [[]; [102]]) (Ok (Some f)) /\ fe_number f = 6 /\ fe_size f = 3) /\
  (exists f, ends (fun fuel => ntfs_by_path fuel vol v [[]; [97]]) (Ok (Some f)) /\ fe_number f = 7 /\ fe_link_target f = Some [102]) /\
  ends (fun fuel => ntfs_by_path fuel vol v [[]; [103]]) (Ok None).
Proof.
  destruct (C54_open_partial _ _ _ _ _ C54_case_volume) as (v & E & _). exists v. split; [exact E|].
  destruct vol_cluster as (Ec & Ee & _). destruct files as (F5 & F6 & F7).
  pose proof (C54_paths_partial _ _ _ _ _ v C54_case_volume E) as P. rewrite Ec, Ee in P.
  assert (X : forall name, found (compared upper l5) name [item_a; item_f] = found (fun name => name) name [item_a; item_f]) by now rewrite root_compared.
  split; [|split].
  - destruct (P [[102]] (Some (6, Some item_f, l6))) as (answer & A & f & -> & S).
    { apply (leads_into _ _ _ _ _ _ _ l5 [item_a; item_f] [102] item_f); [exact F5|reflexivity|exact root_items|exact root_ordered|rewrite X; vm_compute; reflexivity|].
      now apply (leads_here vol 512 512 mft_runs upper 6 (Some item_f) l6). }
    exists f. split; [exact A|]. split; [apply S|]. rewrite (f_size _ _ _ _ _ S (nth 1 l6 (resident_of []))); [reflexivity|left; reflexivity|left; reflexivity].
  - destruct (P [[97]] (Some (7, Some item_a, l7))) as (answer & A & f & -> & S).
    { apply (leads_into _ _ _ _ _ _ _ l5 [item_a; item_f] [97] item_a); [exact F5|reflexivity|exact root_items|exact root_ordered|rewrite X; vm_compute; reflexivity|].
      now apply (leads_here vol 512 512 mft_runs upper 7 (Some item_a) l7). }
    exists f. split; [exact A|]. split; [apply S|]. rewrite (f_target _ _ _ _ _ S). vm_compute. reflexivity.
  - destruct (P [[103]] None) as (answer & A & ->); [|exact A].
    apply (leads_nowhere _ _ _ _ _ _ _ l5 [item_a; item_f]); [exact F5|reflexivity|exact root_items|exact root_ordered|rewrite X; vm_compute; reflexivity].
Qed.
Example C54_case_listing : can_list [item_a; item_f] /\ listed [item_a; item_f] = [item_a; item_f] /\ is_directory l5 = true.
Proof.
  split; [|split; vm_compute; reflexivity]. split; [|vm_compute; constructor].
  repeat apply Forall_cons; try apply Forall_nil; intros _; eexists; reflexivity.
Qed.

(** ** What does not hold *)
(** The short name of a file is never reported, whatever the directory says. *)
Lemma listed_without_short volume d : forall fuel data o e s s', Forall (fun x => de_short x = None) (ds_entries s) ->
  list_values fuel volume d data o e s = Some (Ok s') -> Forall (fun x => de_short x = None) (ds_entries s').
Proof.
  induction fuel as [|fuel IH]; intros data o e s s' Hs; cbn [list_values]; destruct (o <? e).
  - discriminate.
  - intros [= <-]. exact Hs.
  - destruct (node_value data o e) as [[[[v k] a] n]| |]; cbn [now obind]; try discriminate.
    set (sub := if is_branch v then _ else _). destruct sub as [[s1| |]|] eqn:Esub; cbn [obind]; try discriminate. subst sub.
    assert (H1 : Forall (fun x => de_short x = None) (ds_entries s1)).
    { destruct (is_branch v); [|injection Esub as <-; exact Hs].
      destruct (node_branch_read data a n) as [vcn| |]; cbn [now obind] in Esub; try discriminate.
      destruct (index_entry_at volume d vcn) as [block| |]; cbn [now obind] in Esub; try discriminate.
      destruct (node_header_read block 24) as [[size vo]| |]; cbn [now obind] in Esub; try discriminate.
      destruct (size =? 0); [injection Esub as <-; exact Hs|]. exact (IH _ _ _ _ _ Hs Esub). }
    destruct (is_last v); [intros [= <-]; exact H1|].
    destruct (node_key_read data k (iv_key_size v)) as [f| |]; cbn [now obind]; try discriminate.
    destruct (add_directory_entry s1 (iv_file_reference v) f) as [s2| |] eqn:E2; cbn [now obind]; try discriminate.
    intros E. apply (IH _ _ _ _ _) in E; [exact E|]. unfold add_directory_entry in E2.
    apply bind_Ok_inv in E2 as (dot & _ & E2). destruct dot; [injection E2 as <-; exact H1|].
    destruct (fn_name_space f =? 2).
    + destruct (short_of s1 (iv_file_reference v)); [discriminate|]. injection E2 as <-. exact H1.
    + injection E2 as <-. cbn [ds_entries]. apply Forall_app. split; [exact H1|]. repeat constructor.
  - intros [= <-]. exact Hs.
Qed.
Theorem C54_short_names_refuted : forall fuel volume v f i g, sub_entry_by_index fuel volume v f i = Some (Ok g) ->
  exists de, fe_directory_entry g = Some de /\ de_short de = None.
Proof.
  intros fuel volume v f i g. unfold sub_entry_by_index, sub_entries. destruct (negb (fe_is_directory f)); [discriminate|].
  destruct (directory_index_of _ _) as [d| |]; cbn [now obind]; try discriminate.
  unfold list_entries. destruct (node_header_read _ _) as [[size vo]| |]; cbn [now obind]; try discriminate.
  set (listing := if size =? 0 then _ else _). destruct listing as [[s| |]|] eqn:El; cbn [obind]; try discriminate. subst listing.
  assert (Hs : Forall (fun x => de_short x = None) (ds_entries s)).
  { destruct (size =? 0); [injection El as <-; constructor|]. eapply listed_without_short; [|exact El]. constructor. }
  destruct (directory_entry_by_index s i) as [de| |] eqn:Ed; cbn [now obind]; try discriminate.
  assert (Hd : de_short de = None).
  { unfold directory_entry_by_index in Ed. destruct (nth_error (ds_entries s) i) as [x|] eqn:Ex; [|discriminate]. cbn [of_option bind] in Ed.
    apply nth_error_In in Ex. rewrite Forall_forall in Hs. rewrite (Hs _ Ex), andb_false_r in Ed. injection Ed as <-. now apply Hs. }
  unfold entry_of. destruct (get_entry _ _ _) as [e| |]; cbn [now obind]; try discriminate.
  unfold file_entry_of. destruct (read_attributes fuel e no_attributes) as [[s1| |]|]; cbn [obind]; try discriminate.
  match goal with |- obind ?m _ = _ -> _ => destruct m as [[s2| |]|] end; cbn [now obind]; try discriminate.
  intros [= <-]. cbn [fe_directory_entry]. eauto.
Qed.
Print Assumptions C54_short_names_refuted.

(** A block of an index whose first value has the block itself as its sub node: neither the
    listing nor the search for a name before that value ever ends. *)
Definition cyclic_block : list N := Eval vm_compute in
  let v := val (7 + 7 * 2 ^ 48) (key [97] 3) (Some 0) ++ lastv in
  fill 510 ([0x49; 0x4e; 0x44; 0x58; 40; 0; 2; 0] ++ le_bytes 8 0 ++ le_bytes 8 0 ++ le_bytes 4 24 ++ le_bytes 4 (24 + len v) ++ le_bytes 4 488 ++
    le_bytes 4 0 ++ [1; 0; 0; 0; 0; 0; 0; 0] ++ v) ++ [1; 0].
Definition cyclic : list N := Eval vm_compute in firstn 6144 vol ++ cyclic_block.
Definition cyclic_record : list N := Eval vm_compute in record_of cyclic_block 40.
Definition root_opened : res NtfsFs_model.directory_index := Eval vm_compute in
  match mft_entry_read e5 with
  | Ok e => match read_attributes 10 e no_attributes with Some (Ok s) => directory_index_of 512 s | _ => Err end
  | _ => Err
  end.
Theorem C54_cycle_never_ends : exists d, root_opened = Ok d /\
  never_ends (fun fuel => list_entries fuel cyclic d) /\
  never_ends (fun fuel => search_name fuel cyclic (fun _ => None) d [65]).
Proof.
  eexists. split; [reflexivity|]. match goal with |- context [list_entries _ cyclic ?x] => set (d := x) end.
  assert (B : index_entry_at cyclic d 0 = Ok cyclic_record) by (vm_compute; reflexivity).
  assert (H : node_header_read cyclic_record 24 = Ok (136, 24)) by (vm_compute; reflexivity).
  assert (H' : node_header_read (di_root d) 16 = Ok (128, 16)) by (vm_compute; reflexivity).
  destruct (node_value cyclic_record 48 160) as [[[[v k] a] n]| |] eqn:Ev; [|vm_compute in Ev; discriminate..].
  assert (Hv : is_branch v = true /\ is_last v = false /\ node_branch_read cyclic_record a n = Ok 0 /\ iv_key_size v =? 0 = false /\
    exists f, node_key_read cyclic_record k (iv_key_size v) = Ok f /\ ucs2_compare (fn_name f) [65] = Gt).
  { vm_compute in Ev. injection Ev as <- <- <- <-. repeat match goal with |- _ /\ _ => split end; try (vm_compute; reflexivity).
    eexists. split; vm_compute; reflexivity. }
  destruct Hv as (Hb & Hl & Hr & Hk & f & Hf & Hg).
  destruct (node_value (di_root d) 32 144) as [[[[v' k'] a'] n']| |] eqn:Ev'; [|vm_compute in Ev'; discriminate..].
  assert (Hv' : is_branch v' = true /\ is_last v' = false /\ node_branch_read (di_root d) a' n' = Ok 0 /\ iv_key_size v' =? 0 = false /\
    exists f, node_key_read (di_root d) k' (iv_key_size v') = Ok f /\ ucs2_compare (fn_name f) [65] = Gt).
  { vm_compute in Ev'. injection Ev' as <- <- <- <-. repeat match goal with |- _ /\ _ => split end; try (vm_compute; reflexivity).
    eexists. split; vm_compute; reflexivity. }
  destruct Hv' as (Hb' & Hl' & Hr' & Hk' & f' & Hf' & Hg').
  assert (Hd : di_folding d = false) by reflexivity. clearbody d. split.
  - assert (L : forall fuel s, list_values fuel cyclic d cyclic_record 48 160 s = None).
    { induction fuel as [|fuel IH]; intros s; cbn [list_values]; change (48 <? 160) with true; cbv iota; [reflexivity|].
      rewrite Ev. cbn [now obind]. rewrite Hb, Hr. cbn [now obind]. rewrite B. cbn [now obind]. rewrite H. cbn [now obind].
      change (136 =? 0) with false. cbv iota. change (24 + 24) with 48. change (24 + 136) with 160. rewrite IH. reflexivity. }
    intros fuel. unfold list_entries. rewrite H'. cbn [now obind]. change (128 =? 0) with false. cbv iota.
    change (16 + 16) with 32. change (16 + 128) with 144. destruct fuel as [|fuel]; cbn [list_values]; change (32 <? 144) with true; cbv iota; [reflexivity|].
    rewrite Ev'. cbn [now obind]. rewrite Hb', Hr'. cbn [now obind]. rewrite B. cbn [now obind]. rewrite H. cbn [now obind].
    change (136 =? 0) with false. cbv iota. change (24 + 24) with 48. change (24 + 136) with 160. rewrite L. reflexivity.
  - unfold search_name, fold_name. rewrite Hd.
    assert (L : forall fuel, search_node fuel (fun n => n) cyclic d cyclic_record 24 [65] = None).
    { induction fuel as [|fuel IH]; cbn [search_node]; [reflexivity|]. rewrite H. cbn [now obind].
      change (136 =? 0) with false. cbv iota. change (24 + 24) with 48. change (24 + 136) with 160.
      destruct fuel as [|fuel]; cbn [search_values]; change (48 <? 160) with true; cbv iota; [reflexivity|].
      rewrite Ev. cbn [now obind]. rewrite Hl, Hk, Hf. cbn [now obind]. rewrite Hg, Hb. cbn [now obind]. rewrite Hr. cbn [now obind].
      rewrite B. cbn [now obind]. exact IH. }
    intros fuel. destruct fuel as [|fuel]; cbn [search_node]; [reflexivity|]. rewrite H'. cbn [now obind].
    change (128 =? 0) with false. cbv iota. change (16 + 16) with 32. change (16 + 128) with 144.
    destruct fuel as [|fuel]; cbn [search_values]; change (32 <? 144) with true; cbv iota; [reflexivity|].
    rewrite Ev'. cbn [now obind]. rewrite Hl', Hk', Hf'. cbn [now obind]. rewrite Hg', Hb'. cbn [now obind]. rewrite Hr'. cbn [now obind].
    rewrite B. cbn [now obind]. exact (L (S fuel)).
Qed.
Print Assumptions C54_cycle_never_ends.
(** A value that is smaller than its header and key: a listing that comes to it panics. *)
Theorem C54_small_value_panics : forall fuel volume d data o e s, buffer data -> o + 16 <= e -> o + 16 <= len data ->
  o + 16 + field data (o + 10) 2 <= e -> o + field data (o + 8) 2 <= len data ->
  field data (o + 8) 2 < 16 + field data (o + 10) 2 ->
  list_values (S fuel) volume d data o e s = Some Panic.
Proof.
  intros fuel volume d data o e s Hb H1 H2 H5 H4 H3. cbn [list_values]. destruct (N.ltb_spec o e); [|lia].
  enough (E : node_value data o e = Panic) by now rewrite E.
  unfold node_value, node_value_read. destruct (N.leb_spec (o + 16) e); [|lia]. cbn [check bind]. rewrite slice_rest by lia. cbn [bind].
  rewrite (index_value_ok' _ (buffer_skip _ _ Hb) Logic.I). rewrite len_skip, N2Nat.id. destruct (N.leb_spec 16 (len data - o)); [|lia]. cbn [bind].
  unfold sub_chk at 1. destruct (N.leb_spec o (len data)); [|lia]. cbn [bind].
  unfold index_value_of. cbn [iv_size iv_key_size]. rewrite !field_skip.
  destruct (N.leb_spec (field data (o + 8) 2) (len data - o)); [|lia]. cbn [check bind].
  cbn zeta. cbn [iv_size iv_key_size]. rewrite ?field_skip.
  assert (E : (if 0 <? field data (o + 10) 2 then check (o + 16 + field data (o + 10) 2 <=? e) ;;; Ok (o + 16 + field data (o + 10) 2) else Ok (o + 16))
    = Ok (o + 16 + field data (o + 10) 2)).
  { destruct (N.ltb_spec 0 (field data (o + 10) 2)).
    - destruct (N.leb_spec (o + 16 + field data (o + 10) 2) e); [reflexivity|lia].
    - f_equal. lia. }
  rewrite E. cbn [bind]. unfold sub_chk. destruct (N.leb_spec 16 (field data (o + 8) 2)); cbn [bind]; [|reflexivity].
  destruct (N.leb_spec (field data (o + 10) 2) (field data (o + 8) 2 - 16)); [lia|]. reflexivity.
Qed.
Print Assumptions C54_small_value_panics.
(** A name of one character of which no byte is there: listing it panics. *)
Theorem C54_absent_name_panics : forall data s reference, buffer data -> len data = 66 -> byte data 64 = 1 ->
  (f <- file_name_read data ;; add_directory_entry s reference f) = Panic.
Proof.
  intros data s reference Hb Hl Hn. rewrite (file_name_ok' _ Hb Logic.I). unfold file_name_ok. rewrite Hl, N.eqb_refl. cbn [bind andb orb N.leb N.compare].
  change (66 <=? 66) with true. cbn [andb bind].
  unfold add_directory_entry, file_name_of. cbn [fn_name_size fn_name]. rewrite Hn, Hl. reflexivity.
Qed.
Print Assumptions C54_absent_name_panics.
(** A block of an index in two runs cannot be read. *)
Theorem C54_split_block_refuted : exists t d, index_groups 512 [{| first_vcn := 0; last_vcn := 1; data_runs := map as_data_run [Allocated 1 12; Allocated 1 11] |}]
    (bt_new 1024 0 512) 0 0 = Ok t /\ di_tree d = t /\ di_cluster d = 512 /\ di_entry_size d = 1024 /\
  forall volume, index_entry_at volume d 0 = Err.
Proof.
  eexists. exists {| di_cluster := 512; di_entry_size := 1024; di_root := []; di_folding := false; di_tree :=
    match index_groups 512 [{| first_vcn := 0; last_vcn := 1; data_runs := map as_data_run [Allocated 1 12; Allocated 1 11] |}] (bt_new 1024 0 512) 0 0 with
    | Ok t => t | _ => bt_new 0 0 0 end |}. split; [vm_compute; reflexivity|]. repeat split.
Qed.
Print Assumptions C54_split_block_refuted.
