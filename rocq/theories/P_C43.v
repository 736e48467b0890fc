(** * C43: reading any of the on-disk header structures from a buffer of any length and content
    returns a value or an error and never panics, and accepts only data that carries the
    structure's signature.

    [decodes read ok value] says it for one structure: on every buffer, [read] gives [value] of
    the bytes if these are [ok], and an error otherwise. What is ok and what is the value are
    stated in Headers_spec.v and Headers2_spec.v as positions of numbers and texts. *)
From Verif Require Import Base BaseLemmas Bytes_model Uuid_model Checksums_spec Strings_model Streams_spec Part_spec Part_model Ext_model Sparse_model Vhd_model Qcow_model Udif_model Ewf_model Headers_model Headers_spec Headers_proofs Headers2_model Headers2_spec Headers2_proofs.

(** ** NTFS *)
Theorem C43_ntfs_structures :
  decodes mft_entry_header_read mft_entry_header_ok mft_entry_header_of /\
  decodes index_entry_header_read index_entry_header_ok index_entry_header_of /\
  decodes index_node_header_read (fun d => 16 <=? len d) index_node_header_of /\
  decodes index_root_header_read (fun d => 16 <=? len d) index_root_header_of /\
  decodes index_value_read (fun d => 16 <=? len d) index_value_of /\
  decodes reparse_header_read (fun d => 8 <=? len d) reparse_header_of /\
  decodes wof_reparse_read (fun d => len d =? 16) (fun d => field d 12 4) /\
  decodes attribute_header_read (fun d => 16 <=? len d) attribute_header_of /\
  decodes attribute_resident_read (fun d => 8 <=? len d) attribute_resident_of /\
  decodes attribute_non_resident_read attribute_non_resident_ok attribute_non_resident_of /\
  decodes attribute_list_entry_read (fun d => 26 <=? len d) attribute_list_entry_of /\
  decodes volume_information_read (fun d => 12 <=? len d) volume_information_of /\
  decodes standard_information_read (fun d => 48 <=? len d) standard_information_of /\
  decodes file_name_read file_name_ok file_name_of.
Proof.
  repeat match goal with |- _ /\ _ => split end.
  - exact mft_entry_header_ok'.
  - exact index_entry_header_ok'.
  - exact index_node_header_ok'.
  - exact index_root_header_ok'.
  - exact index_value_ok'.
  - exact reparse_header_ok'.
  - exact wof_reparse_ok'.
  - exact attribute_header_ok'.
  - exact attribute_resident_ok'.
  - exact attribute_non_resident_ok'.
  - exact attribute_list_entry_ok'.
  - exact volume_information_ok'.
  - exact standard_information_ok'.
  - exact file_name_ok'.
Qed.
Print Assumptions C43_ntfs_structures.

(** The boot record, unless the size of an MFT entry or of an index entry is stated as 224. *)
Theorem C43_ntfs_boot_record_partial :
  decodes_if (fun d => field d 64 4 <> 224 /\ field d 68 4 <> 224) ntfs_boot_read ntfs_boot_ok ntfs_boot_of.
Proof. exact ntfs_boot_ok'. Qed.
Print Assumptions C43_ntfs_boot_record_partial.

Definition patch (data : list N) (o : N) (bytes : list N) : list N :=
  firstn (N.to_nat o) data ++ bytes ++ skipn (N.to_nat o + length bytes) data.
Definition patches (data : list N) (l : list (N * list N)) : list N := fold_left (fun d p => patch d (fst p) (snd p)) l data.
Definition ntfs_magic : list N := [0x4e; 0x54; 0x46; 0x53; 0x20; 0x20; 0x20; 0x20].
Definition ntfs_boot_example (mft index : N) : list N :=
  patches (repeat 0 512) [(3, ntfs_magic); (11, [0; 2]); (13, [8]); (40, [0; 1]); (48, [4]); (56, [8]); (64, [mft]); (68, [index]); (72, [7])].
Definition boot_246 : list N := Eval vm_compute in ntfs_boot_example 246 1.
Definition boot_224 : list N := Eval vm_compute in ntfs_boot_example 224 1.
Example C43_ntfs_boot_example : ntfs_boot_ok boot_246 = true /\
  ntfs_boot_of boot_246 = {| nb_bytes_per_sector := 512; nb_cluster_block_size := 4096; nb_mft_block := 4; nb_mirror_mft_block := 8;
    nb_mft_entry_size := 1024; nb_index_entry_size := 4096; nb_serial := 7 |}.
Proof. vm_compute. split; reflexivity. Qed.
(** A boot record that is as it should be but for that size: a panic. *)
Theorem C43_ntfs_boot_record_refuted :
  wf_bytes boot_224 /\ len boot_224 = 512 /\ ntfs_boot_read boot_224 = Panic.
Proof. split; [apply wf_bytesb_iff; vm_compute; reflexivity|split; vm_compute; reflexivity]. Qed.
Print Assumptions C43_ntfs_boot_record_refuted.

(** An attribute list: either one of its entries has size zero and reading it never ends, or
    reading it ends within as many turns as it has bytes, and one more, with the entries that
    follow one another, or with an error if there is no such sequence of entries. *)
Theorem C43_ntfs_attribute_list_partial : forall data, buffer data ->
  ~ attribute_list_stuck data ->
  exists r, attribute_list_loop (S (length data)) data 0 = Some r /\ r <> Panic /\
    forall entries, r = Ok entries <-> attribute_list data entries.
Proof.
  intros data Hb H. destruct (attribute_list_ends data Hb (S (length data)) 0 ltac:(unfold len; lia)) as [S|[r E]]; [contradiction|].
  exists r. split; [exact E|]. destruct (attribute_list_value data Hb _ _ _ E) as (P & _ & V). split; [exact P|exact V].
Qed.
Print Assumptions C43_ntfs_attribute_list_partial.
Theorem C43_ntfs_attribute_list_refuted : forall data, buffer data -> attribute_list_stuck data ->
  forall turns, attribute_list_loop turns data 0 = None.
Proof. intros data Hb H turns. now apply attribute_list_never. Qed.
Print Assumptions C43_ntfs_attribute_list_refuted.
Definition list_entry (size : N) : list N := [0x30; 0; 0; 0; size; 0; 0; 26] ++ repeat 0 8 ++ [5; 0; 0; 0; 0; 0; 1; 0] ++ repeat 0 2.
Example C43_ntfs_attribute_list_example :
  attribute_list_loop 3 (list_entry 26 ++ list_entry 26) 0 =
  Some (Ok (repeat {| al_type := 48; al_size := 26; al_name_size := 0; al_name_offset := 26; al_file_reference := 281474976710661 |} 2)) /\
  ~ attribute_list_stuck (list_entry 26 ++ list_entry 26) /\ attribute_list_stuck (list_entry 26 ++ list_entry 0).
Proof.
  split; [vm_compute; reflexivity|]. split.
  - assert (B : buffer (list_entry 26 ++ list_entry 26)) by (split; [apply wf_bytesb_iff|]; vm_compute; reflexivity).
    exact (proj1 (proj2 (attribute_list_value _ B 3 0 _ eq_refl))).
  - apply attribute_list_later; [vm_compute; discriminate|vm_compute; discriminate|].
    apply attribute_list_zero; vm_compute; [discriminate|reflexivity].
Qed.

(** ** ext *)
Theorem C43_ext_structures :
  (forall version, decodes (ext_group_descriptor_read version) (ext_group_descriptor_ok version) ext_group_descriptor_of) /\
  decodes ext_directory_entry_read (fun d => 8 <=? len d) ext_directory_entry_of /\
  decodes ext_attributes_entry_read (fun d => 16 <=? len d) ext_attributes_entry_of /\
  decodes ext_attributes_header_read ext_attributes_header_ok (fun _ => tt) /\
  decodes ext_extents_footer_read (fun d => len d =? 4) (fun d => field d 0 4) /\
  decodes extents_header_read extents_header_ok extents_header_of /\
  decodes extent_index_read (fun d => len d =? 12) extent_index_of /\
  decodes extent_descriptor_read (fun d => len d =? 12) extent_descriptor_of.
Proof.
  repeat match goal with |- _ /\ _ => split end.
  - exact ext_group_descriptor_ok'.
  - exact ext_directory_entry_ok'.
  - exact ext_attributes_entry_ok'.
  - exact ext_attributes_header_ok'.
  - exact ext_extents_footer_ok'.
  - exact extents_header_ok'.
  - exact extent_index_ok'.
  - exact extent_descriptor_ok'.
Qed.
Print Assumptions C43_ext_structures.
(** The superblock, unless the block size is stated as 1024 times 2 to the 22. *)
Theorem C43_ext_superblock_partial :
  decodes_if (fun d => field d 24 4 <> 22) ext_superblock_read ext_superblock_ok ext_superblock_of.
Proof. exact ext_superblock_ok'. Qed.
Print Assumptions C43_ext_superblock_partial.
Definition superblock_example (exponent : N) : list N :=
  patches (repeat 0 1024) [(0, [16]); (4, [64]); (24, [exponent]); (32, [0; 32]); (40, [16]); (44, [1; 2; 3; 0xff]); (56, [0x53; 0xef]); (76, [1]);
    (88, [0; 1]); (120, [0x64; 0x69; 0x73; 0x6b])].
Definition superblock_2 : list N := Eval vm_compute in superblock_example 2.
Definition superblock_22 : list N := Eval vm_compute in superblock_example 22.
Example C43_ext_superblock_example : ext_superblock_ok superblock_2 = true /\ es_block_size (ext_superblock_of superblock_2) = 4096 /\
  es_mounted (ext_superblock_of superblock_2) = (-16580095)%Z /\ es_label (ext_superblock_of superblock_2) = [0x64; 0x69; 0x73; 0x6b].
Proof. repeat split; vm_compute; reflexivity. Qed.
(** That block size does not fit in 32 bits; it is accepted and becomes zero. *)
Theorem C43_ext_superblock_refuted : wf_bytes superblock_22 /\ len superblock_22 = 1024 /\
  exists s, ext_superblock_read superblock_22 = Ok s /\ es_block_size s = 0.
Proof.
  split; [apply wf_bytesb_iff; vm_compute; reflexivity|]. split; [vm_compute; reflexivity|].
  destruct (ext_superblock_read superblock_22) as [s| |] eqn:E; [|vm_compute in E; discriminate|vm_compute in E; discriminate].
  exists s. split; [reflexivity|].
  assert (F : match ext_superblock_read superblock_22 with Ok s => es_block_size s | _ => 1 end = 0) by (vm_compute; reflexivity).
  now rewrite E in F.
Qed.
Print Assumptions C43_ext_superblock_refuted.

(** ** FAT *)
Theorem C43_fat_structures :
  decodes fat12_boot_read fat_common_ok fat12_boot_of /\
  decodes fat32_boot_read fat32_boot_ok fat32_boot_of /\
  decodes_if (fun d => len d = 512) fat_boot_read fat_boot_ok fat_boot_of /\
  decodes fat_short_entry_read (fun d => 32 <=? len d) fat_short_entry_of /\
  answers fat_long_entry_read /\
  decodes_if (fun d => fat_padding (fat_units d) = true) fat_long_entry_read (fun d => 32 <=? len d) fat_long_entry_of.
Proof.
  repeat match goal with |- _ /\ _ => split end.
  - exact fat12_boot_ok'.
  - exact fat32_boot_ok'.
  - exact fat_boot_ok'.
  - exact fat_short_entry_ok'.
  - exact fat_long_entry_answers.
  - exact fat_long_entry_ok'.
Qed.
Print Assumptions C43_fat_structures.
Definition fat_entry_example : list N :=
  [0x41; 0x42; 0x20; 0x20; 0x20; 0x20; 0x20; 0x20; 0x54; 0x58; 0x54; 0x20; 8; 0; 0; 0; 0x21; 0; 0x21; 0; 0; 0; 0; 0; 0x21; 0; 5; 0; 10; 0; 0; 0].
Example C43_fat_entry_example : fat_short_entry_read fat_entry_example =
  Ok {| fs_name := [0x61; 0x62; 0x2e; 0x54; 0x58; 0x54]; fs_attributes := 32; fs_flags := 8; fs_created := (33, 0, 0); fs_accessed := 33;
        fs_modified := (33, 0); fs_cluster := 5; fs_size := 10 |}.
Proof. vm_compute. reflexivity. Qed.

(** ** VHDX *)
Theorem C43_vhdx_structures :
  decodes vhdx_file_header_read vhdx_file_header_ok (fun _ => tt) /\
  decodes vhdx_image_header_read vhdx_image_header_ok vhdx_image_header_of /\
  decodes vhdx_region_header_read vhdx_region_header_ok (fun d => (field d 4 4, field d 8 4)) /\
  decodes vhdx_region_entry_read (fun d => len d =? 32) vhdx_region_entry_of /\
  decodes_if (fun d => len d = 65536) vhdx_region_table_read vhdx_region_table_ok vhdx_region_table_of /\
  decodes vhdx_metadata_header_read vhdx_metadata_header_ok (fun d => field d 10 2) /\
  decodes vhdx_metadata_entry_read vhdx_metadata_entry_ok vhdx_metadata_entry_of /\
  decodes vhdx_locator_header_read vhdx_locator_header_ok (fun d => field d 18 2) /\
  decodes vhdx_locator_entry_read (fun d => len d =? 12) vhdx_locator_entry_of.
Proof.
  repeat match goal with |- _ /\ _ => split end.
  - exact vhdx_file_header_ok'.
  - exact vhdx_image_header_ok'.
  - exact vhdx_region_header_ok'.
  - exact vhdx_region_entry_ok'.
  - exact vhdx_region_table_ok'.
  - exact vhdx_metadata_header_ok'.
  - exact vhdx_metadata_entry_ok'.
  - exact vhdx_locator_header_ok'.
  - exact vhdx_locator_entry_ok'.
Qed.
Print Assumptions C43_vhdx_structures.
(** The metadata table as it is read from a file, 65536 bytes, with no more entries than there
    is room for. *)
Theorem C43_vhdx_metadata_table_partial :
  decodes_if (fun d => len d = 65536 /\ field d 10 2 <= 2047) vhdx_metadata_table_read vhdx_metadata_table_ok vhdx_metadata_table_of.
Proof. exact vhdx_metadata_table_ok'. Qed.
Print Assumptions C43_vhdx_metadata_table_partial.
(** With more entries, and the first 2047 of them in order, it panics; there are such tables. *)
Theorem C43_vhdx_metadata_table_refuted :
  (forall data, buffer data -> len data = 65536 -> vhdx_metadata_header_ok data = true -> 2048 <= field data 10 2 ->
     forallb vhdx_metadata_entry_ok (pieces data 32 32 2047) = true -> vhdx_metadata_table_read data = Panic) /\
  exists data, buffer data /\ len data = 65536 /\ vhdx_metadata_header_ok data = true /\ field data 10 2 = 2048 /\
    forallb vhdx_metadata_entry_ok (pieces data 32 32 2047) = true.
Proof. split; [exact vhdx_metadata_beyond|exact vhdx_metadata_2048]. Qed.
Print Assumptions C43_vhdx_metadata_table_refuted.
(** The parent locator, if its texts have an even number of bytes. *)
Theorem C43_vhdx_parent_locator_partial : decodes_if vhdx_locator_even vhdx_locator_read vhdx_locator_ok vhdx_locator_of.
Proof. exact vhdx_locator_ok'. Qed.
Print Assumptions C43_vhdx_parent_locator_partial.
Definition locator_example (size : N) : list N :=
  [0xb7; 0xef; 0x4a; 0xb0; 0x9e; 0xd1; 0x81; 0x4a; 0xb7; 0x89; 0x25; 0xb8; 0xe9; 0x44; 0x59; 0x13; 0; 0; 1; 0] ++
  [32; 0; 0; 0; 34; 0; 0; 0; size; 0; 4; 0] ++ [0x6b; 0; 0x76; 0; 0x77; 0].
Example C43_vhdx_parent_locator_example : vhdx_locator_even (locator_example 2) /\
  vhdx_locator_ok (locator_example 2) = true /\ vhdx_locator_of (locator_example 2) = [([0x6b], [0x76; 0x77])].
Proof.
  split; [|split; vm_compute; reflexivity]. unfold vhdx_locator_even.
  assert (P : pieces (locator_example 2) 20 12 (field (locator_example 2) 18 2) = [[32; 0; 0; 0; 34; 0; 0; 0; 2; 0; 4; 0]]) by (vm_compute; reflexivity).
  rewrite P. constructor; [split; vm_compute; reflexivity|constructor].
Qed.
Theorem C43_vhdx_parent_locator_refuted : wf_bytes (locator_example 1) /\ vhdx_locator_read (locator_example 1) = Panic.
Proof. split; [apply wf_bytesb_iff|]; vm_compute; reflexivity. Qed.
Print Assumptions C43_vhdx_parent_locator_refuted.

(** ** Other storage media images *)
Theorem C43_image_structures :
  decodes sparse_header_read sparse_header_ok sparse_header_of /\
  decodes udif_footer_read udif_footer_ok udif_footer_of /\
  decodes udif_entry_read (fun d => len d =? 40) udif_entry_of /\
  decodes udif_table_header_read (fun d => (len d =? 204) && udif_table_header_ok d) udif_table_header_of /\
  decodes udif_table_read (fun d => (204 <=? len d) && udif_table_ok d) udif_table_of /\
  decodes vhd_footer_read vhd_footer_ok vhd_footer_of /\
  decodes vhd_header_read vhd_header_ok vhd_header_of /\
  decodes ewf_file_header_read ewf_file_header_ok (fun d => field d 9 2) /\
  decodes ewf_section_read ewf_section_ok ewf_section_of /\
  decodes ewf_table_header_read ewf_table_header_ok ewf_table_header_of /\
  decodes ewf_volume_e01_read (fun d => (1052 <=? len d) && ewf_sum d 0 1048) (fun d => ewf_volume_of (bytes_at d 64 16) d) /\
  decodes ewf_volume_s01_read (fun d => (94 <=? len d) && ewf_sum d 0 90) (ewf_volume_of (repeat 0 16)) /\
  decodes qcow_v1_read_data qcow_v1_ok qcow_v1_of /\
  decodes qcow_v2_read_data qcow_v2_ok (qcow_v23_of 2 72).
Proof.
  repeat match goal with |- _ /\ _ => split end.
  - exact sparse_header_ok'.
  - exact udif_footer_ok'.
  - exact udif_entry_ok'.
  - exact udif_table_header_ok'.
  - exact udif_table_ok'.
  - exact vhd_footer_ok'.
  - exact vhd_header_ok'.
  - exact ewf_file_header_ok'.
  - exact ewf_section_ok'.
  - exact ewf_table_header_ok'.
  - exact ewf_volume_e01_ok'.
  - exact ewf_volume_s01_ok'.
  - exact qcow_v1_ok'.
  - exact qcow_v2_ok'.
Qed.
Print Assumptions C43_image_structures.
(** The table of an EWF file, if its entries and their checksum are in the data; and if they are
    not, a panic. *)
Theorem C43_ewf_table_partial : decodes_if ewf_table_fits ewf_table_read ewf_table_ok ewf_table_of.
Proof. exact ewf_table_ok'. Qed.
Print Assumptions C43_ewf_table_partial.
Theorem C43_ewf_table_refuted : forall data, buffer data -> ewf_table_header_ok data = true -> ~ ewf_table_fits data ->
  ewf_table_read data = Panic.
Proof. exact ewf_table_beyond. Qed.
Print Assumptions C43_ewf_table_refuted.
Definition ewf_table_example : list N :=
  Eval vm_compute in
    let header := [1; 0; 0; 0; 0; 0; 0; 0; 0x10] ++ repeat 0 11 in
    header ++ le_bytes 4 (adler32 1 header) ++ [9; 0; 0; 0x80] ++ le_bytes 4 (adler32 1 [9; 0; 0; 0x80]).
Example C43_ewf_table_example : ewf_table_fits ewf_table_example /\ ewf_table_ok ewf_table_example = true /\
  ewf_table_of ewf_table_example = (16, [0x80000009]) /\
  ewf_table_header_ok (firstn 30 ewf_table_example) = true /\ ~ ewf_table_fits (firstn 30 ewf_table_example).
Proof.
  split; [vm_compute; discriminate|]. split; [vm_compute; reflexivity|]. split; [vm_compute; reflexivity|].
  split; [vm_compute; reflexivity|]. intros H. vm_compute in H. now apply H.
Qed.
(** The header of QCOW version 3, unless there are exactly 104 bytes, which is enough for the
    check of the size but not for the compression method behind them. *)
Theorem C43_qcow_header_partial : decodes_if (fun d => len d <> 104) qcow_v3_read_data qcow_v3_ok qcow_v3_of.
Proof. exact qcow_v3_ok'. Qed.
Print Assumptions C43_qcow_header_partial.
Theorem C43_qcow_header_refuted : forall data, buffer data -> len data = 104 -> qcow_v3_ok data = true -> qcow_v3_read_data data = Panic.
Proof.
  intros data Hb L H. unfold qcow_v3_ok in H. rewrite !andb_true_iff in H. destruct H as ((((((_ & M) & V) & F) & G) & _) & _).
  apply N.eqb_eq in V. apply N.leb_le in F, G. now apply qcow_v3_104.
Qed.
Print Assumptions C43_qcow_header_refuted.
Definition qcow_example (n : nat) : list N :=
  patches (repeat 0 n) [(0, [0x51; 0x46; 0x49; 0xfb; 0; 0; 0; 3]); (20, [0; 0; 0; 16]); (24, [0; 0; 0; 0; 0; 0x10; 0; 0]);
    (36, [0; 0; 0; 1; 0; 0; 0; 0; 0; 3; 0; 0]); (100, [0; 0; 0; 104])].
Example C43_qcow_example : qcow_v3_ok (qcow_example 112) = true /\ qcow_v3_ok (qcow_example 104) = true /\
  qh_cluster_bits (qcow_v3_of (qcow_example 112)) = 16 /\ qh_l1_offset (qcow_v3_of (qcow_example 112)) = 196608.
Proof. repeat split; vm_compute; reflexivity. Qed.

(** ** Partition tables *)
Theorem C43_partition_structures :
  decodes mbr_entry_read (fun d => len d =? 16) mbr_entry_of /\
  decodes boot_record_read boot_record_ok boot_record_of /\
  decodes gpt_header_read gpt_header_ok gpt_header_of /\
  (forall index, decodes (gpt_entry_read index) (fun d => len d =? 128) (gpt_entry_of index)) /\
  decodes apm_entry_read apm_entry_ok apm_entry_of.
Proof.
  repeat match goal with |- _ /\ _ => split end.
  - exact mbr_entry_ok'.
  - exact boot_record_ok'.
  - exact gpt_header_ok'.
  - exact gpt_entry_ok'.
  - exact apm_entry_ok'.
Qed.
Print Assumptions C43_partition_structures.
Definition boot_record_example : list N := Eval vm_compute in
  patches (repeat 0 512) [(440, [1; 2; 3; 4]); (446, [0x80; 0; 0; 0; 7; 0; 0; 0; 0; 8; 0; 0; 0; 16; 0; 0]); (510, [0x55; 0xaa])].
Example C43_boot_record_example : boot_record_ok boot_record_example = true /\
  hd_error (snd (boot_record_of boot_record_example)) =
  Some {| me_index := 0; me_flags := 128; me_type := 7; me_start := 2048; me_sectors := 4096 |}.
Proof. split; vm_compute; reflexivity. Qed.

(** ** Signatures
    Every structure that has a signature is accepted only with it, whatever the buffer. *)
Definition carries {A} (read : list N -> res A) (o : N) (signature : list N) : Prop :=
  forall data v, buffer data -> read data = Ok v -> has data o signature = true.
Lemma carries_of {A} (read : list N -> res A) ok value o s : decodes read ok value -> (forall d, ok d = true -> has d o s = true) ->
  carries read o s.
Proof. intros D H data v Hb E. rewrite (D data Hb I) in E. destruct (ok data) eqn:O; [now apply H|discriminate]. Qed.
Lemma carries_at {A} (read : list N -> res A) o e s : e = o + len s ->
  (forall data v, read data = Ok v -> exists x, slice data o e = Ok x /\ same_bytes x s = true) -> carries read o s.
Proof.
  intros -> H data v Hb E. destruct (H _ _ E) as (x & E1 & E2). unfold slice in E1.
  destruct (_ && _); [|discriminate]. injection E1 as <-. unfold has. unfold same_bytes in E2.
  replace (bytes_at data o (len s)) with (firstn (N.to_nat (o + len s - o)) (skipn (N.to_nat o) data)); [exact E2|].
  unfold bytes_at. do 2 f_equal. lia.
Qed.
Ltac signed := intros d; unfold mft_entry_header_ok, index_entry_header_ok, ext_attributes_header_ok, extents_header_ok, fat_common_ok, fat32_boot_ok,
  vhdx_file_header_ok, vhdx_image_header_ok, vhdx_region_header_ok, vhdx_metadata_header_ok, vhdx_locator_header_ok, sparse_header_ok,
  udif_footer_ok, udif_table_ok, udif_table_header_ok, vhd_footer_ok, vhd_header_ok, ewf_file_header_ok, qcow_v1_ok, qcow_v2_ok, qcow_magic,
  boot_record_ok, gpt_header_ok, apm_entry_ok, fat_common_ok; rewrite ?andb_true_iff; tauto.
Theorem C43_signatures :
  carries ntfs_boot_read 3 [0x4e; 0x54; 0x46; 0x53; 0x20; 0x20; 0x20; 0x20] /\
  carries mft_entry_header_read 0 [0x46; 0x49; 0x4c; 0x45] /\
  carries index_entry_header_read 0 [0x49; 0x4e; 0x44; 0x58] /\
  carries ext_superblock_read 56 [0x53; 0xef] /\
  carries ext_attributes_header_read 0 [0; 0; 2; 0xea] /\
  carries extents_header_read 0 [0x0a; 0xf3] /\
  carries fat12_boot_read 510 [0x55; 0xaa] /\
  carries fat32_boot_read 510 [0x55; 0xaa] /\
  carries vhdx_file_header_read 0 [0x76; 0x68; 0x64; 0x78; 0x66; 0x69; 0x6c; 0x65] /\
  carries vhdx_image_header_read 0 [0x68; 0x65; 0x61; 0x64] /\
  carries vhdx_region_table_read 0 [0x72; 0x65; 0x67; 0x69] /\
  carries vhdx_metadata_table_read 0 [0x6d; 0x65; 0x74; 0x61; 0x64; 0x61; 0x74; 0x61] /\
  carries vhdx_locator_read 0 [0xb7; 0xef; 0x4a; 0xb0; 0x9e; 0xd1; 0x81; 0x4a; 0xb7; 0x89; 0x25; 0xb8; 0xe9; 0x44; 0x59; 0x13] /\
  carries sparse_header_read 0 [0x73; 0x70; 0x72; 0x73] /\
  carries udif_footer_read 0 [0x6b; 0x6f; 0x6c; 0x79] /\
  carries udif_table_read 0 [0x6d; 0x69; 0x73; 0x68] /\
  carries vhd_footer_read 0 [0x63; 0x6f; 0x6e; 0x65; 0x63; 0x74; 0x69; 0x78] /\
  carries vhd_header_read 0 [0x63; 0x78; 0x73; 0x70; 0x61; 0x72; 0x73; 0x65] /\
  carries ewf_file_header_read 0 [0x45; 0x56; 0x46; 0x09; 0x0d; 0x0a; 0xff; 0x00] /\
  carries qcow_v1_read_data 0 [0x51; 0x46; 0x49; 0xfb] /\
  carries qcow_v2_read_data 0 [0x51; 0x46; 0x49; 0xfb] /\
  carries qcow_v3_read_data 0 [0x51; 0x46; 0x49; 0xfb] /\
  carries boot_record_read 510 [0x55; 0xaa] /\
  carries gpt_header_read 0 [0x45; 0x46; 0x49; 0x20; 0x50; 0x41; 0x52; 0x54] /\
  carries apm_entry_read 0 [0x50; 0x4d].
Proof.
  repeat match goal with |- _ /\ _ => split end.
  - apply (carries_at _ _ 11); [reflexivity|]. intros data v E. unfold ntfs_boot_read in E.
    apply bind_Ok_inv in E as (u1 & _ & E). apply bind_Ok_inv in E as (x & Ex & E). apply bind_Ok_inv in E as (u2 & C & E).
    apply check_Ok in C. now exists x.
  - apply (carries_of _ _ _ _ _ mft_entry_header_ok'). signed.
  - apply (carries_of _ _ _ _ _ index_entry_header_ok'). signed.
  - apply (carries_at _ _ 58); [reflexivity|]. intros data v E. unfold ext_superblock_read in E.
    apply bind_Ok_inv in E as (u1 & _ & E). apply bind_Ok_inv in E as (x & Ex & E). apply bind_Ok_inv in E as (u2 & C & E).
    apply check_Ok in C. now exists x.
  - apply (carries_of _ _ _ _ _ ext_attributes_header_ok'). signed.
  - apply (carries_of _ _ _ _ _ extents_header_ok'). signed.
  - apply (carries_of _ _ _ _ _ fat12_boot_ok'). signed.
  - apply (carries_of _ _ _ _ _ fat32_boot_ok'). signed.
  - apply (carries_of _ _ _ _ _ vhdx_file_header_ok'). signed.
  - apply (carries_of _ _ _ _ _ vhdx_image_header_ok'). signed.
  - intros data v Hb E. unfold vhdx_region_table_read in E. apply bind_Ok_inv in E as (h & Eh & _).
    refine (carries_of _ _ _ _ _ vhdx_region_header_ok' _ data h Hb Eh). signed.
  - intros data v Hb E. unfold vhdx_metadata_table_read in E. apply bind_Ok_inv in E as (h & Eh & _).
    refine (carries_of _ _ _ _ _ vhdx_metadata_header_ok' _ data h Hb Eh). signed.
  - intros data v Hb E. unfold vhdx_locator_read in E. apply bind_Ok_inv in E as (h & Eh & _).
    refine (carries_of _ _ _ _ _ vhdx_locator_header_ok' _ data h Hb Eh). signed.
  - apply (carries_of _ _ _ _ _ sparse_header_ok'). signed.
  - apply (carries_of _ _ _ _ _ udif_footer_ok'). signed.
  - apply (carries_of _ _ _ _ _ udif_table_ok'). signed.
  - apply (carries_of _ _ _ _ _ vhd_footer_ok'). signed.
  - apply (carries_of _ _ _ _ _ vhd_header_ok'). signed.
  - apply (carries_of _ _ _ _ _ ewf_file_header_ok'). signed.
  - apply (carries_of _ _ _ _ _ qcow_v1_ok'). signed.
  - apply (carries_of _ _ _ _ _ qcow_v2_ok'). signed.
  - apply (carries_at _ _ 4); [reflexivity|]. intros data v E. unfold qcow_v3_read_data in E.
    apply bind_Ok_inv in E as (u1 & _ & E). apply bind_Ok_inv in E as (x & Ex & E). apply bind_Ok_inv in E as (u2 & C & E).
    apply check_Ok in C. now exists x.
  - apply (carries_of _ _ _ _ _ boot_record_ok'). signed.
  - apply (carries_of _ _ _ _ _ gpt_header_ok'). signed.
  - apply (carries_of _ _ _ _ _ apm_entry_ok'). signed.
Qed.
Print Assumptions C43_signatures.
