(** * What the header structures hold

    For each structure: which byte strings carry it ([..._ok]) and what it says ([..._of]),
    as positions of numbers and texts in the bytes. *)
From Verif Require Import Base Uuid_model Checksums_spec Strings_model Streams_spec Part_spec Part_model Headers_model.

(** What a program can hold in memory. *)
Definition buffer (data : list N) : Prop := wf_bytes data /\ len data < 2 ^ 64.

(** On all the buffers that meet [given], [read] gives the value of those that are [ok] and an
    error for all others. *)
Definition decodes_if {A} (given : list N -> Prop) (read : list N -> res A) (ok : list N -> bool)
    (value : list N -> A) : Prop :=
  forall data, buffer data -> given data -> read data = if ok data then Ok (value data) else Err.
Definition decodes {A} (read : list N -> res A) (ok : list N -> bool) (value : list N -> A) : Prop :=
  decodes_if (fun _ => True) read ok value.
(** [read] has an answer, a value or an error, for every buffer. *)
Definition answers {A} (read : list N -> res A) : Prop := forall data, buffer data -> read data <> Panic.

(** The byte at an offset. *)
Definition byte (data : list N) (o : N) : N := nth (N.to_nat o) data 0.
(** The bytes [s] at an offset. *)
Definition has (data : list N) (o : N) (s : list N) : bool :=
  if list_eq_dec N.eq_dec (bytes_at data o (len s)) s then true else false.
(** One of the numbers listed. *)
Definition one_of (l : list N) (v : N) : bool := existsb (N.eqb v) l.
(** A flag. *)
Definition flag (v bit : N) : bool := N.testbit v bit.
(** A signed 32-bit number. *)
Definition signed32 (v : N) : Z := if v <? 2 ^ 31 then Z.of_N v else (Z.of_N v - 2 ^ 32)%Z.
(** A text of bytes, or of 16-bit numbers, up to the first zero. *)
Fixpoint up_to_zero (l : list N) : list N :=
  match l with [] => [] | a :: l => if a =? 0 then [] else a :: up_to_zero l end.
Fixpoint pairs_le (l : list N) : list N :=
  match l with a :: b :: l => (a + 256 * b) :: pairs_le l | _ => [] end.
Definition text16 (data : list N) (o n : N) : list N := up_to_zero (pairs_le (bytes_at data o n)).
(** A UUID with its first three parts in little endian. *)
Definition uuid_le (data : list N) (o : N) : uuid :=
  {| part1 := field data o 4; part2 := field data (o + 4) 2; part3 := field data (o + 6) 2;
     part4 := field_be data (o + 8) 2; part5 := field_be data (o + 10) 6 |}.
(** CRC-32C. *)
Definition crc32c (data : list N) : N := crc32_reflected 0x82f63b78 0 data.

(** ** NTFS *)
(** A number of sectors or clusters [v] up to a limit, or the power of two [256 - v]. *)
Definition ntfs_number (limit v : N) : N := if v <=? limit then v else 2 ^ (256 - v).
Definition ntfs_cluster (data : list N) : N := field data 11 2 * ntfs_number 128 (byte data 13).
Definition ntfs_entry (data : list N) (o : N) : N :=
  let v := field data o 4 in if v <=? 127 then v * ntfs_cluster data else 2 ^ (256 - v).
Definition ntfs_boot_ok (data : list N) : bool :=
  (512 <=? len data) && has data 3 [0x4e; 0x54; 0x46; 0x53; 0x20; 0x20; 0x20; 0x20] &&
  one_of [256; 512; 1024; 2048; 4096] (field data 11 2) &&
  ((byte data 13 <=? 128) || (244 <=? byte data 13)) &&
  one_of (map (fun e => 2 ^ e) [8; 9; 10; 11; 12; 13; 14; 15; 16; 17; 18; 19; 20; 21]) (ntfs_cluster data) &&
  (1 <=? field data 64 4) && (field data 64 4 <=? 255) &&
  (42 <=? ntfs_entry data 64) && (ntfs_entry data 64 <=? 65535) &&
  (1 <=? field data 68 4) && (field data 68 4 <=? 255) &&
  (32 <=? ntfs_entry data 68) && (ntfs_entry data 68 <=? 2 ^ 24) &&
  (field data 40 8 * field data 11 2 <? 2 ^ 64).
Definition ntfs_boot_of (data : list N) : ntfs_boot :=
  {| nb_bytes_per_sector := field data 11 2; nb_cluster_block_size := ntfs_cluster data;
     nb_mft_block := field data 48 8; nb_mirror_mft_block := field data 56 8;
     nb_mft_entry_size := ntfs_entry data 64; nb_index_entry_size := ntfs_entry data 68;
     nb_serial := field data 72 8 |}.

Definition mft_entry_header_ok (data : list N) : bool := (42 <=? len data) && has data 0 [0x46; 0x49; 0x4c; 0x45].
Definition mft_entry_header_of (data : list N) : mft_entry_header :=
  {| mh_fixup_offset := field data 4 2; mh_fixups := field data 6 2; mh_journal := field data 8 8;
     mh_sequence := field data 16 2; mh_attributes_offset := field data 20 2; mh_size := field data 28 4;
     mh_base := field data 32 8 |}.

Definition index_entry_header_ok (data : list N) : bool := (24 <=? len data) && has data 0 [0x49; 0x4e; 0x44; 0x58].
Definition index_entry_header_of (data : list N) : N * N := (field data 4 2, field data 6 2).
Definition index_node_header_of (data : list N) : N * N * N := (field data 0 4, field data 4 4, field data 12 4).
Definition index_root_header_of (data : list N) : N * N * N := (field data 0 4, field data 4 4, field data 8 4).
Definition index_value_of (data : list N) : index_value :=
  {| iv_file_reference := field data 0 8; iv_size := field data 8 2; iv_key_size := field data 10 2;
     iv_flags := field data 12 4 |}.
Definition reparse_header_of (data : list N) : N * N := (field data 0 4, field data 4 2).
Definition attribute_header_of (data : list N) : attribute_header :=
  {| ah_type := field data 0 4; ah_size := field data 4 4; ah_non_resident := byte data 8;
     ah_name_size := byte data 9; ah_name_offset := field data 10 2; ah_data_flags := field data 12 2 |}.
Definition attribute_resident_of (data : list N) : N * N := (field data 0 4, field data 4 2).
Definition attribute_non_resident_ok (data : list N) : bool :=
  (48 <=? len data) && ((field data 18 2 =? 0) || ((56 <=? len data) && (field data 18 2 <? 32))).
Definition attribute_non_resident_of (data : list N) : attribute_non_resident :=
  let compressed := 1 <=? field data 18 2 in
  {| an_first_vcn := field data 0 8; an_last_vcn := field data 8 8; an_runs_offset := field data 16 2;
     an_compression_unit := (if compressed then 2 ^ field data 18 2 else 0);
     an_allocated := field data 24 8; an_size := field data 32 8; an_valid := field data 40 8;
     an_compressed := (if compressed then field data 48 8 else 0) |}.
Definition attribute_list_entry_of (data : list N) : attribute_list_entry :=
  {| al_type := field data 0 4; al_size := field data 4 2; al_name_size := byte data 6;
     al_name_offset := byte data 7; al_file_reference := field data 16 8 |}.
(** An attribute list: its entries follow one another, each in its own size; the size of the
    last entry may go beyond the end of the list. *)
Inductive attribute_list : list N -> list attribute_list_entry -> Prop :=
| attribute_list_end : attribute_list [] []
| attribute_list_more data entries :
    26 <= len data -> 1 <= field data 4 2 ->
    attribute_list (skipn (N.to_nat (field data 4 2)) data) entries ->
    attribute_list data (attribute_list_entry_of data :: entries).
Definition volume_information_of (data : list N) : N * N * N := (byte data 8, byte data 9, field data 10 2).
(** A time, where zero says that there is none. *)
Definition time_at (data : list N) (o : N) : option N := if field data o 8 =? 0 then None else Some (field data o 8).
Definition standard_information_of (data : list N) : standard_information :=
  {| si_creation := time_at data 0; si_modification := time_at data 8; si_entry_modification := time_at data 16;
     si_access := time_at data 24; si_flags := field data 32 4; si_maximum_versions := field data 36 4;
     si_version := field data 40 4; si_owner := (if 52 <=? len data then Some (field data 48 4) else None) |}.
(** The bytes of the name must be there, unless there are no bytes after the name size. *)
Definition file_name_ok (data : list N) : bool :=
  (66 <=? len data) && ((len data =? 66) || (66 + 2 * byte data 64 <=? len data)).
Definition file_name_of (data : list N) : file_name :=
  {| fn_parent := field data 0 8; fn_creation := time_at data 8; fn_modification := time_at data 16;
     fn_entry_modification := time_at data 24; fn_access := time_at data 32; fn_size := field data 48 8;
     fn_flags := field data 56 4; fn_name_size := byte data 64; fn_name_space := byte data 65;
     fn_name := (if len data =? 66 then [] else text16 data 66 (2 * byte data 64));
     fn_reparse_tag := (if flag (field data 56 4) 10 then Some (field data 60 4) else None) |}.

(** ** ext *)
Definition ext_blocks (data : list N) : N :=
  if flag (field data 96 4) 7 then field data 4 4 + 2 ^ 32 * field data 336 4 else field data 4 4.
Definition ext_superblock_ok (data : list N) : bool :=
  (len data =? 1024) && has data 56 [0x53; 0xef] && (field data 76 4 <=? 1) &&
  (1 <=? ext_blocks data) && (field data 24 4 <=? 22) && (1 <=? field data 32 4) &&
  (flag (field data 96 4) 3 || (1 <=? field data 40 4)) && (byte data 372 <? 16) &&
  (negb (flag (field data 100 4) 10) ||
   ((byte data 373 =? 1) &&
    ((field data 1020 4 =? 0) || (field data 1020 4 =? 2 ^ 32 - 1 - crc32c (bytes_at data 0 1020))))).
Definition ext_superblock_of (data : list N) : ext_superblock :=
  {| es_inodes := field data 0 4; es_blocks := ext_blocks data; es_block_size := 1024 * 2 ^ field data 24 4;
     es_blocks_per_group := field data 32 4; es_inodes_per_group := field data 40 4;
     es_mounted := signed32 (field data 44 4); es_written := signed32 (field data 48 4);
     es_revision := field data 76 4; es_inode_size := field data 88 2; es_compatible := field data 92 4;
     es_incompatible := field data 96 4; es_read_only := field data 100 4;
     es_identifier := bytes_at data 104 16; es_label := up_to_zero (bytes_at data 120 16);
     es_mount_path := up_to_zero (bytes_at data 136 64); es_descriptor_size := field data 254 2;
     es_first_meta_group := field data 260 4; es_groups_per_flex := 2 ^ byte data 372;
     es_seed := (if flag (field data 96 4) 13 then Some (2 ^ 32 - 1 - field data 624 4) else None) |}.
Definition ext_group_descriptor_ok (version : N) (data : list N) : bool :=
  (len data =? 32) || ((version =? 4) && (len data =? 64)).
Definition ext_group_descriptor_of (data : list N) : N * N :=
  ((if len data =? 64 then field data 8 4 + 2 ^ 32 * field data 40 4 else field data 8 4), field data 30 2).
Definition ext_directory_entry_of (data : list N) : N * N * N * N :=
  (field data 0 4, field data 4 2, byte data 6, byte data 7).
Definition ext_attributes_entry_of (data : list N) : ext_attributes_entry :=
  {| ea_name_size := byte data 0; ea_name_index := byte data 1; ea_value_offset := field data 2 2;
     ea_value_inode := field data 4 4; ea_value_size := field data 8 4 |}.
Definition ext_attributes_header_ok (data : list N) : bool :=
  (len data =? 32) && has data 0 [0; 0; 2; 0xea] && (field data 8 4 =? 1).

(** ** FAT *)
(** A text without the spaces at its end; one of spaces only stays. *)
Fixpoint without_spaces (l : list N) : list N :=
  match l with
  | [] => []
  | a :: l => match without_spaces l with [] => if a =? 0x20 then [] else [a] | l' => a :: l' end
  end.
Definition unpadded (l : list N) : list N := match without_spaces l with [] => l | l' => l' end.
Definition fat_common_ok (data : list N) : bool :=
  (512 <=? len data) && has data 510 [0x55; 0xaa] && one_of [512; 1024; 2048; 4096] (field data 11 2) &&
  one_of [1; 2; 4; 8; 16; 32; 64; 128] (byte data 13).
Definition fat12_boot_of (data : list N) : fat_boot :=
  {| fb_bytes_per_sector := field data 11 2; fb_sectors_per_cluster := byte data 13;
     fb_reserved_sectors := field data 14 2; fb_tables := byte data 16; fb_root_entries := field data 17 2;
     fb_table_size := field data 22 2;
     fb_sectors := (if field data 32 4 =? 0 then field data 19 2 else field data 32 4);
     fb_root_cluster := 0; fb_serial := (if byte data 38 =? 0x29 then field data 39 4 else 0);
     fb_label := (if byte data 38 =? 0x29 then unpadded (bytes_at data 43 11) else []) |}.
Definition fat32_boot_ok (data : list N) : bool :=
  fat_common_ok data && (field data 17 2 =? 0) && (field data 19 2 =? 0) && (field data 22 2 =? 0) &&
  (2 <=? field data 44 4).
Definition fat32_boot_of (data : list N) : fat_boot :=
  {| fb_bytes_per_sector := field data 11 2; fb_sectors_per_cluster := byte data 13;
     fb_reserved_sectors := field data 14 2; fb_tables := byte data 16; fb_root_entries := 0;
     fb_table_size := field data 36 4; fb_sectors := field data 32 4;
     fb_root_cluster := field data 44 4; fb_serial := (if byte data 66 =? 0x29 then field data 67 4 else 0);
     fb_label := (if byte data 66 =? 0x29 then unpadded (bytes_at data 71 11) else []) |}.
(** FAT-32 has neither a 16-bit table size, nor a 16-bit number of sectors or root entries. *)
Definition is_fat32 (data : list N) : bool :=
  (field data 17 2 =? 0) && (field data 19 2 =? 0) && (field data 22 2 =? 0).
Definition fat_boot_ok (data : list N) : bool := if is_fat32 data then fat32_boot_ok data else fat_common_ok data.
Definition fat_boot_of (data : list N) : fat_boot := if is_fat32 data then fat32_boot_of data else fat12_boot_of data.
(** The letters A to Z in lower case. *)
Definition lowered (l : list N) : list N := map (fun b => if (65 <=? b) && (b <=? 90) then b + 32 else b) l.
(** A short name: a base name and an extension, each in lower case when its flag says so,
    with a dot in between unless it is a volume label. *)
Definition fat_name (data : list N) : list N :=
  let part o n bit := (if flag (byte data 12) bit then lowered else fun l => l) (unpadded (bytes_at data o n)) in
  let is_label := flag (byte data 11) 3 && negb (flag (byte data 11) 4) && negb (flag (byte data 11) 6) in
  part 0 8 3 ++
  (if one_of [0; 0x20] (byte data 8) then [] else (if is_label then [] else [0x2e]) ++ part 8 3 4).
Definition fat_short_entry_of (data : list N) : fat_short_entry :=
  {| fs_name := fat_name data; fs_attributes := byte data 11; fs_flags := byte data 12;
     fs_created := (field data 16 2, field data 14 2, byte data 13); fs_accessed := field data 18 2;
     fs_modified := (field data 24 2, field data 22 2); fs_cluster := field data 26 2;
     fs_size := field data 28 4 |}.

(** ** VHDX *)
Definition vhdx_file_header_ok (data : list N) : bool :=
  (len data =? 65536) && has data 0 [0x76; 0x68; 0x64; 0x78; 0x66; 0x69; 0x6c; 0x65].
(** The checksum of the structure with its checksum field set to zero. *)
Definition vhdx_checksum_ok (data : list N) : bool :=
  (field data 4 4 =? 0) || (field data 4 4 =? crc32c (bytes_at data 0 4 ++ [0; 0; 0; 0] ++ skipn 8 data)).
Definition vhdx_image_header_ok (data : list N) : bool :=
  (len data =? 4096) && has data 0 [0x68; 0x65; 0x61; 0x64] && vhdx_checksum_ok data.
Definition vhdx_image_header_of (data : list N) : N * uuid * N := (field data 8 8, uuid_le data 32, field data 66 2).
Definition vhdx_region_header_ok (data : list N) : bool :=
  (16 <=? len data) && has data 0 [0x72; 0x65; 0x67; 0x69] && (field data 8 4 <=? 2047).
Definition vhdx_region_entry_of (data : list N) : vhdx_region_entry :=
  {| vr_type := uuid_le data 0; vr_offset := field data 16 8; vr_size := field data 24 4;
     vr_required := flag (field data 28 4) 0 |}.
(** The [n] pieces of [size] bytes from offset [o]. *)
Definition pieces (data : list N) (o size n : N) : list (list N) :=
  map (fun i => bytes_at data (o + size * i) size) (seqN 0 (N.to_nat n)).
Definition vhdx_region_table_ok (data : list N) : bool := vhdx_region_header_ok data && vhdx_checksum_ok data.
Definition vhdx_region_table_of (data : list N) : list vhdx_region_entry :=
  map vhdx_region_entry_of (pieces data 16 32 (field data 8 4)).
Definition vhdx_metadata_header_ok (data : list N) : bool :=
  (32 <=? len data) && has data 0 [0x6d; 0x65; 0x74; 0x61; 0x64; 0x61; 0x74; 0x61].
Definition vhdx_metadata_entry_ok (data : list N) : bool := (len data =? 32) && (65536 <=? field data 16 4).
Definition vhdx_metadata_entry_of (data : list N) : uuid * N * N := (uuid_le data 0, field data 16 4, field data 20 4).
Definition vhdx_metadata_table_ok (data : list N) : bool :=
  vhdx_metadata_header_ok data && forallb vhdx_metadata_entry_ok (pieces data 32 32 (field data 10 2)).
Definition vhdx_metadata_table_of (data : list N) : list (uuid * N * N) :=
  map vhdx_metadata_entry_of (pieces data 32 32 (field data 10 2)).
Definition vhdx_locator_header_ok (data : list N) : bool :=
  (20 <=? len data) &&
  has data 0 [0xb7; 0xef; 0x4a; 0xb0; 0x9e; 0xd1; 0x81; 0x4a; 0xb7; 0x89; 0x25; 0xb8; 0xe9; 0x44; 0x59; 0x13].
Definition vhdx_locator_entry_of (data : list N) : vhdx_locator_entry :=
  {| vl_key_offset := field data 0 4; vl_value_offset := field data 4 4; vl_key_size := field data 8 2;
     vl_value_size := field data 10 2 |}.
(** The texts of an entry lie behind the header and inside the data. *)
Definition vhdx_locator_entry_ok (data entry : list N) : bool :=
  let inside o n := (20 <=? o) && (o <? len data) && (o + n <=? len data) in
  (len entry =? 12) && inside (field entry 0 4) (field entry 8 2) && inside (field entry 4 4) (field entry 10 2).
Definition vhdx_locator_text (data entry : list N) : list N * list N :=
  (text16 data (field entry 0 4) (field entry 8 2), text16 data (field entry 4 4) (field entry 10 2)).
Definition vhdx_locator_ok (data : list N) : bool :=
  vhdx_locator_header_ok data && forallb (vhdx_locator_entry_ok data) (pieces data 20 12 (field data 18 2)).
Definition vhdx_locator_of (data : list N) : list (list N * list N) :=
  map (vhdx_locator_text data) (pieces data 20 12 (field data 18 2)).
(** All the texts have an even number of bytes. *)
Definition vhdx_locator_even (data : list N) : Prop :=
  Forall (fun e => N.even (field e 8 2) = true /\ N.even (field e 10 2) = true) (pieces data 20 12 (field data 18 2)).

(** An entry of size zero among those of an attribute list. *)
Inductive attribute_list_stuck : list N -> Prop :=
| attribute_list_zero data : 26 <= len data -> field data 4 2 = 0 -> attribute_list_stuck data
| attribute_list_later data : 26 <= len data -> 1 <= field data 4 2 ->
    attribute_list_stuck (skipn (N.to_nat (field data 4 2)) data) -> attribute_list_stuck data.

(** The thirteen characters of a part of a long name. *)
Definition fat_units (data : list N) : list N :=
  pairs_le (bytes_at data 1 10) ++ pairs_le (bytes_at data 14 12) ++ pairs_le (bytes_at data 28 4).
(** After the zero that ends the name there is nothing but 0xffff. *)
Fixpoint fat_padding (l : list N) : bool :=
  match l with [] => true | a :: l => if a =? 0 then forallb (N.eqb 0xffff) l else fat_padding l end.
Definition fat_long_entry_of (data : list N) : N * list N := (byte data 0, up_to_zero (fat_units data)).
