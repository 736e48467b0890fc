(** * Model of the readers of on-disk header structures in keramics-formats

    Every reader takes the bytes of the structure. What a structure keeps of a failed read
    is left out. The [debug_read_data] methods, which only print, are left out. Line numbers
    are those of the file named by the section. *)
From Verif Require Import Base Bytes_model Checksums_model Uuid_model Strings_model Part_model.

Definition contains (l : list N) (v : N) : bool := existsb (N.eqb v) l.
(** keramics-checksums/src/crc32.rs: [ReversedCrc32Context::new(0x82f63b78, seed)], one [update]
    per chunk, [finalize] *)
Definition crc32c_of (seed : N) (chunks : list (list N)) : res N :=
  c <- crc_updates rcrc_update (crc_new 0x82f63b78 seed) chunks ;; Ok (fst (crc_finalize c)).

(** ** NTFS: keramics-formats/src/ntfs/ *)

(** boot_record.rs 58-79 *)
Record ntfs_boot := { nb_bytes_per_sector : N; nb_cluster_block_size : N; nb_mft_block : N;
  nb_mirror_mft_block : N; nb_mft_entry_size : N; nb_index_entry_size : N; nb_serial : N }.
(** boot_record.rs 117-129 *)
Definition ntfs_cluster_sectors (sectors : N) : res N :=
  if sectors <=? 128 then Ok sectors
  else
    exponent <- sub_chk 256 sectors ;;
    check (exponent <=? 12) ;;;
    shl_chk 32 1 exponent.
(** boot_record.rs 140-166 and 173-198: [minimum] and [maximum] are those of the MFT entry
    and of the index entry *)
Definition ntfs_entry_size (cluster_block_size stored minimum maximum : N) : res N :=
  check (negb ((stored =? 0) || (255 <? stored))) ;;;
  size <- (if stored <? 128 then mul_chk two32 stored cluster_block_size
           else exponent <- sub_chk 256 stored ;; check (exponent <=? 32) ;;; shl_chk 32 1 exponent) ;;
  check (negb ((size <? minimum) || (maximum <? size))) ;;;
  Ok size.
(** boot_record.rs 96-208 *)
Definition ntfs_boot_read (data : list N) : res ntfs_boot :=
  check (512 <=? len data) ;;;
  signature <- slice data 3 11 ;;
  check (same signature [0x4e; 0x54; 0x46; 0x53; 0x20; 0x20; 0x20; 0x20]) ;;;
  bytes_per_sector <- u16_le data 11 ;;
  check (contains [256; 512; 1024; 2048; 4096] bytes_per_sector) ;;;
  sectors <- idx data 13 ;;
  sectors <- ntfs_cluster_sectors sectors ;;
  cluster_block_size <- mul_chk two32 sectors bytes_per_sector ;;
  check (contains [256; 512; 1024; 2048; 4096; 8192; 16384; 32768; 65536; 131072; 262144; 524288;
                   1048576; 2097152] cluster_block_size) ;;;
  stored <- u32_le data 64 ;;
  mft_entry_size <- ntfs_entry_size cluster_block_size stored 42 65535 ;;
  mft_block <- u64_le data 48 ;;
  mirror <- u64_le data 56 ;;
  serial <- u64_le data 72 ;;
  stored <- u32_le data 68 ;;
  index_entry_size <- ntfs_entry_size cluster_block_size stored 32 16777216 ;;
  number_of_sectors <- u64_le data 40 ;;
  maximum <- div_chk 0xffffffffffffffff bytes_per_sector ;;
  check (number_of_sectors <=? maximum) ;;;
  Ok {| nb_bytes_per_sector := bytes_per_sector; nb_cluster_block_size := cluster_block_size;
        nb_mft_block := mft_block; nb_mirror_mft_block := mirror; nb_mft_entry_size := mft_entry_size;
        nb_index_entry_size := index_entry_size; nb_serial := serial |}.

(** mft_entry_header.rs 42-63 *)
Record mft_entry_header := { mh_fixup_offset : N; mh_fixups : N; mh_journal : N; mh_sequence : N;
  mh_attributes_offset : N; mh_size : N; mh_base : N }.
(** mft_entry_header.rs 80-100 *)
Definition mft_entry_header_read (data : list N) : res mft_entry_header :=
  check (42 <=? len data) ;;;
  signature <- slice data 0 4 ;;
  check (same signature [0x46; 0x49; 0x4c; 0x45]) ;;;
  fixup_offset <- u16_le data 4 ;;
  fixups <- u16_le data 6 ;;
  journal <- u64_le data 8 ;;
  sequence <- u16_le data 16 ;;
  attributes_offset <- u16_le data 20 ;;
  size <- u32_le data 28 ;;
  base <- u64_le data 32 ;;
  Ok {| mh_fixup_offset := fixup_offset; mh_fixups := fixups; mh_journal := journal;
        mh_sequence := sequence; mh_attributes_offset := attributes_offset; mh_size := size;
        mh_base := base |}.

(** index_entry_header.rs 51-66: the offset of the fix-up values and their number *)
Definition index_entry_header_read (data : list N) : res (N * N) :=
  check (24 <=? len data) ;;;
  signature <- slice data 0 4 ;;
  check (same signature [0x49; 0x4e; 0x44; 0x58]) ;;;
  fixup_offset <- u16_le data 4 ;;
  fixups <- u16_le data 6 ;;
  Ok (fixup_offset, fixups).

(** index_node_header.rs 52-63: offset of the values, size, flags *)
Definition index_node_header_read (data : list N) : res (N * N * N) :=
  check (16 <=? len data) ;;;
  values_offset <- u32_le data 0 ;;
  size <- u32_le data 4 ;;
  flags <- u32_le data 12 ;;
  Ok (values_offset, size, flags).

(** index_root_header.rs 52-63: attribute type, collation type, index entry size *)
Definition index_root_header_read (data : list N) : res (N * N * N) :=
  check (16 <=? len data) ;;;
  attribute_type <- u32_le data 0 ;;
  collation_type <- u32_le data 4 ;;
  index_entry_size <- u32_le data 8 ;;
  Ok (attribute_type, collation_type, index_entry_size).

(** index_value.rs 56-68: file reference, size, key data size, flags *)
Record index_value := { iv_file_reference : N; iv_size : N; iv_key_size : N; iv_flags : N }.
Definition index_value_read (data : list N) : res index_value :=
  check (16 <=? len data) ;;;
  file_reference <- u64_le data 0 ;;
  size <- u16_le data 8 ;;
  key_size <- u16_le data 10 ;;
  flags <- u32_le data 12 ;;
  Ok {| iv_file_reference := file_reference; iv_size := size; iv_key_size := key_size; iv_flags := flags |}.

(** reparse_point_header.rs 47-58: tag and data size *)
Definition reparse_header_read (data : list N) : res (N * N) :=
  check (8 <=? len data) ;;;
  tag <- u32_le data 0 ;;
  data_size <- u16_le data 4 ;;
  Ok (tag, data_size).

(** wof_reparse_data.rs 44-54: the compression method *)
Definition wof_reparse_read (data : list N) : res N :=
  check (len data =? 16) ;;;
  u32_le data 12.

(** mft_attribute_header.rs 33-51 *)
Record attribute_header := { ah_type : N; ah_size : N; ah_non_resident : N; ah_name_size : N;
  ah_name_offset : N; ah_data_flags : N }.
(** mft_attribute_header.rs 67-81 *)
Definition attribute_header_read (data : list N) : res attribute_header :=
  check (16 <=? len data) ;;;
  type <- u32_le data 0 ;;
  size <- u32_le data 4 ;;
  non_resident <- idx data 8 ;;
  name_size <- idx data 9 ;;
  name_offset <- u16_le data 10 ;;
  data_flags <- u16_le data 12 ;;
  Ok {| ah_type := type; ah_size := size; ah_non_resident := non_resident; ah_name_size := name_size;
        ah_name_offset := name_offset; ah_data_flags := data_flags |}.

(** mft_attribute_resident.rs 48-58: data size and data offset *)
Definition attribute_resident_read (data : list N) : res (N * N) :=
  check (8 <=? len data) ;;;
  data_size <- u32_le data 0 ;;
  data_offset <- u16_le data 4 ;;
  Ok (data_size, data_offset).

(** mft_attribute_non_resident.rs 35-59 *)
Record attribute_non_resident := { an_first_vcn : N; an_last_vcn : N; an_runs_offset : N;
  an_compression_unit : N; an_allocated : N; an_size : N; an_valid : N; an_compressed : N }.
(** mft_attribute_non_resident.rs 77-112 *)
Definition attribute_non_resident_read (data : list N) : res attribute_non_resident :=
  check (48 <=? len data) ;;;
  compression_unit <- u16_le data 18 ;;
  unit_size <- (if 0 <? compression_unit then
      check (56 <=? len data) ;;;
      check (compression_unit <=? 31) ;;;
      shl_chk 32 1 compression_unit
    else Ok 0) ;;
  first_vcn <- u64_le data 0 ;;
  last_vcn <- u64_le data 8 ;;
  runs_offset <- u16_le data 16 ;;
  allocated <- u64_le data 24 ;;
  size <- u64_le data 32 ;;
  valid <- u64_le data 40 ;;
  compressed <- (if 0 <? compression_unit then u64_le data 48 else Ok 0) ;;
  Ok {| an_first_vcn := first_vcn; an_last_vcn := last_vcn; an_runs_offset := runs_offset;
        an_compression_unit := unit_size; an_allocated := allocated; an_size := size;
        an_valid := valid; an_compressed := compressed |}.

(** attribute_list_entry.rs 33-48 *)
Record attribute_list_entry := { al_type : N; al_size : N; al_name_size : N; al_name_offset : N;
  al_file_reference : N }.
(** attribute_list_entry.rs 63-74 *)
Definition attribute_list_entry_read (data : list N) : res attribute_list_entry :=
  check (26 <=? len data) ;;;
  type <- u32_le data 0 ;;
  size <- u16_le data 4 ;;
  name_size <- idx data 6 ;;
  name_offset <- idx data 7 ;;
  file_reference <- u64_le data 16 ;;
  Ok {| al_type := type; al_size := size; al_name_size := name_size; al_name_offset := name_offset;
        al_file_reference := file_reference |}.
(** attribute_list.rs 41-66: each turn of the loop takes one unit of fuel; [None]: the fuel
    ran out before the loop ended *)
Fixpoint attribute_list_loop (fuel : nat) (data : list N) (data_offset : N) :
    option (res (list attribute_list_entry)) :=
  if data_offset <? len data then
    match fuel with
    | O => None
    | S fuel =>
        match (d <- slice data data_offset (len data) ;; attribute_list_entry_read d) with
        | Ok entry =>
            match attribute_list_loop fuel data (data_offset + al_size entry) with
            | None => None
            | Some r => Some (entries <- r ;; Ok (entry :: entries))
            end
        | Err => Some Err
        | Panic => Some Panic
        end
    end
  else Some (Ok []).

(** volume_information.rs 55-66: major and minor version, flags *)
Definition volume_information_read (data : list N) : res (N * N * N) :=
  check (12 <=? len data) ;;;
  major <- idx data 8 ;;
  minor <- idx data 9 ;;
  flags <- u16_le data 10 ;;
  Ok (major, minor, flags).

(** A [DateTime] holding a FILETIME, or [NotSet]: standard_information.rs 92-98 *)
Definition filetime_of (data : list N) (offset : N) : res (option N) :=
  d <- slice data offset (len data) ;;
  timestamp <- u64_le d 0 ;;
  Ok (if timestamp =? 0 then None else Some timestamp).
(** standard_information.rs 42-66 *)
Record standard_information := { si_creation : option N; si_modification : option N;
  si_entry_modification : option N; si_access : option N; si_flags : N; si_maximum_versions : N;
  si_version : N; si_owner : option N }.
(** standard_information.rs 84-128 *)
Definition standard_information_read (data : list N) : res standard_information :=
  check (48 <=? len data) ;;;
  creation <- filetime_of data 0 ;;
  modification <- filetime_of data 8 ;;
  entry_modification <- filetime_of data 16 ;;
  access <- filetime_of data 24 ;;
  flags <- u32_le data 32 ;;
  maximum_versions <- u32_le data 36 ;;
  version <- u32_le data 40 ;;
  owner <- (if 52 <=? len data then owner <- u32_le data 48 ;; Ok (Some owner) else Ok None) ;;
  Ok {| si_creation := creation; si_modification := modification;
        si_entry_modification := entry_modification; si_access := access; si_flags := flags;
        si_maximum_versions := maximum_versions; si_version := version; si_owner := owner |}.

(** file_name.rs 41-74 *)
Record file_name := { fn_parent : N; fn_creation : option N; fn_modification : option N;
  fn_entry_modification : option N; fn_access : option N; fn_size : N; fn_flags : N;
  fn_name_size : N; fn_name_space : N; fn_name : list N; fn_reparse_tag : option N }.
(** file_name.rs 95-152 *)
Definition file_name_read (data : list N) : res file_name :=
  check (66 <=? len data) ;;;
  parent <- u64_le data 0 ;;
  creation <- filetime_of data 8 ;;
  modification <- filetime_of data 16 ;;
  entry_modification <- filetime_of data 24 ;;
  access <- filetime_of data 32 ;;
  size <- u64_le data 48 ;;
  flags <- u32_le data 56 ;;
  tag <- (if negb (N.land flags 0x400 =? 0) then tag <- u32_le data 60 ;; Ok (Some tag) else Ok None) ;;
  name_size <- idx data 64 ;;
  name_space <- idx data 65 ;;
  name <- (if 66 <? len data then
      let data_end_offset := 66 + name_size * 2 in
      check (data_end_offset <=? len data) ;;;
      d <- slice data 66 data_end_offset ;;
      ucs2_read_data_le [] d
    else Ok []) ;;
  Ok {| fn_parent := parent; fn_creation := creation; fn_modification := modification;
        fn_entry_modification := entry_modification; fn_access := access; fn_size := size;
        fn_flags := flags; fn_name_size := name_size; fn_name_space := name_space; fn_name := name;
        fn_reparse_tag := tag |}.

(** ** ext: keramics-formats/src/ext/ *)

(** superblock.rs 140-197 *)
Record ext_superblock := { es_inodes : N; es_blocks : N; es_block_size : N; es_blocks_per_group : N;
  es_inodes_per_group : N; es_mounted : Z; es_written : Z; es_revision : N; es_inode_size : N;
  es_compatible : N; es_incompatible : N; es_read_only : N; es_identifier : list N; es_label : list N;
  es_mount_path : list N; es_descriptor_size : N; es_first_meta_group : N; es_groups_per_flex : N;
  es_seed : option N }.
(** superblock.rs 226-341; [1024 << block_size] keeps the low 32 bits *)
Definition ext_superblock_read (data : list N) : res ext_superblock :=
  check (len data =? 1024) ;;;
  signature <- slice data 56 58 ;;
  check (same signature [0x53; 0xef]) ;;;
  revision <- u32_le data 76 ;;
  check (revision <=? 1) ;;;
  compatible <- u32_le data 92 ;;
  incompatible <- u32_le data 96 ;;
  read_only <- u32_le data 100 ;;
  inodes <- u32_le data 0 ;;
  lower <- u32_le data 4 ;;
  blocks <- (if negb (N.land incompatible 0x80 =? 0)
             then upper <- u32_le data 336 ;; Ok (N.lor lower (N.shiftl upper 32)) else Ok lower) ;;
  check (negb (blocks =? 0)) ;;;
  exponent <- u32_le data 24 ;;
  check (exponent <=? 22) ;;;
  block_size <- shl_chk 32 1024 exponent ;;
  blocks_per_group <- u32_le data 32 ;;
  check (negb (blocks_per_group =? 0)) ;;;
  inodes_per_group <- u32_le data 40 ;;
  check (negb ((N.land incompatible 8 =? 0) && (inodes_per_group =? 0))) ;;;
  mounted <- i32_le data 44 ;;
  written <- i32_le data 48 ;;
  inode_size <- u16_le data 88 ;;
  descriptor_size <- u16_le data 254 ;;
  first_meta_group <- u32_le data 260 ;;
  identifier <- slice data 104 120 ;;
  label <- slice data 120 136 ;;
  mount_path <- slice data 136 200 ;;
  flex <- idx data 372 ;;
  check (flex <? 16) ;;;
  groups_per_flex <- shl_chk 32 1 flex ;;
  seed <- (if negb (N.land incompatible 0x2000 =? 0)
           then stored <- u32_le data 624 ;; seed <- sub_chk 0xffffffff stored ;; Ok (Some seed)
           else Ok None) ;;
  (if negb (N.land read_only 0x400 =? 0) then
     checksum_type <- idx data 373 ;;
     check (checksum_type =? 1) ;;;
     stored <- u32_le data 1020 ;;
     d <- slice data 0 1020 ;;
     calculated <- crc32c_of 0 [d] ;;
     calculated <- sub_chk 0xffffffff calculated ;;
     check (negb (negb (stored =? 0) && negb (stored =? calculated)))
   else Ok tt) ;;;
  Ok {| es_inodes := inodes; es_blocks := blocks; es_block_size := block_size;
        es_blocks_per_group := blocks_per_group; es_inodes_per_group := inodes_per_group;
        es_mounted := mounted; es_written := written; es_revision := revision;
        es_inode_size := inode_size; es_compatible := compatible; es_incompatible := incompatible;
        es_read_only := read_only; es_identifier := identifier;
        es_label := string_from_slice label; es_mount_path := string_from_slice mount_path;
        es_descriptor_size := descriptor_size; es_first_meta_group := first_meta_group;
        es_groups_per_flex := groups_per_flex; es_seed := seed |}.

(** group_descriptor_ext2.rs 40-53 and group_descriptor_ext4.rs 74-93, chosen by
    group_descriptor.rs 47-53: block number of the inode table, and the checksum *)
Definition ext_group_descriptor_read (version : N) (data : list N) : res (N * N) :=
  check ((len data =? 32) || ((version =? 4) && (len data =? 64))) ;;;
  lower <- u32_le data 8 ;;
  block <- (if (version =? 4) && (44 <=? len data)
            then upper <- u32_le data 40 ;; Ok (N.lor lower (N.shiftl upper 32)) else Ok lower) ;;
  checksum <- u16_le data 30 ;;
  Ok (block, checksum).

(** directory_entry.rs 57-69: inode number, size, name size, file type *)
Definition ext_directory_entry_read (data : list N) : res (N * N * N * N) :=
  check (8 <=? len data) ;;;
  inode <- u32_le data 0 ;;
  size <- u16_le data 4 ;;
  name_size <- idx data 6 ;;
  file_type <- idx data 7 ;;
  Ok (inode, size, name_size, file_type).

(** attributes_entry.rs 32-47 *)
Record ext_attributes_entry := { ea_name_size : N; ea_name_index : N; ea_value_offset : N;
  ea_value_inode : N; ea_value_size : N }.
(** attributes_entry.rs 62-75 *)
Definition ext_attributes_entry_read (data : list N) : res ext_attributes_entry :=
  check (16 <=? len data) ;;;
  name_size <- idx data 0 ;;
  name_index <- idx data 1 ;;
  value_offset <- u16_le data 2 ;;
  value_inode <- u32_le data 4 ;;
  value_size <- u32_le data 8 ;;
  Ok {| ea_name_size := name_size; ea_name_index := name_index; ea_value_offset := value_offset;
        ea_value_inode := value_inode; ea_value_size := value_size |}.

(** attributes_block_header.rs 43-63 *)
Definition ext_attributes_header_read (data : list N) : res unit :=
  check (len data =? 32) ;;;
  signature <- slice data 0 4 ;;
  check (same signature [0; 0; 2; 0xea]) ;;;
  blocks <- u32_le data 8 ;;
  check (blocks =? 1).

(** extents_footer.rs 35-44 *)
Definition ext_extents_footer_read (data : list N) : res N :=
  check (len data =? 4) ;;;
  u32_le data 0.

(** ** FAT: keramics-formats/src/fat/ *)

(** boot_record.rs 24-57 *)
Record fat_boot := { fb_bytes_per_sector : N; fb_sectors_per_cluster : N; fb_reserved_sectors : N;
  fb_tables : N; fb_root_entries : N; fb_table_size : N; fb_sectors : N; fb_root_cluster : N;
  fb_serial : N; fb_label : list N }.
(** The slice without trailing spaces, or all of it when it has nothing else:
    boot_record_fat12.rs 103-106 *)
Fixpoint leading_spaces (l : list N) : option nat :=
  match l with
  | [] => None
  | b :: l => if b =? 0x20 then option_map S (leading_spaces l) else Some O
  end.
Definition trim_spaces (l : list N) : list N :=
  match leading_spaces (rev l) with
  | Some n => firstn (length l - n) l
  | None => l
  end.
(** boot_record_fat12.rs 55-110 *)
Definition fat12_boot_read (data : list N) : res fat_boot :=
  check (512 <=? len data) ;;;
  signature <- slice data 510 512 ;;
  check (same signature [0x55; 0xaa]) ;;;
  bytes_per_sector <- u16_le data 11 ;;
  check (contains [512; 1024; 2048; 4096] bytes_per_sector) ;;;
  sectors_per_cluster <- idx data 13 ;;
  check (contains [1; 2; 4; 8; 16; 32; 64; 128] sectors_per_cluster) ;;;
  reserved <- u16_le data 14 ;;
  tables <- idx data 16 ;;
  root_entries <- u16_le data 17 ;;
  sectors16 <- u16_le data 19 ;;
  table_size <- u16_le data 22 ;;
  sectors32 <- u32_le data 32 ;;
  let sectors := if negb (sectors32 =? 0) then sectors32 else sectors16 in
  extended <- idx data 38 ;;
  '(serial, label) <- (if extended =? 0x29 then
      serial <- u32_le data 39 ;; label <- slice data 43 54 ;; Ok (serial, trim_spaces label)
    else Ok (0, [])) ;;
  Ok {| fb_bytes_per_sector := bytes_per_sector; fb_sectors_per_cluster := sectors_per_cluster;
        fb_reserved_sectors := reserved; fb_tables := tables; fb_root_entries := root_entries;
        fb_table_size := table_size; fb_sectors := sectors; fb_root_cluster := 0;
        fb_serial := serial; fb_label := label |}.
(** boot_record_fat32.rs 63-140 *)
Definition fat32_boot_read (data : list N) : res fat_boot :=
  check (512 <=? len data) ;;;
  signature <- slice data 510 512 ;;
  check (same signature [0x55; 0xaa]) ;;;
  bytes_per_sector <- u16_le data 11 ;;
  check (contains [512; 1024; 2048; 4096] bytes_per_sector) ;;;
  sectors_per_cluster <- idx data 13 ;;
  check (contains [1; 2; 4; 8; 16; 32; 64; 128] sectors_per_cluster) ;;;
  reserved <- u16_le data 14 ;;
  tables <- idx data 16 ;;
  root_entries <- u16_le data 17 ;;
  check (root_entries =? 0) ;;;
  sectors16 <- u16_le data 19 ;;
  check (sectors16 =? 0) ;;;
  table_size16 <- u16_le data 22 ;;
  check (table_size16 =? 0) ;;;
  sectors <- u32_le data 32 ;;
  table_size <- u32_le data 36 ;;
  root_cluster <- u32_le data 44 ;;
  check (2 <=? root_cluster) ;;;
  extended <- idx data 66 ;;
  '(serial, label) <- (if extended =? 0x29 then
      serial <- u32_le data 67 ;; label <- slice data 71 82 ;; Ok (serial, trim_spaces label)
    else Ok (0, [])) ;;
  Ok {| fb_bytes_per_sector := bytes_per_sector; fb_sectors_per_cluster := sectors_per_cluster;
        fb_reserved_sectors := reserved; fb_tables := tables; fb_root_entries := 0;
        fb_table_size := table_size; fb_sectors := sectors; fb_root_cluster := root_cluster;
        fb_serial := serial; fb_label := label |}.
(** boot_record.rs 78-126, once the 512 bytes are read *)
Definition fat_boot_read (data : list N) : res fat_boot :=
  a <- slice data 17 21 ;;
  b <- slice data 22 24 ;;
  if same a [0; 0; 0; 0] && same b [0; 0] then fat32_boot_read data else fat12_boot_read data.

(** short_name_directory_entry.rs 41-65; the times as their stored numbers *)
Record fat_short_entry := { fs_name : list N; fs_attributes : N; fs_flags : N; fs_created : N * N * N;
  fs_accessed : N; fs_modified : N * N; fs_cluster : N; fs_size : N }.
(** short_name_directory_entry.rs 96-102 and 112-118 *)
Definition lower_name (lower : bool) (name : list N) : list N :=
  map (fun b => if lower && (0x41 <=? b) && (b <=? 0x5a) then b + 32 else b) name.
(** short_name_directory_entry.rs 83-128; keramics-datetime/src/fat.rs: the time stamps are
    (date, time, hundredths), (date) and (date, time) *)
Definition fat_short_entry_read (data : list N) : res fat_short_entry :=
  check (32 <=? len data) ;;;
  attributes <- idx data 11 ;;
  flags <- idx data 12 ;;
  base <- slice data 0 8 ;;
  let name := lower_name (negb (N.land flags 0x08 =? 0)) (trim_spaces base) in
  c <- idx data 8 ;;
  extension <- (if negb (c =? 0) && negb (c =? 0x20) then
      e <- slice data 8 11 ;;
      Ok ((if negb (N.land attributes 0x58 =? 0x08) then [0x2e] else []) ++
          lower_name (negb (N.land flags 0x10 =? 0)) (trim_spaces e))
    else Ok []) ;;
  fraction <- idx data 13 ;;
  created_time <- u16_le data 14 ;;
  created_date <- u16_le data 16 ;;
  accessed <- u16_le data 18 ;;
  modified_time <- u16_le data 22 ;;
  modified_date <- u16_le data 24 ;;
  cluster <- u16_le data 26 ;;
  size <- u32_le data 28 ;;
  Ok {| fs_name := name ++ extension; fs_attributes := attributes; fs_flags := flags;
        fs_created := (created_date, created_time, fraction); fs_accessed := accessed;
        fs_modified := (modified_date, modified_time); fs_cluster := cluster; fs_size := size |}.
(** long_name_directory_entry.rs 51-68: sequence number and name *)
Definition fat_long_entry_read (data : list N) : res (N * list N) :=
  check (32 <=? len data) ;;;
  sequence <- idx data 0 ;;
  d <- slice data 1 11 ;;
  name <- ucs2_read_data_le [] d ;;
  m <- slice data 14 16 ;;
  name <- (if (len name =? 5) || negb (same m [0xff; 0xff])
           then d <- slice data 14 26 ;; ucs2_read_data_le name d else Ok name) ;;
  m <- slice data 28 30 ;;
  name <- (if (len name =? 11) || negb (same m [0xff; 0xff])
           then d <- slice data 28 32 ;; ucs2_read_data_le name d else Ok name) ;;
  Ok (sequence, name).

(** ** VHDX: keramics-formats/src/vhdx/ *)

(** file_header.rs 40-52 *)
Definition vhdx_file_header_read (data : list N) : res unit :=
  check (len data =? 65536) ;;;
  signature <- slice data 0 8 ;;
  check (same signature [0x76; 0x68; 0x64; 0x78; 0x66; 0x69; 0x6c; 0x65]).

(** image_header.rs 63-95: sequence number, data write identifier, format version *)
Definition vhdx_image_header_read (data : list N) : res (N * uuid * N) :=
  check (len data =? 4096) ;;;
  signature <- slice data 0 4 ;;
  check (same signature [0x68; 0x65; 0x61; 0x64]) ;;;
  stored <- u32_le data 4 ;;
  sequence <- u64_le data 8 ;;
  d <- slice data 32 48 ;;
  identifier <- uuid_from_le_bytes d ;;
  version <- u16_le data 66 ;;
  a <- slice data 0 4 ;;
  b <- slice data 8 4096 ;;
  calculated <- crc32c_of 0 [a; [0; 0; 0; 0]; b] ;;
  check (negb (negb (stored =? 0) && negb (stored =? calculated))) ;;;
  Ok (sequence, identifier, version).

(** region_table_header.rs 50-71: checksum and number of entries *)
Definition vhdx_region_header_read (data : list N) : res (N * N) :=
  check (16 <=? len data) ;;;
  signature <- slice data 0 4 ;;
  check (same signature [0x72; 0x65; 0x67; 0x69]) ;;;
  checksum <- u32_le data 4 ;;
  entries <- u32_le data 8 ;;
  check (entries <=? 2047) ;;;
  Ok (checksum, entries).
(** region_table_entry.rs 30-42 *)
Record vhdx_region_entry := { vr_type : uuid; vr_offset : N; vr_size : N; vr_required : bool }.
(** region_table_entry.rs 56-73 *)
Definition vhdx_region_entry_read (data : list N) : res vhdx_region_entry :=
  check (len data =? 32) ;;;
  required <- u32_le data 28 ;;
  d <- slice data 0 16 ;;
  type <- uuid_from_le_bytes d ;;
  offset <- u64_le data 16 ;;
  size <- u32_le data 24 ;;
  Ok {| vr_type := type; vr_offset := offset; vr_size := size;
        vr_required := negb (N.land required 1 =? 0) |}.
(** The entries in the order in which they are put in the map: region_table.rs 75-102 and
    metadata_table.rs 62-89 *)
Fixpoint vhdx_entries {A} (read : list N -> res A) (data : list N) (n : nat) (data_offset : N) : res (list A) :=
  match n with
  | O => Ok []
  | S n =>
      let data_end_offset := data_offset + 32 in
      d <- slice data data_offset data_end_offset ;;
      entry <- read d ;;
      entries <- vhdx_entries read data n data_end_offset ;;
      Ok (entry :: entries)
  end.
(** region_table.rs 44-104 *)
Definition vhdx_region_table_read (data : list N) : res (list vhdx_region_entry) :=
  '(checksum, entries) <- vhdx_region_header_read data ;;
  a <- slice data 0 4 ;;
  b <- slice data 8 65536 ;;
  calculated <- crc32c_of 0 [a; [0; 0; 0; 0]; b] ;;
  check (negb (negb (checksum =? 0) && negb (checksum =? calculated))) ;;;
  vhdx_entries vhdx_region_entry_read data (N.to_nat entries) 16.

(** metadata_table_header.rs 46-60 *)
Definition vhdx_metadata_header_read (data : list N) : res N :=
  check (32 <=? len data) ;;;
  signature <- slice data 0 8 ;;
  check (same signature [0x6d; 0x65; 0x74; 0x61; 0x64; 0x61; 0x74; 0x61]) ;;;
  u16_le data 10.
(** metadata_table_entry.rs 52-69: item identifier, offset and size *)
Definition vhdx_metadata_entry_read (data : list N) : res (uuid * N * N) :=
  check (len data =? 32) ;;;
  d <- slice data 0 16 ;;
  identifier <- uuid_from_le_bytes d ;;
  offset <- u32_le data 16 ;;
  size <- u32_le data 20 ;;
  check (65536 <=? offset) ;;;
  Ok (identifier, offset, size).
(** metadata_table.rs 43-91 *)
Definition vhdx_metadata_table_read (data : list N) : res (list (uuid * N * N)) :=
  entries <- vhdx_metadata_header_read data ;;
  vhdx_entries vhdx_metadata_entry_read data (N.to_nat entries) 32.

(** parent_locator_header.rs 45-59 *)
Definition vhdx_locator_header_read (data : list N) : res N :=
  check (20 <=? len data) ;;;
  type <- slice data 0 16 ;;
  check (same type [0xb7; 0xef; 0x4a; 0xb0; 0x9e; 0xd1; 0x81; 0x4a; 0xb7; 0x89; 0x25; 0xb8; 0xe9; 0x44; 0x59; 0x13]) ;;;
  u16_le data 18.
(** parent_locator_entry.rs 30-42 *)
Record vhdx_locator_entry := { vl_key_offset : N; vl_value_offset : N; vl_key_size : N; vl_value_size : N }.
(** parent_locator_entry.rs 56-68 *)
Definition vhdx_locator_entry_read (data : list N) : res vhdx_locator_entry :=
  check (len data =? 12) ;;;
  key_offset <- u32_le data 0 ;;
  value_offset <- u32_le data 4 ;;
  key_size <- u16_le data 8 ;;
  value_size <- u16_le data 10 ;;
  Ok {| vl_key_offset := key_offset; vl_value_offset := value_offset; vl_key_size := key_size;
        vl_value_size := value_size |}.
(** parent_locator.rs 63-161: the keys and values in the order in which they are put in the map;
    the keys as UCS-2 *)
Fixpoint vhdx_locator_entries (data : list N) (n : nat) (data_offset : N) : res (list (list N * list N)) :=
  match n with
  | O => Ok []
  | S n =>
      let data_end_offset := data_offset + 12 in
      check (data_end_offset <=? len data) ;;;
      d <- slice data data_offset data_end_offset ;;
      e <- vhdx_locator_entry_read d ;;
      check (negb ((vl_key_offset e <? 20) || (len data <=? vl_key_offset e))) ;;;
      room <- sub_chk (len data) (vl_key_offset e) ;;
      check (vl_key_size e <=? room) ;;;
      check (negb ((vl_value_offset e <? 20) || (len data <=? vl_value_offset e))) ;;;
      room <- sub_chk (len data) (vl_value_offset e) ;;
      check (vl_value_size e <=? room) ;;;
      d <- slice data (vl_key_offset e) (vl_key_offset e + vl_key_size e) ;;
      key <- ucs2_read_data_le [] d ;;
      d <- slice data (vl_value_offset e) (vl_value_offset e + vl_value_size e) ;;
      value <- ucs2_read_data_le [] d ;;
      entries <- vhdx_locator_entries data n data_end_offset ;;
      Ok ((key, value) :: entries)
  end.
(** parent_locator.rs 43-163 *)
Definition vhdx_locator_read (data : list N) : res (list (list N * list N)) :=
  entries <- vhdx_locator_header_read data ;;
  vhdx_locator_entries data (N.to_nat entries) 20.
