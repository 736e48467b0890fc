(** * Model of keramics-formats/src/ext: inodes, directories and the file system *)
From Verif Require Import Base Bytes_model Streams_model BlockTree_model Blocks_model Strings_model Part_model
  Ext_model Headers_model.

(** ** Inodes *)

(** [DateTime] as the inodes use it *)
Inductive ext_time := TNotSet | TPosix32 (timestamp : Z) | TPosix64Ns (timestamp : Z) (fraction : N).
(** inode.rs 30-87; [block_ranges] is kept apart. Of the attributes, which are never filled
    in (attributes_block.rs 79-80), only the number is kept. *)
Record ext_inode := { xi_mode : N; xi_owner : N; xi_group : N; xi_size : N;
  xi_access_stamp : Z; xi_access : ext_time; xi_change_stamp : Z; xi_change : ext_time;
  xi_modification_stamp : Z; xi_modification : ext_time; xi_deletion : ext_time;
  xi_links : N; xi_blocks : N; xi_flags : N; xi_reference : list N; xi_checksum : N;
  xi_creation : option ext_time; xi_attributes : N }.

(** [if timestamp > 0 { ... PosixTime32 }] of a time that was not set *)
Definition posix32 (t : Z) : ext_time := if (0 <? t)%Z then TPosix32 t else TNotSet.
(** [((upper as u32) << 16) | (lower as u32)] *)
Definition join16 (lower upper : N) : N := N.lor (N.shiftl upper 16) lower.
Definition join32 (lower upper : N) : N := N.lor (N.shiftl upper 32) lower.

(** inode_ext2.rs 56-98 and inode_ext3.rs 56-98, which are the same *)
Definition ext2_inode_read (data : list N) : res ext_inode :=
  check (128 <=? len data) ;;;
  mode <- u16_le data 0 ;;
  owner_lower <- u16_le data 2 ;; owner_upper <- u16_le data 120 ;;
  group_lower <- u16_le data 24 ;; group_upper <- u16_le data 122 ;;
  size <- u32_le data 4 ;;
  access <- i32_le data 8 ;;
  change <- i32_le data 12 ;;
  modification <- i32_le data 16 ;;
  deletion <- i32_le data 20 ;;
  links <- u16_le data 26 ;;
  blocks <- u32_le data 28 ;;
  flags <- u32_le data 32 ;;
  reference <- slice data 40 100 ;;
  Ok {| xi_mode := mode; xi_owner := join16 owner_lower owner_upper;
        xi_group := join16 group_lower group_upper; xi_size := size;
        xi_access_stamp := access; xi_access := posix32 access;
        xi_change_stamp := change; xi_change := posix32 change;
        xi_modification_stamp := modification; xi_modification := posix32 modification;
        xi_deletion := posix32 deletion; xi_links := links; xi_blocks := blocks; xi_flags := flags;
        xi_reference := reference; xi_checksum := 0; xi_creation := None; xi_attributes := 0 |}.

(** inode_ext4.rs 56-109 *)
Definition ext4_inode_read (data : list N) : res ext_inode :=
  check (128 <=? len data) ;;;
  mode <- u16_le data 0 ;;
  owner_lower <- u16_le data 2 ;; owner_upper <- u16_le data 120 ;;
  group_lower <- u16_le data 24 ;; group_upper <- u16_le data 122 ;;
  size_lower <- u32_le data 4 ;; size_upper <- u32_le data 108 ;;
  flags <- u32_le data 32 ;;
  '(access, change, modification, deletion) <-
    (if N.land flags 0x00200000 =? 0 then
       access <- i32_le data 8 ;;
       change <- i32_le data 12 ;;
       modification <- i32_le data 16 ;;
       deletion <- i32_le data 20 ;;
       Ok (access, change, modification, deletion)
     else Ok (0, 0, 0, 0)%Z) ;;
  links <- u16_le data 26 ;;
  blocks_lower <- u32_le data 28 ;; blocks_upper <- u16_le data 116 ;;
  reference <- slice data 40 100 ;;
  checksum <- u16_le data 124 ;;
  Ok {| xi_mode := mode; xi_owner := join16 owner_lower owner_upper;
        xi_group := join16 group_lower group_upper; xi_size := join32 size_lower size_upper;
        xi_access_stamp := access; xi_access := posix32 access;
        xi_change_stamp := change; xi_change := posix32 change;
        xi_modification_stamp := modification; xi_modification := posix32 modification;
        xi_deletion := posix32 deletion; xi_links := links;
        xi_blocks := join32 blocks_lower blocks_upper; xi_flags := flags;
        xi_reference := reference; xi_checksum := checksum; xi_creation := None; xi_attributes := 0 |}.

(** attributes_entry.rs 78-106: the name is only shown in debug output *)
Definition attribute_name_check (entry : ext_attributes_entry) (data : list N) : res unit :=
  check (ea_name_size entry <=? len data) ;;;
  check (contains [0; 1; 2; 3; 4; 6; 7; 8] (ea_name_index entry)) ;;;
  _ <- slice data 0 (ea_name_size entry) ;;
  Ok tt.
(** attributes_block.rs 36-120: the number of attributes pushed. Every round moves at least
    16 bytes ahead. *)
Fixpoint attributes_read (fuel : nat) (data : list N) (offset count : N) : res N :=
  match fuel with
  | O => Panic
  | S fuel =>
      if negb (offset <? len data) then Ok count
      else if len data <=? offset + 8 then Ok count
      else
        head <- slice data offset (offset + 4) ;;
        if same head [0; 0; 0; 0] then Ok count
        else if len data <=? offset + 16 then Ok count
        else
          d <- slice data offset (offset + 16) ;;
          entry <- ext_attributes_entry_read d ;;
          rest <- slice data (offset + 16) (len data) ;;
          attribute_name_check entry rest ;;;
          let e := offset + 16 + ea_name_size entry in
          let padding := if e mod 4 =? 0 then 0 else 4 - e mod 4 in
          attributes_read fuel data (e + padding) (count + 1)
  end.

(** inode_extension_ext4.rs 44-55 *)
Definition extra_precision_timestamp (timestamp : Z) (extra : N) : Z * N :=
  if 0 <? extra then
    let multiplier := N.land extra 3 in
    (if multiplier =? 0 then timestamp else (timestamp + 0x100000000 * Z.of_N multiplier)%Z,
     N.shiftr extra 2)
  else (timestamp, extra).
(** 66-75, 76-87, 88-97: a time with extra precision, if the extra size reaches it *)
Definition with_precision (data : list N) (extra_size size offset : N) (flags : N) (stamp : Z)
    (time : ext_time) : res ext_time :=
  if (N.land flags 0x00200000 =? 0) && (size <=? extra_size) then
    extra <- u32_le data offset ;;
    let '(timestamp, fraction) := extra_precision_timestamp stamp extra in
    Ok (if (0 <? timestamp)%Z then TPosix64Ns timestamp fraction else time)
  else Ok time.
(** inode_extension_ext4.rs 58-140; [data] is that after the first 128 bytes *)
Definition ext_extension_read (inode : ext_inode) (data : list N) : res ext_inode :=
  extra_size <- u16_le data 0 ;;
  checksum <- (if 4 <=? extra_size
               then upper <- u16_le data 2 ;; Ok (N.lor (xi_checksum inode) (N.shiftl upper 16))
               else Ok (xi_checksum inode)) ;;
  change <- with_precision data extra_size 8 4 (xi_flags inode) (xi_change_stamp inode) (xi_change inode) ;;
  modification <-
    with_precision data extra_size 12 8 (xi_flags inode) (xi_modification_stamp inode) (xi_modification inode) ;;
  access <- with_precision data extra_size 16 12 (xi_flags inode) (xi_access_stamp inode) (xi_access inode) ;;
  creation <-
    (if 24 <=? extra_size then
       timestamp <- i32_le data 16 ;;
       extra <- u32_le data 20 ;;
       let '(precise, fraction) := extra_precision_timestamp timestamp extra in
       Ok (if (0 <? timestamp)%Z then Some (TPosix64Ns precise fraction) else xi_creation inode)
     else Ok (xi_creation inode)) ;;
  let e := extra_size + 4 in
  attributes <-
    (if e <? len data then
       signature <- slice data extra_size e ;;
       if same signature [0x00; 0x00; 0x02; 0xea]
       then attributes_read (S (length data)) data e (xi_attributes inode) else Ok (xi_attributes inode)
     else Ok (xi_attributes inode)) ;;
  Ok {| xi_mode := xi_mode inode; xi_owner := xi_owner inode; xi_group := xi_group inode;
        xi_size := xi_size inode; xi_access_stamp := xi_access_stamp inode; xi_access := access;
        xi_change_stamp := xi_change_stamp inode; xi_change := change;
        xi_modification_stamp := xi_modification_stamp inode; xi_modification := modification;
        xi_deletion := xi_deletion inode; xi_links := xi_links inode; xi_blocks := xi_blocks inode;
        xi_flags := xi_flags inode; xi_reference := xi_reference inode; xi_checksum := checksum;
        xi_creation := creation; xi_attributes := attributes |}.

(** inode.rs 134-150 *)
Definition ext_inode_read (version : N) (data : list N) : res ext_inode :=
  inode <- (if version =? 4 then ext4_inode_read data else ext2_inode_read data) ;;
  if 128 <? len data then
    d <- slice data 128 (len data) ;; ext_extension_read inode d
  else Ok inode.

(** inode.rs 174-177, file_entry.rs 163-168, 219-224 *)
Definition ext_total (inode : ext_inode) (block_size : N) : res N :=
  n <- div_ceil (xi_size inode) block_size ;; Ok (N.max n (xi_blocks inode)).
(** [file_mode & 0xf000] *)
Definition ext_type (inode : ext_inode) : N := N.land (xi_mode inode) 0xf000.
(** inode.rs 153-219 *)
Definition ext_inode_ranges (version : N) (volume : list N) (block_size : N) (inode : ext_inode)
  : res (list ext_range) :=
  if (ext_type inode =? 0x2000) || (ext_type inode =? 0x6000) then Ok []
  else
    total <- ext_total inode block_size ;;
    if (version =? 4) && negb (N.land (xi_flags inode) 0x00080000 =? 0)
    then extents_read volume block_size total (xi_reference inode)
    else block_numbers_read volume block_size total (xi_reference inode).

(** ** The inode table: inode_table.rs *)

(** 27-48; a group descriptor is its inode table block number and its checksum *)
Record ext_table := { xt_version : N; xt_seed : option N; xt_block_size : N; xt_inode_size : N;
  xt_per_group : N; xt_tree : @block_tree (N * N) }.
(** 52-62 *)
Definition ext_table_new : ext_table :=
  {| xt_version := 2; xt_seed := None; xt_block_size := 0; xt_inode_size := 0; xt_per_group := 0;
     xt_tree := bt_new 0 0 0 |}.
(** 86-101 *)
Fixpoint table_insert (group_size : N) (descriptors : list (N * N)) (offset : N)
    (t : @block_tree (N * N)) : res (@block_tree (N * N)) :=
  match descriptors with
  | [] => Ok t
  | d :: descriptors =>
      match bt_insert t offset group_size d with
      | (t, Ok _) => offset <- add_chk two64 offset group_size ;; table_insert group_size descriptors offset t
      | (_, Err) => Err
      | (_, Panic) => Panic
      end
  end.
(** 65-103 *)
Definition ext_table_init (version : N) (seed : option N) (block_size inode_size per_group : N)
    (descriptors : list (N * N)) : res ext_table :=
  group_size <- mul_chk two64 per_group inode_size ;;
  tree_size <- mul_chk two64 (len descriptors) group_size ;;
  tree <- table_insert group_size descriptors 0 (bt_new tree_size per_group inode_size) ;;
  Ok {| xt_version := version; xt_seed := seed; xt_block_size := block_size;
        xt_inode_size := inode_size; xt_per_group := per_group; xt_tree := tree |}.

(** 156-187 *)
Definition inode_checksum_check (seed number : N) (data : list N) (stored : N) : res unit :=
  c0 <- slice data 100 104 ;;
  c1 <- slice data 0 124 ;;
  c2 <- slice data 126 128 ;;
  extension <- (if 128 <? len data
                then c3 <- slice data 128 130 ;; c4 <- slice data 132 (len data) ;; Ok [c3; [0; 0]; c4]
                else Ok []) ;;
  calculated <- crc32c_of seed ([le_bytes 4 number; c0; c1; [0; 0]; c2] ++ extension) ;;
  calculated <- sub_chk 0xffffffff calculated ;;
  let calculated := if len data <=? 128 then N.land calculated 0xffff else calculated in
  check (negb (negb (stored =? 0) && negb (stored =? calculated))).
(** 106-196 [get_inode] *)
Definition ext_get_inode (volume : list N) (table : ext_table) (number : N)
  : res (ext_inode * list ext_range) :=
  index <- sub_chk number 1 ;;
  offset <- mul_chk two64 index (xt_inode_size table) ;;
  found <- bt_get (xt_tree table) offset ;;
  '(block, _) <- of_option found ;;
  group_index <- mod_chk index (xt_per_group table) ;;
  data_offset <- mul_chk two64 group_index (xt_inode_size table) ;;
  table_offset <- mul_chk two64 block (xt_block_size table) ;;
  data_offset <- add_chk two64 data_offset table_offset ;;
  data <- read_exact_at volume data_offset (xt_inode_size table) ;;
  inode <- ext_inode_read (xt_version table) data ;;
  match xt_seed table with
  | Some seed => inode_checksum_check seed number data (xi_checksum inode)
  | None => Ok tt
  end ;;;
  ranges <- ext_inode_ranges (xt_version table) volume (xt_block_size table) inode ;;
  Ok (inode, ranges).

(** ** Directories: directory_tree.rs, directory_entries.rs *)

(** [BTreeMap<ByteString, ExtDirectoryEntry>]: an entry is its inode number, size, name size
    and file type. All names have the same encoding, so they are ordered by their bytes. *)
Definition ext_dirent : Type := N * N * N * N.
Definition ext_map : Type := list (list N * ext_dirent).
Fixpoint xmap_insert (key : list N) (e : ext_dirent) (l : ext_map) : ext_map :=
  match l with
  | [] => [(key, e)]
  | (k, v) :: rest =>
      match ucs2_compare key k with
      | Lt => (key, e) :: l
      | Eq => (k, e) :: rest
      | Gt => (k, v) :: xmap_insert key e rest
      end
  end.
Fixpoint xmap_find (key : list N) (l : ext_map) : option ext_dirent :=
  match l with
  | [] => None
  | (k, v) :: rest => match ucs2_compare key k with Eq => Some v | _ => xmap_find key rest end
  end.

(** directory_tree.rs 114-171. What was inserted before an error stays inserted. Every round
    moves at least 8 bytes ahead. *)
Fixpoint dir_node (fuel : nat) (data : list N) (offset : N) (entries : ext_map) : ext_map * res unit :=
  match fuel with
  | O => (entries, Panic)
  | S fuel =>
      if negb (offset <? len data) then (entries, Ok tt)
      else
        match d <- slice data offset (len data) ;; ext_directory_entry_read d with
        | Err => (entries, Err)
        | Panic => (entries, Panic)
        | Ok (inode, size, name_size, file_type) =>
            if size =? 0 then (entries, Ok tt)
            else if (size <? 8) || (len data - offset <? size) then (entries, Err)
            else
              (* directory_entry.rs 72-88 *)
              match rest <- slice data (offset + 8) (len data) ;;
                    check (name_size <=? len rest) ;;;
                    d <- slice rest 0 name_size ;;
                    Ok (bytestring_read_data [] d) with
              | Err => (entries, Err)
              | Panic => (entries, Panic)
              | Ok name =>
                  let offset := offset + 8 + (size - 8) in
                  if (inode =? 0) || same name [0x2e] || same name [0x2e; 0x2e]
                  then dir_node fuel data offset entries
                  else dir_node fuel data offset (xmap_insert name (inode, size, name_size, file_type) entries)
              end
        end
  end.
(** 61-80: [n] blocks from [offset] on; 174-192 *)
Fixpoint dir_blocks (n : nat) (volume : list N) (block_size offset : N) (entries : ext_map)
  : ext_map * res unit :=
  match n with
  | O => (entries, Ok tt)
  | S n =>
      match read_exact_at volume offset block_size with
      | Err => (entries, Err)
      | Panic => (entries, Panic)
      | Ok data =>
          match dir_node (S (length data)) data 0 entries with
          | (entries, Ok _) =>
              match add_chk two64 offset block_size with
              | Ok offset => dir_blocks n volume block_size offset entries
              | Err => (entries, Err)
              | Panic => (entries, Panic)
              end
          | other => other
          end
      end
  end.
(** 48-83 *)
Fixpoint dir_ranges (volume : list N) (block_size : N) (ranges : list ext_range) (entries : ext_map)
  : ext_map * res unit :=
  match ranges with
  | [] => (entries, Ok tt)
  | r :: ranges =>
      if er_sparse r then (entries, Ok tt)
      else
        match mul_chk two64 (er_physical r) block_size with
        | Err => (entries, Err)
        | Panic => (entries, Panic)
        | Ok offset =>
            match dir_blocks (N.to_nat (er_count r)) volume block_size offset entries with
            | (entries, Ok _) => dir_ranges volume block_size ranges entries
            | other => other
            end
        end
  end.
(** 86-111 *)
Definition dir_inline (data : list N) (entries : ext_map) : ext_map * res unit :=
  match u32_le data 0 with
  | Err => (entries, Err)
  | Panic => (entries, Panic)
  | Ok _ => dir_node (S (length data)) data 4 entries
  end.

(** ** File entries: file_entry.rs *)

(** 28-49; the symbolic link target is not kept: it is the same every time. Names and the
    directory entries all have the encoding of the file system, UTF-8 unless set. *)
Record ext_entry := { xe_number : N; xe_inode : ext_inode; xe_ranges : list ext_range;
  xe_name : option (list N); xe_entries : ext_map; xe_read : bool }.
(** 53-70 with [ExtDirectoryEntries::new] *)
Definition ext_entry_new (number : N) (found : ext_inode * list ext_range) (name : option (list N)) : ext_entry :=
  {| xe_number := number; xe_inode := fst found; xe_ranges := snd found; xe_name := name;
     xe_entries := []; xe_read := false |}.
(** 375-377 *)
Definition ext_is_directory (e : ext_entry) : bool := ext_type (xe_inode e) =? 0x4000.
(** 380-382 *)
Definition ext_is_root (e : ext_entry) : bool := xe_number e =? 2.
(** 93-107 *)
Definition ext_device (e : ext_entry) : res (option N) :=
  if (ext_type (xe_inode e) =? 0x2000) || (ext_type (xe_inode e) =? 0x6000) then
    check (xi_size (xe_inode e) <=? 2) ;;;
    d <- u16_le (xi_reference (xe_inode e)) 0 ;;
    Ok (Some d)
  else Ok None.
(** 140-147 *)
Definition ext_size (e : ext_entry) : N :=
  if (ext_type (xe_inode e) =? 0x8000) || (ext_type (xe_inode e) =? 0xa000) then xi_size (xe_inode e) else 0.
(** 150-200 *)
Definition ext_link_target (volume : list N) (table : ext_table) (e : ext_entry) : res (option (list N)) :=
  let inode := xe_inode e in
  if ext_type inode =? 0xa000 then
    check (xi_size inode <=? xt_block_size table) ;;;
    target <-
      (if xi_size inode <? 60 then Ok (string_from_slice (xi_reference inode))
       else
         total <- ext_total inode (xt_block_size table) ;;
         stream <- ext_stream_open (xt_block_size table) (xi_size inode) total (xe_ranges e) ;;
         data <- snd (stream_read (xi_size inode) (ext_rd volume stream) (tt, 0) (xi_size inode)) ;;
         check (len data =? xi_size inode) ;;;
         Ok (string_from_slice data)) ;;
    Ok (Some target)
  else Ok None.
(** 210-241: the content as a stream *)
Inductive ext_data := XInline (data : list N) (size : N) | XBlocks (stream : ext_stream).
Definition ext_data_stream (table : ext_table) (e : ext_entry) : res (option ext_data) :=
  let inode := xe_inode e in
  if negb (ext_type inode =? 0x8000) then Ok None
  else if negb (N.land (xi_flags inode) 0x10000000 =? 0)
  then Ok (Some (XInline (xi_reference inode) (xi_size inode)))
  else
    total <- ext_total inode (xt_block_size table) ;;
    stream <- ext_stream_open (xt_block_size table) (xi_size inode) total (xe_ranges e) ;;
    Ok (Some (XBlocks stream)).
Definition ext_data_step (volume : list N) (data : ext_data) :=
  match data with
  | XInline data size => fake_step data size
  | XBlocks stream => ext_stream_step volume stream
  end.

(** 385-417 with directory_entries.rs 73-113: only inline data marks the entries as read, so
    those in blocks are read into the same map every time *)
Definition ext_read_entries (volume : list N) (table : ext_table) (e : ext_entry) : ext_entry * res unit :=
  let put entries read :=
    {| xe_number := xe_number e; xe_inode := xe_inode e; xe_ranges := xe_ranges e; xe_name := xe_name e;
       xe_entries := entries; xe_read := read |} in
  if negb (N.land (xi_flags (xe_inode e)) 0x10000000 =? 0) then
    match dir_inline (xi_reference (xe_inode e)) (xe_entries e) with
    | (entries, Ok _) => (put entries true, Ok tt)
    | (entries, r) => (put entries (xe_read e), r)
    end
  else
    let '(entries, r) := dir_ranges volume (xt_block_size table) (xe_ranges e) (xe_entries e) in
    (put entries (xe_read e), r).
(** 245, 265, 318 *)
Definition ext_load (volume : list N) (table : ext_table) (e : ext_entry) : ext_entry * res unit :=
  if ext_is_directory e && negb (xe_read e) then ext_read_entries volume table e else (e, Ok tt).
(** 244-258 *)
Definition ext_number_of_entries (volume : list N) (table : ext_table) (e : ext_entry) : ext_entry * res N :=
  match ext_load volume table e with
  | (e, Ok _) => (e, Ok (len (xe_entries e)))
  | (e, Err) => (e, Err)
  | (e, Panic) => (e, Panic)
  end.
(** 261-309 *)
Definition ext_entry_by_index (volume : list N) (table : ext_table) (e : ext_entry) (index : N)
  : ext_entry * res ext_entry :=
  match ext_load volume table e with
  | (e, Ok _) =>
      (e, match nth_error (xe_entries e) (N.to_nat index) with
          | Some (name, (inode, _, _, _)) =>
              found <- ext_get_inode volume table inode ;; Ok (ext_entry_new inode found (Some name))
          | None => Err
          end)
  | (e, Err) => (e, Err)
  | (e, Panic) => (e, Panic)
  end.
(** 314-372, for a name of the same encoding *)
Definition ext_entry_by_name (volume : list N) (table : ext_table) (e : ext_entry) (name : list N)
  : ext_entry * res (option ext_entry) :=
  match ext_load volume table e with
  | (e, Ok _) =>
      (e, match xmap_find name (xe_entries e) with
          | Some (inode, _, _, _) =>
              found <- ext_get_inode volume table inode ;; Ok (Some (ext_entry_new inode found (Some name)))
          | None => Ok None
          end)
  | (e, Err) => (e, Err)
  | (e, Panic) => (e, Panic)
  end.

(** ** The file system: features.rs, group_descriptor_table.rs, file_system.rs *)

Definition has_flags (flags mask : N) : bool := negb (N.land flags mask =? 0).
(** features.rs 64-77 *)
Definition ext_version (sb : ext_superblock) : N :=
  if has_flags (es_compatible sb) 0x200 || has_flags (es_incompatible sb) 0x1f7c0 || has_flags (es_read_only sb) 0x378 then 4
  else if has_flags (es_compatible sb) 4 || has_flags (es_incompatible sb) 0xc then 3 else 2.
(** features.rs 80-86 *)
Definition ext_descriptor_size (sb : ext_superblock) : N := if has_flags (es_incompatible sb) 0x80 then 64 else 32.
(** features.rs 46-61, 89-91 *)
Definition ext_checksum_seed (sb : ext_superblock) : res (option N) :=
  if has_flags (es_read_only sb) 0x400 then c <- crc32c_of 0 [es_identifier sb] ;; Ok (Some c) else Ok None.
(** features.rs 111-125 *)
Definition ext_supported : list N :=
  [0x2; 0x4; 0x8; 0x40; 0x80; 0x200; 0x400; 0x2000; 0x8000; 0x10000; 0x20000].
Definition ext_unsupported (sb : ext_superblock) : bool :=
  has_flags (es_incompatible sb) (0xffffffff - fold_right N.lor 0 ext_supported).

(** group_descriptor_table.rs 103-129 *)
Definition descriptor_checksum_check (seed number : N) (d : list N) (stored : N) : res unit :=
  c0 <- slice d 0 30 ;;
  c1 <- slice d 32 (len d) ;;
  calculated <- crc32c_of seed [le_bytes 4 number; c0; [0; 0]; c1] ;;
  calculated <- sub_chk 0xffffffff calculated ;;
  let calculated := N.land calculated 0xffff in
  check (negb (negb (stored =? 0) && negb (stored =? calculated))).
(** group_descriptor_table.rs 76-135: [n] descriptors from [offset] on *)
Fixpoint descriptors_read (n : nat) (version : N) (seed : option N) (descriptor_size first number : N)
    (data : list N) (offset : N) : res (list (N * N)) :=
  match n with
  | O => Ok []
  | S n =>
      d <- slice data offset (offset + descriptor_size) ;;
      if same d (repeat 0 (N.to_nat descriptor_size)) then Ok []
      else
        '(block, checksum) <- ext_group_descriptor_read version d ;;
        match seed with
        | Some seed =>
            group <- add_chk two32 first number ;;
            descriptor_checksum_check seed group d checksum
        | None => Ok tt
        end ;;;
        rest <- descriptors_read n version seed descriptor_size first (number + 1) data (offset + descriptor_size) ;;
        Ok ((block, checksum) :: rest)
  end.
(** group_descriptor_table.rs 138-159 *)
Definition descriptor_table_read (volume : list N) (version : N) (seed : option N)
    (descriptor_size first n position : N) : res (list (N * N)) :=
  size <- mul_chk two64 n descriptor_size ;;
  data <- read_exact_at volume position size ;;
  descriptors_read (N.to_nat n) version seed descriptor_size first 0 data 0.

(** file_system.rs 244-252 and 369-379: what changes from one block group to the next *)
Record group_state := { gs_number : N; gs_offset : N; gs_e3 : N; gs_e5 : N; gs_e7 : N;
  gs_meta : N; gs_descriptors : list (N * N) }.
(** file_system.rs 255-263 *)
Definition next_power (base power number : N) : res N :=
  if power <? number then mul_chk two32 power base else Ok power.
(** file_system.rs 265-282 *)
Definition group_has_superblock (sb : ext_superblock) (number e3 e5 e7 : N) : bool :=
  if number =? 0 then true
  else if negb (has_flags (es_read_only sb) 1) then true
  else if has_flags (es_compatible sb) 0x200 then false
  else (number =? 1) || (number =? e3) || (number =? e5) || (number =? e7).
(** superblock.rs 137: [read_at_position] as keramics-layout-map/src/structure.rs 811-848 makes it *)
Definition superblock_at (volume : list N) (offset : N) : res ext_superblock :=
  data <- read_exact_at volume offset 1024 ;; ext_superblock_read data.
(** file_system.rs 254-452: one block group, whose superblock is read before if it is the
    first one. [seed], [per_meta] and [meta_start] are those of the superblock. *)
Definition group_read (volume : list N) (sb : ext_superblock) (seed : option N)
    (groups group_size per_meta meta_start : N) (st : group_state) : res group_state :=
  let number := gs_number st in
  let offset := gs_offset st in
  let meta := has_flags (es_incompatible sb) 0x10 in
  e3 <- next_power 3 (gs_e3 st) number ;;
  e5 <- next_power 5 (gs_e5 st) number ;;
  e7 <- next_power 7 (gs_e7 st) number ;;
  let has_superblock := group_has_superblock sb number e3 e5 e7 in
  (if has_superblock && negb (number =? 0) then
     superblock_offset <-
       (if (offset =? 0) || (es_block_size sb =? 1024) then add_chk two64 offset 1024 else Ok offset) ;;
     match superblock_at volume superblock_offset with Panic => Panic | _ => Ok tt end
   else Ok tt) ;;;
  '(has_descriptors, in_meta) <-
    (if negb meta || (number <? meta_start) then Ok (has_superblock, 0)
     else
       in_meta <- mod_chk number per_meta ;;
       Ok ((in_meta =? 0) || (in_meta =? 1) || (in_meta =? per_meta - 1), in_meta)) ;;
  '(descriptors, meta_number) <-
    (if has_descriptors : bool then
       position <- (if es_block_size sb =? 1024 then add_chk two64 offset 1024 else Ok offset) ;;
       position <- (if has_superblock then add_chk two64 position (es_block_size sb) else Ok position) ;;
       first <- (if negb meta || (number <? meta_start) then Ok 0
                 else m <- mul_chk two32 (gs_meta st) per_meta ;; add_chk two32 meta_start m) ;;
       let n := if negb meta then groups mod two32
                else if number <? meta_start then meta_start else per_meta in
       entries <- descriptor_table_read volume (ext_version sb) seed (ext_descriptor_size sb) first n position ;;
       if negb meta || (number <? meta_start)
       then Ok (if number =? 0 then gs_descriptors st ++ entries else gs_descriptors st, gs_meta st)
       else if in_meta =? 0 then Ok (gs_descriptors st ++ entries, gs_meta st)
       else if in_meta =? per_meta - 1
       then m <- add_chk two32 (gs_meta st) 1 ;; Ok (gs_descriptors st, m)
       else Ok (gs_descriptors st, gs_meta st)
     else Ok (gs_descriptors st, gs_meta st)) ;;
  number <- add_chk two32 number 1 ;;
  offset <- add_chk two64 offset group_size ;;
  Ok {| gs_number := number; gs_offset := offset; gs_e3 := e3; gs_e5 := e5; gs_e7 := e7;
        gs_meta := meta_number; gs_descriptors := descriptors |}.
(** file_system.rs 254, 454-457: the loop. It reads at least one block group, and every
    round adds one to the number. *)
Fixpoint groups_read (fuel : nat) (volume : list N) (sb : ext_superblock) (seed : option N)
    (groups group_size per_meta meta_start : N) (st : group_state) : res (list (N * N)) :=
  match fuel with
  | O => Panic
  | S fuel =>
      st <- group_read volume sb seed groups group_size per_meta meta_start st ;;
      if groups <=? gs_number st then Ok (gs_descriptors st)
      else groups_read fuel volume sb seed groups group_size per_meta meta_start st
  end.

(** file_system.rs 35-71; [data_stream] is given to every function, and the checksum seed,
    which nothing uses, is left out *)
Record ext_fs := { xf_superblock : ext_superblock; xf_table : ext_table; xf_label : option (list N) }.
(** file_system.rs 223-237 [read_data_stream] and 240-486 [read_block_groups] of a new file
    system. What is copied from the superblock is the superblock here. The last mount path and
    the times are not used. *)
Definition ext_open (volume : list N) : res ext_fs :=
  sb <- superblock_at volume 1024 ;;
  seed <- ext_checksum_seed sb ;;
  groups <- div_ceil (es_blocks sb) (es_blocks_per_group sb) ;;
  group_size <- mul_chk two64 (es_blocks_per_group sb) (es_block_size sb) ;;
  '(per_meta, meta_start) <-
    (if has_flags (es_incompatible sb) 0x10 then
       per_meta <- div_chk (es_block_size sb) (ext_descriptor_size sb) ;;
       meta_start <- mul_chk two32 (es_first_meta_group sb) per_meta ;;
       Ok (per_meta, meta_start)
     else Ok (0, 0)) ;;
  descriptors <-
    groups_read (S (N.to_nat groups)) volume sb seed groups group_size per_meta meta_start
      {| gs_number := 0; gs_offset := 0; gs_e3 := 3; gs_e5 := 5; gs_e7 := 7; gs_meta := 0;
         gs_descriptors := [] |} ;;
  table <- (if 0 <? es_inodes_per_group sb
            then ext_table_init (ext_version sb) seed (es_block_size sb) (es_inode_size sb)
                   (es_inodes_per_group sb) descriptors
            else Ok ext_table_new) ;;
  Ok {| xf_superblock := sb; xf_table := table;
        xf_label := match es_label sb with [] => None | l => Some l end |}.

(** file_system.rs 118-157 *)
Definition ext_by_identifier (volume : list N) (fs : ext_fs) (number : N) : res ext_entry :=
  if ext_unsupported (xf_superblock fs) then Err
  else
    check (negb ((number =? 0) || (es_inodes (xf_superblock fs) <? number))) ;;;
    found <- ext_get_inode volume (xf_table fs) number ;;
    Ok (ext_entry_new number found None).
(** file_system.rs 203-220 *)
Definition ext_root (volume : list N) (fs : ext_fs) : res (option ext_entry) :=
  if es_inodes (xf_superblock fs) =? 0 then Ok None
  else e <- ext_by_identifier volume fs 2 ;; Ok (Some e).
(** file_system.rs 179-198 *)
Fixpoint ext_walk (volume : list N) (table : ext_table) (e : ext_entry) (names : list (list N))
  : res (option ext_entry) :=
  match names with
  | [] => Ok (Some e)
  | name :: names =>
      found <- snd (ext_entry_by_name volume table e name) ;;
      match found with
      | Some e => ext_walk volume table e names
      | None => Ok None
      end
  end.
(** file_system.rs 160-200 *)
Definition ext_by_path (volume : list N) (fs : ext_fs) (components : list (list N)) : res (option ext_entry) :=
  match components with
  | [] :: names =>
      root <- ext_root volume fs ;;
      match root with
      | Some e => ext_walk volume (xf_table fs) e names
      | None => Ok None
      end
  | _ => Ok None
  end.
