(** * ext: inodes, directories and the files of a volume *)
From Verif Require Import Base Streams_spec Part_spec Checksums_spec Strings_model Strings_spec Ext_model Ext_spec Headers_model Headers_spec ExtFs_model.

(** ** What an inode says *)
(** Seconds since 1970 and nanoseconds: the seconds have 32 bits, and two more in the extra
    word, whose other bits are the nanoseconds. *)
Definition seconds (base extra : N) : Z := (signed32 base + 2 ^ 32 * Z.of_N (extra mod 4))%Z.
Definition nanoseconds (extra : N) : N := extra / 4.
(** Times after 1970 are shown. *)
Definition coarse_time (base : N) : ext_time :=
  if (0 <? signed32 base)%Z then TPosix32 (signed32 base) else TNotSet.
Definition precise_time (base extra : N) : ext_time :=
  if (0 <? seconds base extra)%Z then TPosix64Ns (seconds base extra) (nanoseconds extra) else TNotSet.
(** The bytes of the inode after the first 128 that are in use; a value that ends at offset [e]
    of the inode is there if they reach it. *)
Definition reaches (data : list N) (e : N) : bool := (128 <? len data) && (e <=? 128 + field data 128 2).
(** An inode that holds the value of an attribute has no times. *)
Definition holds_value (data : list N) : bool := flag (field data 32 4) 21.
Definition time_at (version : N) (data : list N) (o extra : N) : ext_time :=
  if holds_value data then if version =? 4 then TNotSet else coarse_time (field data o 4)
  else if reaches data (extra + 4) then precise_time (field data o 4) (field data extra 4)
  else coarse_time (field data o 4).
Definition stamp_at (version : N) (data : list N) (o : N) : Z :=
  if (version =? 4) && holds_value data then 0%Z else signed32 (field data o 4).
(** The creation time is shown if its lower 32 bits are positive. *)
Definition creation_at (data : list N) : option ext_time :=
  if reaches data 152 && (0 <? signed32 (field data 144 4))%Z
  then Some (TPosix64Ns (seconds (field data 144 4) (field data 148 4)) (nanoseconds (field data 148 4)))
  else None.
(** The attributes from offset [o] on: an entry of 16 bytes and a name, filled up to a multiple of
    four. Four zeros end the list, and so does the end of the inode. *)
Inductive attributes_at (data : list N) : N -> N -> Prop :=
| attributes_end o : len data <= o + 8 -> attributes_at data o 0
| attributes_mark o : bytes_at data o 4 = [0; 0; 0; 0] -> o + 8 < len data -> attributes_at data o 0
| attributes_no_room o : len data <= o + 16 -> attributes_at data o 0
| attributes_entry o next k : o + 16 < len data -> bytes_at data o 4 <> [0; 0; 0; 0] ->
    o + 16 + byte data o <= len data -> one_of [0; 1; 2; 3; 4; 6; 7; 8] (byte data (o + 1)) = true ->
    o + 16 + byte data o <= next < o + 16 + byte data o + 4 -> next mod 4 = 0 ->
    attributes_at data next k -> attributes_at data o (k + 1).
Definition inode_attributes (data : list N) (k : N) : Prop :=
  let o := 128 + field data 128 2 in
  if (128 <? len data) && (o + 4 <? len data) && has data o [0x00; 0x00; 0x02; 0xea]
  then attributes_at data (o + 4) k else k = 0.

Definition ext_inode_of (version : N) (data : list N) (attributes : N) : ext_inode :=
  {| xi_mode := field data 0 2; xi_owner := field data 2 2 + 2 ^ 16 * field data 120 2;
     xi_group := field data 24 2 + 2 ^ 16 * field data 122 2;
     xi_size := field data 4 4 + (if version =? 4 then 2 ^ 32 * field data 108 4 else 0);
     xi_access_stamp := stamp_at version data 8; xi_access := time_at version data 8 140;
     xi_change_stamp := stamp_at version data 12; xi_change := time_at version data 12 132;
     xi_modification_stamp := stamp_at version data 16; xi_modification := time_at version data 16 136;
     xi_deletion := (if (version =? 4) && holds_value data then TNotSet else coarse_time (field data 20 4));
     xi_links := field data 26 2;
     xi_blocks := field data 28 4 + (if version =? 4 then 2 ^ 32 * field data 116 2 else 0);
     xi_flags := field data 32 4; xi_reference := bytes_at data 40 60;
     xi_checksum := (if version =? 4 then field data 124 2 else 0) +
       (if reaches data 132 then 2 ^ 16 * field data 130 2 else 0);
     xi_creation := creation_at data; xi_attributes := attributes |}.

(** ** Where things are *)
Definition superblock (volume : list N) : ext_superblock := ext_superblock_of (bytes_at volume 1024 1024).
Definition superblock_ok (volume : list N) : Prop :=
  2048 <= len volume /\ ext_superblock_ok (bytes_at volume 1024 1024) = true.
Definition block_size (volume : list N) : N := es_block_size (superblock volume).
(** Which of ext2, ext3 and ext4 the features make it: ext4 ones are sparse superblocks 2;
    extents, 64 bits, multiple mount protection, flexible groups, values in inodes, and data in
    directory entries, large directories, inline data and encryption; huge files, group checksums,
    many links, large inodes, quotas, clusters. ext3 ones are the journal, its recovery, and a
    journal device. *)
Definition version (volume : list N) : N :=
  let s := superblock volume in
  if flag (es_compatible s) 9 || existsb (flag (es_incompatible s)) [6; 7; 8; 9; 10; 12; 13; 14; 15; 16] ||
     existsb (flag (es_read_only s)) [3; 4; 5; 6; 8; 9] then 4
  else if flag (es_compatible s) 2 || existsb (flag (es_incompatible s)) [2; 3] then 3 else 2.
(** The features a reader of files must know; it knows these. *)
Definition features_known (volume : list N) : Prop :=
  forall bit, flag (es_incompatible (superblock volume)) bit = true -> In bit [1; 2; 3; 6; 7; 9; 10; 13; 15; 16; 17].
Definition groups (volume : list N) : N :=
  (es_blocks (superblock volume) + (es_blocks_per_group (superblock volume) - 1)) / es_blocks_per_group (superblock volume).
Definition descriptor_size (volume : list N) : N := if flag (es_incompatible (superblock volume)) 7 then 64 else 32.
(** The table of group descriptors behind the superblock in block group [g]. The first group
    starts with block 1 if blocks have 1024 bytes, otherwise with block 0. *)
Definition table_in (volume : list N) (g : N) : N :=
  (if block_size volume =? 1024 then 1024 else 0) +
  g * es_blocks_per_group (superblock volume) * block_size volume + block_size volume.
Definition descriptor (volume : list N) (g k : N) : list N :=
  bytes_at volume (table_in volume g + k * descriptor_size volume) (descriptor_size volume).
(** Inode [i] is in group [(i - 1) / per group], whose descriptor says where its inodes are. *)
Definition inode_offset (volume : list N) (i : N) : N :=
  let per_group := es_inodes_per_group (superblock volume) in
  fst (ext_group_descriptor_of (descriptor volume 0 ((i - 1) / per_group))) * block_size volume +
  (i - 1) mod per_group * es_inode_size (superblock volume).
Definition inode_bytes (volume : list N) (i : N) : list N :=
  bytes_at volume (inode_offset volume i) (es_inode_size (superblock volume)).

(** ** Checksums *)
Definition checksums (volume : list N) : bool := flag (es_read_only (superblock volume)) 10.
(** The seed: the checksum of the identifier. *)
Definition checksum_seed (volume : list N) : N := crc32c (es_identifier (superblock volume)).
Definition seeded (seed : N) (data : list N) : N := 2 ^ 32 - 1 - crc32_reflected 0x82f63b78 seed data.
(** A stored checksum of zero is not compared. *)
Definition inode_checksum_ok (volume : list N) (i stored : N) (data : list N) : Prop :=
  let covered := le_bytes 4 i ++ bytes_at data 100 4 ++ bytes_at data 0 124 ++ [0; 0] ++ bytes_at data 126 2 ++
    (if 128 <? len data then bytes_at data 128 2 ++ [0; 0] ++ bytes_at data 132 (len data - 132) else []) in
  let c := seeded (checksum_seed volume) covered in
  stored = 0 \/ stored = if 128 <? len data then c else c mod 2 ^ 16.
Definition descriptor_checksum_ok (volume : list N) (g : N) (data : list N) : Prop :=
  let covered := le_bytes 4 g ++ bytes_at data 0 30 ++ [0; 0] ++ bytes_at data 32 (len data - 32) in
  field data 30 2 = 0 \/ field data 30 2 = seeded (checksum_seed volume) covered mod 2 ^ 16.

(** ** Volumes that can be read *)
(** The groups with a superblock and a table of group descriptors: all of them, or 0, 1 and the
    powers of 3, 5 and 7. *)
Definition has_backup (volume : list N) (g : N) : Prop :=
  g = 0 \/ flag (es_read_only (superblock volume)) 0 = false \/
  (flag (es_compatible (superblock volume)) 9 = false /\ (g = 1 \/ exists k, g = 3 ^ k \/ g = 5 ^ k \/ g = 7 ^ k)).
(** The table in group [g] can be read up to the last descriptor. *)
Definition table_ok (volume : list N) (g : N) : Prop :=
  table_in volume g + groups volume * descriptor_size volume <= len volume /\
  forall k, k < groups volume ->
    descriptor volume g k <> repeat 0 (N.to_nat (descriptor_size volume)) /\
    (checksums volume = true -> descriptor_checksum_ok volume k (descriptor volume g k)).
Definition ext_volume (volume : list N) : Prop :=
  buffer volume /\ superblock_ok volume /\ features_known volume /\
  1024 <= block_size volume <= 65536 /\ 1 <= es_inodes_per_group (superblock volume) /\
  (es_inode_size (superblock volume) = 128 \/ 152 <= es_inode_size (superblock volume)) /\
  groups volume < 2 ^ 30 /\
  groups volume * es_blocks_per_group (superblock volume) * block_size volume < 2 ^ 63 /\
  groups volume * es_inodes_per_group (superblock volume) * es_inode_size (superblock volume) < 2 ^ 63 /\
  forall g, g < groups volume -> has_backup volume g -> table_ok volume g.

(** ** Files *)
Definition kind (inode : ext_inode) : N := xi_mode inode / 4096 mod 16.
Definition is_device (inode : ext_inode) : bool := (kind inode =? 2) || (kind inode =? 6).
Definition is_directory (inode : ext_inode) : bool := kind inode =? 4.
Definition is_regular (inode : ext_inode) : bool := kind inode =? 8.
Definition is_link (inode : ext_inode) : bool := kind inode =? 10.
Definition is_inline (inode : ext_inode) : bool := flag (xi_flags inode) 28.
(** The number of blocks looked for: those of the size, or the number in the inode. *)
Definition blocks_total (volume : list N) (inode : ext_inode) : N :=
  N.max ((xi_size inode + (block_size volume - 1)) / block_size volume) (xi_blocks inode).
(** The blocks of a file, 0 for a hole: by extents if the inode says so and it is ext4, or by a
    map of block numbers. *)
Definition file_blocks (volume : list N) (inode : ext_inode) (blocks : list N) : Prop :=
  let total := blocks_total volume inode in
  total * block_size volume < 2 ^ 63 /\
  if is_device inode then blocks = []
  else if (version volume =? 4) && flag (xi_flags inode) 19 then
    exists depth extents, extents_node volume (block_size volume) depth (xi_reference inode) extents /\
      sorted_extents 0 extents /\ len (extent_blocks 0 extents) <= total /\
      blocks = extent_blocks 0 extents ++ repeat 0 (N.to_nat (total - len (extent_blocks 0 extents)))
  else
    (12 < total -> tree_inside volume (block_size volume) 1 (nth 12 (words (xi_reference inode)) 0) /\
      tree_inside volume (block_size volume) 2 (nth 13 (words (xi_reference inode)) 0) /\
      tree_inside volume (block_size volume) 3 (nth 14 (words (xi_reference inode)) 0)) /\
    blocks = mapped_blocks volume (block_size volume) total (xi_reference inode).
(** Inode [i] is there and describes a file. *)
Definition file_at (volume : list N) (i : N) (inode : ext_inode) (blocks : list N) : Prop :=
  1 <= i /\ (i - 1) / es_inodes_per_group (superblock volume) < groups volume /\ i < 2 ^ 32 /\
  inode_offset volume i + es_inode_size (superblock volume) <= len volume /\
  (exists k, inode_attributes (inode_bytes volume i) k /\
    inode = ext_inode_of (version volume) (inode_bytes volume i) k) /\
  (checksums volume = true -> inode_checksum_ok volume i (xi_checksum inode) (inode_bytes volume i)) /\
  file_blocks volume inode blocks.

(** ** Directories *)
Record record := { rc_inode : N; rc_size : N; rc_type : N; rc_name : list N }.
Definition record_at (data : list N) (o : N) (r : record) : Prop :=
  rc_inode r = field data o 4 /\ rc_size r = field data (o + 4) 2 /\ rc_type r = byte data (o + 7) /\
  rc_name r = bytes_at data (o + 8) (byte data (o + 6)) /\
  8 + byte data (o + 6) <= rc_size r /\ o + rc_size r <= len data /\ (rc_inode r = 0 \/ ~ In 0 (rc_name r)).
(** From offset [o] on the data are records up to the end, or up to one of size zero. *)
Inductive records (data : list N) : N -> list record -> Prop :=
| no_records : records data (len data) []
| end_records o : o + 8 <= len data -> field data (o + 4) 2 = 0 -> records data o []
| some_records o r rs : record_at data o r -> records data (o + rc_size r) rs -> records data o (r :: rs).
(** The records of blocks. *)
Inductive blocks_records (volume : list N) : list N -> list record -> Prop :=
| blocks_none : blocks_records volume [] []
| blocks_some b bs rs rest : b * block_size volume + block_size volume <= len volume ->
    records (block_at volume (block_size volume) b) 0 rs ->
    blocks_records volume bs rest -> blocks_records volume (b :: bs) (rs ++ rest).
(** A record of inode 0 is free; "." and ".." are not listed. *)
Definition listed (r : record) : bool :=
  negb (rc_inode r =? 0) &&
  (if list_eq_dec (list_eq_dec N.eq_dec) [rc_name r] [[0x2e]] then false else true) &&
  (if list_eq_dec (list_eq_dec N.eq_dec) [rc_name r] [[0x2e; 0x2e]] then false else true).
(** The directory at inode [i] has the records [rs] in its blocks, all of which come before its
    holes, or in its inode. *)
Definition directory (volume : list N) (i : N) (rs : list record) : Prop :=
  exists inode blocks, file_at volume i inode blocks /\ is_directory inode = true /\
    NoDup (map rc_name (filter listed rs)) /\
    if is_inline inode then records (xi_reference inode) 4 rs
    else exists live holes, blocks = live ++ repeat 0 holes /\ ~ In 0 live /\ blocks_records volume live rs.
Definition named (rs : list record) (name : list N) : option record :=
  find (fun r => if list_eq_dec N.eq_dec (rc_name r) name then true else false) (filter listed rs).
(** The order of names. *)
Definition before (a b : record) : Prop := lex_lt (rc_name a) (rc_name b).

(** ** Paths *)
(** From inode [i] the names lead to an inode, or to nothing. *)
Inductive leads (volume : list N) : N -> list (list N) -> option N -> Prop :=
| leads_here i inode blocks : file_at volume i inode blocks -> leads volume i [] (Some i)
| leads_missing i rs name path : directory volume i rs -> named rs name = None ->
    leads volume i (name :: path) None
| leads_no_directory i inode blocks name path : file_at volume i inode blocks -> is_directory inode = false ->
    leads volume i (name :: path) None
| leads_inside i rs name r path to : directory volume i rs -> named rs name = Some r ->
    leads volume (rc_inode r) path to -> leads volume i (name :: path) to.

(** ** What a reader has in hand *)
(** The file entries that the calls give on an opened file system, in any order: by identifier or
    path, or from another one by index or name, which may have read its entries since. *)
Inductive obtained (volume : list N) (fs : ext_fs) : ext_entry -> Prop :=
| from_identifier i e : ext_by_identifier volume fs i = Ok e -> obtained volume fs e
| from_root e : ext_root volume fs = Ok (Some e) -> obtained volume fs e
| from_path path e : ext_by_path volume fs path = Ok (Some e) -> obtained volume fs e
| from_index e k e' : obtained volume fs e -> snd (ext_entry_by_index volume (xf_table fs) e k) = Ok e' -> obtained volume fs e'
| from_name e name e' : obtained volume fs e -> snd (ext_entry_by_name volume (xf_table fs) e name) = Ok (Some e') -> obtained volume fs e'
| after_count e : obtained volume fs e -> obtained volume fs (fst (ext_number_of_entries volume (xf_table fs) e))
| after_index e k : obtained volume fs e -> obtained volume fs (fst (ext_entry_by_index volume (xf_table fs) e k))
| after_name e name : obtained volume fs e -> obtained volume fs (fst (ext_entry_by_name volume (xf_table fs) e name)).
(** The text of a symbolic link: of less than 60 bytes it is in the inode. *)
Definition link_text (volume : list N) (inode : ext_inode) (blocks : list N) : list N :=
  if xi_size inode <? 60 then up_to_zero (xi_reference inode)
  else up_to_zero (blocks_content volume (block_size volume) blocks (xi_size inode)).
