(** * Model of keramics-formats/src/vhd *)
From Verif Require Import Base Bytes_model Strings_model Streams_model Streams_spec BlockTree_model Blocks_model Lazy_model.

(** vhd/constants.rs 14-38 *)
Definition vhd_footer_signature : list N := [0x63; 0x6f; 0x6e; 0x65; 0x63; 0x74; 0x69; 0x78].
Definition vhd_header_signature : list N := [0x63; 0x78; 0x73; 0x70; 0x61; 0x72; 0x73; 0x65].
Definition same_bytes (a b : list N) : bool := if list_eq_dec N.eq_dec a b then true else false.

(** file_footer.rs 75-121 [read_data]: next offset, data size, disk type, identifier. Here
    and below an identifier is its 16 bytes. *)
Definition vhd_footer_read (data : list N) : res (N * N * N * list N) :=
  check (len data =? 512) ;;;
  signature <- slice data 0 8 ;;
  check (same_bytes signature vhd_footer_signature) ;;;
  format_version <- u32_be data 12 ;;
  check (format_version =? 0x00010000) ;;;
  next_offset <- u64_be data 16 ;;
  data_size <- u64_be data 40 ;;
  disk_type <- u32_be data 60 ;;
  identifier <- slice data 68 84 ;;
  check ((disk_type =? 2) || (disk_type =? 3) || (disk_type =? 4)) ;;;
  (if disk_type =? 2 then check (next_offset =? 0xffffffffffffffff)
   else check (negb (next_offset <? 512))) ;;;
  Ok (next_offset, data_size, disk_type, identifier).

(** dynamic_disk_header.rs 41-57 *)
Record vhd_dynamic_header := { vh_table_offset : N; vh_number_of_blocks : N; vh_block_size : N;
  vh_parent_identifier : list N; vh_parent_name : list N }.
(** dynamic_disk_header.rs 72-114 [read_data] *)
Definition vhd_header_read (data : list N) : res vhd_dynamic_header :=
  check (len data =? 1024) ;;;
  signature <- slice data 0 8 ;;
  check (same_bytes signature vhd_header_signature) ;;;
  format_version <- u32_be data 24 ;;
  check (format_version =? 0x00010000) ;;;
  next_offset <- u64_be data 8 ;;
  check (next_offset =? 0xffffffffffffffff) ;;;
  block_table_offset <- u64_be data 16 ;;
  number_of_blocks <- u32_be data 28 ;;
  block_size <- u32_be data 32 ;;
  parent_identifier <- slice data 40 56 ;;
  name <- slice data 64 576 ;;
  parent_name <- u16string_from_be_bytes name ;;
  check (negb (block_size =? 0)) ;;;
  Ok {| vh_table_offset := block_table_offset; vh_number_of_blocks := number_of_blocks;
        vh_block_size := block_size; vh_parent_identifier := parent_identifier; vh_parent_name := parent_name |}.

(** file.rs 31-70. The type of a disk is 2, 3 or 4; the tables of a fixed disk are not
    used. *)
Record vhd_file := {
  vf_disk_type : N;
  vf_identifier : list N;
  vf_parent : option (list N * list N);
  vf_block_size : N;
  vf_sector_bitmap_size : N;
  vf_media_size : N;
  vf_table_offset : N;
  vf_number_of_blocks : N;
  vf_tree : tree
}.
(** [Uuid::is_nil] on the bytes *)
Definition is_nil (identifier : list N) : bool := same_bytes identifier (repeat 0 16).

(** file.rs 131-201 [read_metadata] of a new file. Simplification: seeking to 512 bytes
    before the end of a shorter file is an error, as it is for a file of the system. *)
Definition vhd_open (file : list N) : res vhd_file :=
  check (512 <=? len file) ;;;
  data <- read_exact_at file (len file - 512) 512 ;;
  '(next_offset, data_size, disk_type, identifier) <- vhd_footer_read data ;;
  if disk_type =? 2 then
    Ok {| vf_disk_type := disk_type; vf_identifier := identifier; vf_parent := None; vf_block_size := 0;
          vf_sector_bitmap_size := 0; vf_media_size := data_size; vf_table_offset := 0;
          vf_number_of_blocks := 0; vf_tree := bt_new 0 0 0 |}
  else
    data <- read_exact_at file next_offset 1024 ;;
    header <- vhd_header_read data ;;
    let block_size := vh_block_size header in
    block_tree_data_size <- mul_chk two64 (vh_number_of_blocks header) block_size ;;
    check (negb (block_tree_data_size <? data_size)) ;;;
    let sectors_per_block := block_size / 512 in
    units <- div_ceil (sectors_per_block / 8) 512 ;;
    sector_bitmap_size <- mul_chk two32 units 512 ;;
    Ok {| vf_disk_type := disk_type; vf_identifier := identifier;
          vf_parent := if is_nil (vh_parent_identifier header) then None
                       else Some (vh_parent_identifier header, vh_parent_name header);
          vf_block_size := block_size; vf_sector_bitmap_size := sector_bitmap_size;
          vf_media_size := data_size; vf_table_offset := vh_table_offset header;
          vf_number_of_blocks := vh_number_of_blocks header;
          vf_tree := bt_new block_tree_data_size sectors_per_block 512 |}.

(** block_allocation_table.rs 74-118 [read_entry] *)
Definition vhd_entry_read (file : list N) (v : vhd_file) (entry_index : N) : res N :=
  check (entry_index <? vf_number_of_blocks v) ;;;
  entry_offset <- add_chk two64 (vf_table_offset v) (entry_index * 4) ;;
  data <- read_exact_at file entry_offset 4 ;;
  u32_be data 0.

Definition vhd_unset (v : vhd_file) : range_type := if vf_disk_type v =? 3 then Sparse else InParent.
(** file.rs 268-333 [read_sector_bitmap] *)
Definition vhd_read_sector_bitmap (file : list N) (v : vhd_file) (t : tree) (block_number sector_number : N)
  : tree * res unit :=
  let sector_bitmap_offset := sector_number * 512 in
  match (data <- read_exact_at file sector_bitmap_offset (vf_sector_bitmap_size v) ;; bitmap_ranges true data 512) with
  | Ok ranges =>
      insert_bitmap t (vhd_unset v) (block_number * vf_block_size v)
        (sector_bitmap_offset + vf_sector_bitmap_size v) ranges
  | Err => (t, Err)
  | Panic => (t, Panic)
  end.
(** file.rs 204-265 [read_block_allocation_entry] *)
Definition vhd_load (file : list N) (v : vhd_file) (t : tree) (media_offset block_number : N) : tree * res unit :=
  match vhd_entry_read file v (block_number mod two32) with
  | Ok sector_number =>
      if sector_number =? 0xffffffff then
        let block_media_offset := block_number * vf_block_size v in
        bt_insert t block_media_offset (vf_block_size v)
          {| br_media_offset := block_media_offset; br_data_offset := 0; br_size := vf_block_size v;
             br_type := vhd_unset v |}
      else vhd_read_sector_bitmap file v t block_number sector_number
  | Err => (t, Err)
  | Panic => (t, Panic)
  end.

Definition vhd_layer (file : list N) (v : vhd_file) : layer :=
  {| ly_file := file; ly_media_size := vf_media_size v; ly_block_size := vf_block_size v;
     ly_fixed := vf_disk_type v =? 2; ly_load := vhd_load file v |}.

(** ** Images of several files: image.rs *)

(** file.rs 93-111 [get_parent_file_name]: what follows the last backslash *)
Fixpoint after_backslash (l : list N) : option (list N) :=
  match l with
  | [] => None
  | c :: l =>
      match after_backslash l with
      | Some name => Some name
      | None => if c =? 0x5c then Some l else None
      end
  end.
Definition parent_file_name (name : list N) : list N :=
  match after_backslash name with Some l => l | None => name end.

(** image.rs 56-134: the files, that of the image first. [resolver] finds a file by its
    name, here the elements of the UCS-2 string: its conversion to a path component is left
    out. The loop has no bound: running out of fuel is a panic here. *)
Fixpoint vhd_open_files (fuel : nat) (resolver : list N -> option (list N)) (name : list N)
  : res (list (list N * vhd_file)) :=
  match fuel with
  | O => Panic
  | S fuel =>
      file <- of_option (resolver name) ;;
      v <- vhd_open file ;;
      match vf_parent v with
      | None => Ok [(file, v)]
      | Some (_, parent_name) =>
          files <- vhd_open_files fuel resolver (parent_file_name parent_name) ;;
          Ok ((file, v) :: files)
      end
  end.
(** image.rs 136-150 with [set_parent], file.rs 427-454 *)
Fixpoint vhd_set_parents (files : list (list N * vhd_file)) : res unit :=
  match files with
  | (_, v) :: (((_, v') :: _) as rest) =>
      vhd_set_parents rest ;;;
      '(parent_identifier, _) <- of_option (vf_parent v) ;;
      check (same_bytes parent_identifier (vf_identifier v'))
  | _ => Ok tt
  end.
Definition vhd_image_open (fuel : nat) (resolver : list N -> option (list N)) (name : list N)
  : res (list (list N * vhd_file)) :=
  files <- vhd_open_files fuel resolver name ;;
  vhd_set_parents files ;;;
  Ok files.

(** Reads and seeks on the newest file of an image; the image with [i] files on top of it
    is [skipn i]. *)
Definition vhd_layers (files : list (list N * vhd_file)) : list layer := map (fun f => vhd_layer (fst f) (snd f)) files.
Definition vhd_start (files : list (list N * vhd_file)) : parents := map (fun f => (vf_tree (snd f), 0)) files.
Definition vhd_step (files : list (list N * vhd_file)) := chain_step (vhd_layers files).
