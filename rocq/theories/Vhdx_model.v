(** * Model of keramics-formats/src/vhdx *)
From Verif Require Import Base Bytes_model Streams_model Streams_spec BlockTree_model Blocks_model Lazy_model.

(** The values of the metadata items and of the region table that are used: flags and block
    size of the file parameters, virtual disk size, logical sector size, and offset and size
    of the block allocation table region. Simplification: how they are found, from the file
    and image headers, region tables and metadata table, is left out. *)
Record vhdx_parameters := {
  xp_flags : N; xp_block_size : N; xp_media_size : N; xp_sector_size : N; xp_table_offset : N; xp_table_size : N }.
Inductive vhdx_type := Fixed | Dynamic | Differential | Unknown.
(** file.rs 40-83 *)
Record vhdx_file := {
  xf_type : vhdx_type;
  xf_bytes_per_sector : N;
  xf_block_size : N;
  xf_entries_per_chunk : N;
  xf_sector_bitmap_size : N;
  xf_media_size : N;
  xf_table_offset : N;
  xf_number_of_entries : N;
  xf_tree : tree
}.
(** file.rs 298-333, 367-399 of [read_metadata_values] and 224-258 of [read_metadata] *)
Definition vhdx_open (p : vhdx_parameters) : res vhdx_file :=
  let block_size := xp_block_size p in
  let disk_type :=
    match N.land (xp_flags p) 3 with 0 => Fixed | 1 => Dynamic | 2 => Differential | _ => Unknown end in
  check (negb ((block_size <? 1024 * 1024) || (256 * 1024 * 1024 <? block_size))) ;;;
  check ((xp_sector_size p =? 512) || (xp_sector_size p =? 4096)) ;;;
  let bytes_per_sector := xp_sector_size p in
  entries_per_chunk <- div_chk (0x800000 * bytes_per_sector) block_size ;;
  sector_bitmap_size <- div_chk 1048576 (entries_per_chunk mod two32) ;;
  let number_of_entries := xp_table_size p / 8 in
  block_tree_data_size <- mul_chk two64 number_of_entries block_size ;;
  sectors_per_block <- div_chk block_size bytes_per_sector ;;
  check (negb (block_tree_data_size <? xp_media_size p)) ;;;
  Ok {| xf_type := disk_type; xf_bytes_per_sector := bytes_per_sector; xf_block_size := block_size;
        xf_entries_per_chunk := entries_per_chunk; xf_sector_bitmap_size := sector_bitmap_size;
        xf_media_size := xp_media_size p; xf_table_offset := xp_table_offset p;
        xf_number_of_entries := number_of_entries;
        xf_tree := bt_new block_tree_data_size sectors_per_block bytes_per_sector |}.

(** block_allocation_table.rs 84-133 [read_entry] and 47-58 [read_data]: offset and state *)
Definition vhdx_entry_read (file : list N) (v : vhdx_file) (entry_index : N) : res (N * N) :=
  check (entry_index <? xf_number_of_entries v) ;;;
  entry_offset <- add_chk two64 (xf_table_offset v) (entry_index * 8) ;;
  data <- read_exact_at file entry_offset 8 ;;
  value <- u64_le data 0 ;;
  Ok (N.land value 0xfffffffffff00000, N.land value 7).

(** file.rs 637-713 [read_sector_bitmap] *)
Definition vhdx_read_sector_bitmap (file : list N) (v : vhdx_file) (t : tree) (block_number block_offset : N)
  : tree * res unit :=
  match (chunk <- div_chk block_number (xf_entries_per_chunk v) ;;
         product <- mul_chk two64 (1 + chunk) (xf_entries_per_chunk v + 1) ;;
         table_entry <- sub_chk product 1 ;;
         '(entry_offset, _) <- vhdx_entry_read file v (table_entry mod two32) ;;
         sector_bitmap_offset <-
           add_chk two64 entry_offset (block_number mod xf_entries_per_chunk v * xf_sector_bitmap_size v) ;;
         data <- read_exact_at file sector_bitmap_offset (xf_sector_bitmap_size v) ;;
         bitmap_ranges false data (xf_bytes_per_sector v)) with
  | Ok ranges => insert_bitmap t InParent (block_number * xf_block_size v) block_offset ranges
  | Err => (t, Err)
  | Panic => (t, Panic)
  end.
(** file.rs 565-634 [read_block_allocation_entry] *)
Definition vhdx_load (file : list N) (v : vhdx_file) (t : tree) (media_offset block_number : N) : tree * res unit :=
  match (table_entry <-
           match xf_type v with
           | Fixed => Ok block_number
           | _ =>
               chunk <- div_chk block_number (xf_entries_per_chunk v) ;;
               product <- mul_chk two64 chunk (xf_entries_per_chunk v + 1) ;;
               add_chk two64 product (block_number mod xf_entries_per_chunk v)
           end ;;
         vhdx_entry_read file v (table_entry mod two32)) with
  | Ok (block_offset, block_state) =>
      if match xf_type v with Differential => negb (block_state =? 6) | _ => false end
      then vhdx_read_sector_bitmap file v t block_number block_offset
      else
        let block_media_offset := block_number * xf_block_size v in
        bt_insert t block_media_offset (xf_block_size v)
          (if block_state <? 6
           then {| br_media_offset := block_media_offset; br_data_offset := 0; br_size := xf_block_size v; br_type := Sparse |}
           else {| br_media_offset := block_media_offset; br_data_offset := block_offset; br_size := xf_block_size v;
                   br_type := InFile |})
  | Err => (t, Err)
  | Panic => (t, Panic)
  end.
Definition vhdx_layer (file : list N) (v : vhdx_file) : layer :=
  {| ly_file := file; ly_media_size := xf_media_size v; ly_block_size := xf_block_size v;
     ly_fixed := false; ly_load := vhdx_load file v |}.

(** An image: its files, the newest first, each with its parameters. Simplification: how
    the parents are found and checked, image.rs 56-150, is left out: it is that of VHD. *)
Definition vhdx_layers (files : list (list N * vhdx_file)) : list layer := map (fun f => vhdx_layer (fst f) (snd f)) files.
Definition vhdx_start (files : list (list N * vhdx_file)) : parents := map (fun f => (xf_tree (snd f), 0)) files.
Fixpoint vhdx_open_files (files : list (list N * vhdx_parameters)) : res (list (list N * vhdx_file)) :=
  match files with
  | [] => Ok []
  | (file, p) :: files => v <- vhdx_open p ;; fs <- vhdx_open_files files ;; Ok ((file, v) :: fs)
  end.
