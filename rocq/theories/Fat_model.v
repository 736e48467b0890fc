(** * Model of keramics-formats/src/fat: the allocation table and cluster chains *)
From Verif Require Import Base Bytes_model Streams_model BlockTree_model Blocks_model.

(** enums.rs 14-19 *)
Inductive fat_format := Fat12 | Fat16 | Fat32.
(** block_allocation_table.rs 23-41 *)
Record fat_table := {
  table_format : fat_format; table_offset : N; number_of_entries : N;
  first_cluster_offset : N; cluster_block_size : N
}.

(** block_allocation_table.rs 63-69 *)
Definition largest_cluster_block_number (f : fat_format) : N :=
  match f with Fat12 => 0x00000ff0 | Fat16 => 0x0000fff0 | Fat32 => 0x0ffffff0 end.

(** block_allocation_table.rs 72-128 [read_entry]; [volume] is the content of the data
    stream; the debug output is left out *)
Definition read_entry (volume : list N) (table : fat_table) (entry_index : N) : res N :=
  check (entry_index <? number_of_entries table) ;;;
  let entry_offset :=
    match table_format table with
    | Fat12 => entry_index / 2 * 3
    | Fat16 => entry_index * 2
    | Fat32 => entry_index * 4
    end in
  let entry_size := match table_format table with Fat12 => 3 | Fat16 => 2 | Fat32 => 4 end in
  offset <- add_chk two64 (table_offset table) entry_offset ;;
  data <- read_exact_at volume offset entry_size ;;
  match table_format table with
  | Fat12 =>
      if entry_index mod 2 =? 0 then v <- u16_le data 0 ;; Ok (N.land v 0x0fff)
      else v <- u16_le data 1 ;; Ok (N.shiftr v 4)
  | Fat16 => u16_le data 0
  | Fat32 => u32_le data 0
  end.

(** block_range.rs 15-36 *)
Record fat_range := { logical_offset : N; physical_offset : N; fr_size : N }.

(** block_stream.rs 73-115: the walk along the chain. [seen] are the cluster numbers read
    before. Each turn adds a cluster number below the number of entries to [seen], so that
    fuel of two more than that number is never used up. *)
Fixpoint fat_walk (fuel : nat) (volume : list N) (table : fat_table) (block_size : N)
    (seen : list N) (cluster offset : N) (t : block_tree fat_range) : res (block_tree fat_range) :=
  match fuel with
  | O => Panic
  | S fuel =>
      if (2 <=? cluster) && (cluster <? largest_cluster_block_number (table_format table)) then
        if existsb (N.eqb cluster) seen then Err
        else
          relative <- mul_chk two64 (cluster - 2) (cluster_block_size table) ;;
          physical <- add_chk two64 (first_cluster_offset table) relative ;;
          match bt_insert t offset block_size
            {| logical_offset := offset; physical_offset := physical; fr_size := block_size |} with
          | (t, Ok _) =>
              offset <- add_chk two64 offset block_size ;;
              next <- read_entry volume table cluster ;;
              fat_walk fuel volume table block_size (cluster :: seen) next offset t
          | (_, Err) => Err
          | (_, Panic) => Panic
          end
      else Ok t
  end.

(** block_stream.rs 26-41 *)
Record fat_stream := { fs_tree : block_tree fat_range; fs_size : N }.
(** block_stream.rs 45-53 [new], 56-119 [open] *)
Definition fat_stream_open (volume : list N) (table : fat_table) (block_size size cluster : N)
  : res fat_stream :=
  blocks <- div_ceil size block_size ;;
  block_tree_data_size <- mul_chk two64 blocks block_size ;;
  t <- fat_walk (N.to_nat (number_of_entries table) + 2) volume table block_size [] cluster 0
         (bt_new block_tree_data_size 0 block_size) ;;
  Ok {| fs_tree := t; fs_size := size |}.

(** block_stream.rs 131-165: the body of the loop over the ranges *)
Definition fat_step (volume : list N) (stream : fat_stream) (u : unit)
    (current_offset read_remainder_size : N) : unit * res (list N) :=
  (u,
   found <- bt_get (fs_tree stream) current_offset ;;
   range <- of_option found ;;
   range_relative_offset <- sub_chk current_offset (logical_offset range) ;;
   range_remainder_size <- sub_chk (fr_size range) range_relative_offset ;;
   let range_read_size := N.min read_remainder_size range_remainder_size in
   offset <- add_chk two64 (physical_offset range) range_relative_offset ;;
   Ok (read_at volume offset range_read_size)).
(** block_stream.rs 122-168, 178-216 *)
Definition fat_rd (volume : list N) (stream : fat_stream) :=
  blocks_rd (fs_size stream) (fat_step volume stream).
Definition fat_stream_step (volume : list N) (stream : fat_stream) :=
  stream_step (fs_size stream) (fat_rd volume stream).
