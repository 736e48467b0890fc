(** * Model of keramics-formats/src/ext: block maps, extents and block streams *)
From Verif Require Import Base Bytes_model Streams_model BlockTree_model Blocks_model.

(** block_range.rs 14-35 *)
Record ext_range := { er_logical : N; er_physical : N; er_count : N; er_sparse : bool }.

(** ** Block numbers: block_numbers_tree.rs

    The vector of block ranges is kept newest first while it is built: [block_ranges[len - 1]]
    is the head and [push] is [cons]. *)

(** 184-186: [for _ in 0..depth { number_of_blocks *= number_of_blocks_per_block }] *)
Fixpoint bn_power (depth : nat) (per_block number_of_blocks : N) : res N :=
  match depth with
  | O => Ok number_of_blocks
  | S depth =>
      number_of_blocks <- mul_chk two64 number_of_blocks per_block ;;
      bn_power depth per_block number_of_blocks
  end.

(** 182-240: one block number that is not that of a sub node *)
Definition bn_add (per_block total : N) (depth : nat) (block_number : N) (st : list ext_range * N)
  : res (list ext_range * N) :=
  let '(block_ranges, logical_block_number) := st in
  number_of_blocks <-
    (if block_number =? 0 then
       n <- bn_power depth per_block 1 ;;
       remaining <- sub_chk total logical_block_number ;;
       Ok (N.min n remaining)
     else Ok 1) ;;
  let fresh :=
    {| er_logical := logical_block_number; er_physical := block_number; er_count := number_of_blocks;
       er_sparse := block_number =? 0 |} in
  block_ranges <-
    match block_ranges with
    | last :: rest =>
        follows <-
          (if er_sparse last then Ok (block_number =? 0)
           else e <- add_chk two64 (er_physical last) (er_count last) ;; Ok (block_number =? e)) ;;
        if follows then
          count <- add_chk two64 (er_count last) number_of_blocks ;;
          Ok ({| er_logical := er_logical last; er_physical := er_physical last; er_count := count;
                 er_sparse := er_sparse last |} :: rest)
        else Ok (fresh :: last :: rest)
    | [] => Ok [fresh]
    end ;;
  logical_block_number <- add_chk two64 logical_block_number number_of_blocks ;;
  Ok (block_ranges, logical_block_number).

(** 152-156: the loop over the block numbers of a node *)
Fixpoint bn_entries (step : N -> list ext_range * N -> res (list ext_range * N)) (total : N)
    (data offsets : list N) (st : list ext_range * N) : res (list ext_range * N) :=
  match offsets with
  | [] => Ok st
  | data_offset :: offsets =>
      if total <=? snd st then Ok st
      else
        block_number <- u32_le data data_offset ;;
        st <- step block_number st ;;
        bn_entries step total data offsets st
  end.
(** [(0..data_size).step_by(4)] *)
Definition by_four (data_size : N) : list N :=
  map (fun k => 4 * k) (seqN 0 (N.to_nat ((data_size + 3) / 4))).

(** 142-243 [read_node_data] and 246-272 [read_node_at_position]; the debug output is left
    out *)
Fixpoint bn_read (depth : nat) (volume : list N) (block_size total : N) (data : list N)
    (st : list ext_range * N) : res (list ext_range * N) :=
  let per_block := block_size / 4 in
  bn_entries
    (match depth with
     | O => bn_add per_block total 0
     | S depth' => fun block_number st =>
         if block_number =? 0 then bn_add per_block total depth block_number st
         else
           sub_node_offset <- mul_chk two64 block_number block_size ;;
           data <- read_exact_at volume sub_node_offset block_size ;;
           bn_read depth' volume block_size total data st
     end) total data (by_four (len data)) st.

(** 50-139 [read_data_reference] of a new tree and an empty vector *)
Definition block_numbers_read (volume : list N) (block_size total : N) (data_reference : list N)
  : res (list ext_range) :=
  d <- slice data_reference 0 48 ;;
  st <- bn_read 0 volume block_size total d ([], 0) ;;
  d <- slice data_reference 48 52 ;;
  st <- bn_read 1 volume block_size total d st ;;
  d <- slice data_reference 52 56 ;;
  st <- bn_read 2 volume block_size total d st ;;
  d <- slice data_reference 56 60 ;;
  st <- bn_read 3 volume block_size total d st ;;
  let '(block_ranges, logical_block_number) := st in
  let block_ranges :=
    if logical_block_number <? total then
      {| er_logical := logical_block_number; er_physical := 0; er_count := total - logical_block_number;
         er_sparse := true |} :: block_ranges
    else block_ranges in
  Ok (rev block_ranges).

(** ** Extents: extents_tree.rs, extents_header.rs, extent_index.rs, extent_descriptor.rs *)

(** extents_header.rs 47-68: the number of entries and the depth *)
Definition extents_header_read (data : list N) : res (N * N) :=
  check (len data =? 12) ;;;
  signature <- slice data 0 2 ;;
  check (if list_eq_dec N.eq_dec signature [0x0a; 0xf3] then true else false) ;;;
  number_of_entries <- u16_le data 2 ;;
  depth <- u16_le data 6 ;;
  check (depth <=? 5) ;;;
  Ok (number_of_entries, depth).
(** extent_index.rs 45-58: the physical block number *)
Definition extent_index_read (data : list N) : res N :=
  check (len data =? 12) ;;;
  _ <- u32_le data 0 ;;
  lower <- u32_le data 4 ;;
  upper <- u16_le data 8 ;;
  Ok (N.lor (N.shiftl upper 32) lower).
(** extent_descriptor.rs 52-66: logical block number, number of blocks, physical block number *)
Definition extent_descriptor_read (data : list N) : res (N * N * N) :=
  check (len data =? 12) ;;;
  logical <- u32_le data 0 ;;
  count <- u16_le data 4 ;;
  upper <- u16_le data 6 ;;
  lower <- u32_le data 8 ;;
  Ok (logical, count, N.lor (N.shiftl upper 32) lower).

(** extents_tree.rs 181-213: one extent *)
Definition extent_add (entry : N * N * N) (st : list ext_range * N) : list ext_range * N :=
  let '(logical, count, physical) := entry in
  let '(block_ranges, logical_block_number) := st in
  let '(block_ranges, logical_block_number) :=
    if logical_block_number <? logical then
      ({| er_logical := logical_block_number; er_physical := 0;
          er_count := logical - logical_block_number; er_sparse := true |} :: block_ranges, logical)
    else (block_ranges, logical_block_number) in
  let '(number_of_blocks, sparse) :=
    if 32768 <? count then (count - 32768, true) else (count, physical =? 0) in
  ({| er_logical := logical; er_physical := physical; er_count := number_of_blocks; er_sparse := sparse |}
     :: block_ranges, logical + number_of_blocks).

(** extents_tree.rs 113-156, 158-214: the loop over the entries, and the offset after them *)
Fixpoint extent_entries (step : list N -> list ext_range * N -> res (list ext_range * N)) (n : nat)
    (data : list N) (data_offset : N) (st : list ext_range * N) : res (list ext_range * N * N) :=
  match n with
  | O => Ok (st, data_offset)
  | S n =>
      entry <- slice data data_offset (data_offset + 12) ;;
      st <- step entry st ;;
      extent_entries step n data (data_offset + 12) st
  end.

(** extents_tree.rs 82-234 [read_node_data], 237-263 [read_node_at_position]. [parent_depth]
    bounds the depth of the node and with it the recursion: the fuel is as large and is
    never used up. *)
Fixpoint extents_node_read (fuel : nat) (volume : list N) (block_size : N) (data : list N)
    (parent_depth : N) (st : list ext_range * N) : res (list ext_range * N) :=
  match fuel with
  | O => Panic
  | S fuel =>
      header <- slice data 0 12 ;;
      '(number_of_entries, depth) <- extents_header_read header ;;
      check (depth <? parent_depth) ;;;
      '(st, data_offset) <-
        extent_entries
          (if 0 <? depth then
             fun entry st =>
               physical_block_number <- extent_index_read entry ;;
               sub_node_offset <- mul_chk two64 physical_block_number block_size ;;
               data <- read_exact_at volume sub_node_offset block_size ;;
               extents_node_read fuel volume block_size data depth st
           else
             fun entry st => entry <- extent_descriptor_read entry ;; Ok (extent_add entry st))
          (N.to_nat number_of_entries) data 12 st ;;
      remaining <- sub_chk (len data) data_offset ;;
      (if 4 <=? remaining then
         footer <- slice data data_offset (data_offset + 4) ;; _ <- u32_le footer 0 ;; Ok tt
       else Ok tt) ;;;
      Ok st
  end.

(** extents_tree.rs 48-79 [read_data_reference] *)
Definition extents_read (volume : list N) (block_size total : N) (data_reference : list N)
  : res (list ext_range) :=
  '(block_ranges, logical_block_number) <- extents_node_read 6 volume block_size data_reference 6 ([], 0) ;;
  let block_ranges :=
    if logical_block_number <? total then
      {| er_logical := logical_block_number; er_physical := 0; er_count := total - logical_block_number;
         er_sparse := true |} :: block_ranges
    else block_ranges in
  Ok (rev block_ranges).

(** ** Block streams: block_stream.rs *)

(** 62-77 *)
Fixpoint ext_insert (block_size : N) (ranges : list ext_range) (t : block_tree ext_range)
  : res (block_tree ext_range) :=
  match ranges with
  | [] => Ok t
  | r :: ranges =>
      logical_offset <- mul_chk two64 (er_logical r) block_size ;;
      range_size <- mul_chk two64 (er_count r) block_size ;;
      match bt_insert t logical_offset range_size r with
      | (t, Ok _) => ext_insert block_size ranges t
      | (_, Err) => Err
      | (_, Panic) => Panic
      end
  end.

(** 23-38 *)
Record ext_stream := { xs_block_size : N; xs_tree : block_tree ext_range; xs_size : N }.
(** 42-50 [new], 53-81 [open] *)
Definition ext_stream_open (block_size size number_of_blocks : N) (ranges : list ext_range)
  : res ext_stream :=
  block_tree_data_size <- mul_chk two64 number_of_blocks block_size ;;
  t <- ext_insert block_size ranges (bt_new block_tree_data_size 0 block_size) ;;
  Ok {| xs_block_size := block_size; xs_tree := t; xs_size := size |}.
(** 93-141: the body of the loop over the ranges *)
Definition ext_step (volume : list N) (stream : ext_stream) (u : unit)
    (current_offset read_remainder_size : N) : unit * res (list N) :=
  (u,
   found <- bt_get (xs_tree stream) current_offset ;;
   range <- of_option found ;;
   range_logical_offset <- mul_chk two64 (er_logical range) (xs_block_size stream) ;;
   range_size <- mul_chk two64 (er_count range) (xs_block_size stream) ;;
   range_relative_offset <- sub_chk current_offset range_logical_offset ;;
   range_remainder_size <- sub_chk range_size range_relative_offset ;;
   let range_read_size := N.min read_remainder_size range_remainder_size in
   if er_sparse range then Ok (repeat 0 (N.to_nat range_read_size))
   else
     range_physical_offset <- mul_chk two64 (er_physical range) (xs_block_size stream) ;;
     offset <- add_chk two64 range_physical_offset range_relative_offset ;;
     Ok (read_at volume offset range_read_size)).
(** 84-146, 156-194 *)
Definition ext_rd (volume : list N) (stream : ext_stream) :=
  blocks_rd (xs_size stream) (ext_step volume stream).
Definition ext_stream_step (volume : list N) (stream : ext_stream) :=
  stream_step (xs_size stream) (ext_rd volume stream).
