(** * Model of keramics-formats/src/ntfs/compressed_stream.rs *)
From Verif Require Import Base Streams_model Streams_spec BlockTree_model Blocks_model Lru_model Lz_model Ntfs_model.

(** compression_range.rs 15-34 *)
Record compression_range := { cr_offset : N; cr_size : N; cr_compressed : bool }.

(** compressed_stream.rs 123-129: the variables of the loops of [open] *)
Record compression_state := { cs_tree : block_tree compression_range; cs_offset : N; cs_last : run_type; cs_range : compression_range }.

(** [data_run.run_type == other], data_run.rs 16 *)
Definition run_type_eq (a b : run_type) : bool :=
  match a, b with EndOfList, EndOfList | InFile, InFile | Sparse, Sparse => true | _, _ => false end.

(** compressed_stream.rs 135-170: a range of at least one unit is inserted, and what is left
    over starts the next range *)
Definition compression_emit (unit_size : N) (s : compression_state) : res compression_state :=
  let r := cs_range s in
  if unit_size <=? cr_size r then
    size <- (if cr_compressed r then Ok unit_size else n <- div_chk (cr_size r) unit_size ;; mul_chk two64 n unit_size) ;;
    remaining <- sub_chk (cr_size r) size ;;
    match bt_insert (cs_tree s) (cr_offset r) size {| cr_offset := cr_offset r; cr_size := size; cr_compressed := cr_compressed r |} with
    | (t, Ok _) =>
        o <- add_chk two64 (cs_offset s) size ;;
        Ok {| cs_tree := t; cs_offset := o; cs_last := cs_last s;
              cs_range := {| cr_offset := o; cr_size := remaining; cr_compressed := false |} |}
    | (_, Err) => Err
    | (_, Panic) => Panic
    end
  else Ok s.
(** compressed_stream.rs 172-186: a data run is added to the range *)
Definition compression_add (cluster_block_size : N) (run : data_run) (s : compression_state) : res compression_state :=
  let r := cs_range s in
  n <- mul_chk two64 (number_of_blocks run) cluster_block_size ;;
  size <- add_chk two64 (cr_size r) n ;;
  let starts := match cs_last s, run_kind run with InFile, Sparse => true | _, _ => false end in
  Ok {| cs_tree := cs_tree s; cs_offset := cs_offset s;
        cs_last := if run_type_eq (run_kind run) (cs_last s) then cs_last s else run_kind run;
        cs_range := {| cr_offset := cr_offset r; cr_size := size; cr_compressed := cr_compressed r || starts |} |}.
(** compressed_stream.rs 134-191, after the data run was processed. A compressed range is
    followed by an uncompressed one, so that no more than three turns are made. *)
Fixpoint compression_rest (fuel : nat) (unit_size : N) (s : compression_state) : res compression_state :=
  match fuel with
  | O => Panic
  | S fuel =>
      if cr_size (cs_range s) <? unit_size then Ok s
      else s <- compression_emit unit_size s ;; compression_rest fuel unit_size s
  end.
Fixpoint compression_runs (cluster_block_size unit_size : N) (runs : list data_run) (s : compression_state) : res compression_state :=
  match runs with
  | [] => Ok s
  | run :: runs =>
      s <- compression_emit unit_size s ;;
      s <- compression_add cluster_block_size run s ;;
      s <- compression_rest 3 unit_size s ;;
      compression_runs cluster_block_size unit_size runs s
  end.
(** compressed_stream.rs 130-193 *)
Fixpoint compression_groups (cluster_block_size unit_size : N) (groups : list cluster_group) (s : compression_state) : res compression_state :=
  match groups with
  | [] => Ok s
  | group :: groups =>
      s <- compression_runs cluster_block_size unit_size (data_runs group) s ;;
      compression_groups cluster_block_size unit_size groups s
  end.

(** compressed_stream.rs 31-55 *)
Record ntfs_compressed_stream := { nc_stream : ntfs_block_stream; nc_tree : block_tree compression_range; nc_unit : N; nc_size : N }.
(** compressed_stream.rs 73-213 [open] of a non-resident attribute *)
Definition ntfs_compressed_open (cluster_block_size : N) (attribute : ntfs_attribute) : res ntfs_compressed_stream :=
  check (is_compressed attribute) ;;;
  check (negb (compression_unit_size attribute =? 0)) ;;;
  stream <- ntfs_block_stream_open cluster_block_size attribute ;;
  let unit_size := compression_unit_size attribute * cluster_block_size in
  r <- mod_chk (allocated_data_size attribute) unit_size ;;
  check (r =? 0) ;;;
  units <- div_ceil (allocated_data_size attribute) unit_size ;;
  block_tree_size <- mul_chk two64 units unit_size ;;
  let t := bt_new block_tree_size 0 unit_size in
  t <- (if 0 <? allocated_data_size attribute then
          s <- compression_groups cluster_block_size unit_size (data_cluster_groups attribute)
                 {| cs_tree := t; cs_offset := 0; cs_last := EndOfList; cs_range := {| cr_offset := 0; cr_size := 0; cr_compressed := false |} |} ;;
          let r := cs_range s in
          if 0 <? cr_size r then
            match bt_insert (cs_tree s) (cr_offset r) (cr_size r) r with
            | (t, Ok _) => Ok t
            | (_, Err) => Err
            | (_, Panic) => Panic
            end
          else Ok (cs_tree s)
        else Ok t) ;;
  Ok {| nc_stream := stream; nc_tree := t; nc_unit := unit_size; nc_size := valid_data_size attribute |}.

(** A read of the block stream at an offset; its position is left out, every read sets it. *)
Definition nc_read_at (volume : list N) (stream : ntfs_block_stream) (offset n : N) : res (list N) :=
  snd (stream_read (ns_size stream) (ntfs_block_rd volume stream) (tt, offset) n).
(** compressed_stream.rs 254-298: a compressed unit, by way of the cache *)
Definition nc_cached (volume : list N) (v : ntfs_compressed_stream) (c : lru (list N)) (r : compression_range) : lru (list N) * res (list N) :=
  match (if lru_contains c (cr_offset r) then Ok c
         else
           data <- nc_read_at volume (nc_stream v) (cr_offset r) (cr_size r) ;;
           check (len data =? cr_size r) ;;;
           '(data, _) <- lznt1_decompress data (repeat 0 (N.to_nat (nc_unit v))) ;;
           lru_insert c (cr_offset r) data) with
  | Ok c => (c, of_option (lru_get c (cr_offset r)))
  | Err => (c, Err)
  | Panic => (c, Panic)
  end.
(** compressed_stream.rs 221-327: the body of the loop of [read_data_from_blocks] *)
Definition nc_step (volume : list N) (v : ntfs_compressed_stream) (c : lru (list N)) (current_offset n : N) : lru (list N) * res (list N) :=
  match (found <- bt_get (nc_tree v) current_offset ;;
         r <- of_option found ;;
         relative <- sub_chk current_offset (cr_offset r) ;;
         range_end <- add_chk two64 (cr_offset r) (cr_size r) ;;
         range_size <- sub_chk (N.min range_end (nc_size v)) (cr_offset r) ;;
         remainder <- sub_chk range_size relative ;;
         Ok (r, relative, remainder)) with
  | Ok (r, relative, remainder) =>
      if cr_compressed r then
        let '(c, data) := nc_cached volume v c r in
        (c, data <- data ;; slice data relative (relative + N.min n (nc_unit v)))
      else
        (c, o <- add_chk two64 (cr_offset r) relative ;; nc_read_at volume (nc_stream v) o (N.min n remainder))
  | Err => (c, Err)
  | Panic => (c, Panic)
  end.
(** compressed_stream.rs 332-378 *)
Definition nc_rd (volume : list N) (v : ntfs_compressed_stream) := blocks_rd (nc_size v) (nc_step volume v).
Definition nc_stream_step (volume : list N) (v : ntfs_compressed_stream) := stream_step (nc_size v) (nc_rd volume v).
Definition nc_start : lru (list N) * N := (lru_new 8, 0).
