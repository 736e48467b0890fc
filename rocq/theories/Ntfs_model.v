(** * Model of keramics-formats/src/ntfs: data runs, fix-up values, non-resident streams *)
From Verif Require Import Base Bytes_model Streams_model BlockTree_model Blocks_model.

(** ** Data runs *)

(** data_run.rs 17-22 *)
Inductive run_type := EndOfList | InFile | Sparse.
(** data_run.rs 26-35 *)
Record data_run := { block_number : N; number_of_blocks : N; run_kind : run_type }.

(** [value <<= 8; value |= byte] over the bytes in reverse, on 64 bits: data_run.rs 88-91
    and 108-111. An [i64] is its 64 bits, [<<=] drops the bits shifted out. *)
Definition shift_in (value : N) (bytes : list N) : N :=
  fold_left (fun value byte => N.lor (N.shiftl value 8 mod two64) byte) (rev bytes) value.

(** data_run.rs 48-119 [NtfsDataRun::read_data]: the run and the number of bytes used *)
Definition data_run_read (data : list N) (last_block_number : N) : res (data_run * N) :=
  let data_size := len data in
  check (1 <=? data_size) ;;;
  sizes_tuple <- idx data 0 ;;
  let number_of_blocks_size := N.land sizes_tuple 0x0f in
  let block_number_size := N.shiftr sizes_tuple 4 in
  let data_run_size := 1 + number_of_blocks_size + block_number_size in
  check (data_run_size <=? data_size) ;;;
  check (number_of_blocks_size <=? 8) ;;;
  check (block_number_size <=? 8) ;;;
  if number_of_blocks_size =? 0 then
    Ok ({| block_number := 0; number_of_blocks := 0; run_kind := EndOfList |}, 1)
  else
    let data_offset := 1 + number_of_blocks_size in
    bytes <- slice data 1 data_offset ;;
    let number_of_blocks := shift_in 0 bytes in
    if block_number_size =? 0 then
      Ok ({| block_number := 0; number_of_blocks := number_of_blocks; run_kind := Sparse |}, data_offset)
    else
      let data_end_offset := data_offset + block_number_size in
      last_byte <- idx data (data_end_offset - 1) ;;
      let block_number :=
        if negb (last_block_number =? 0) && negb (N.land last_byte 0x80 =? 0) then two64 - 1 else 0 in
      bytes <- slice data data_offset data_end_offset ;;
      let block_number := shift_in block_number bytes in
      block_number <- add_i64 (as_i64 block_number) (as_i64 last_block_number) ;;
      Ok ({| block_number := as_u64 block_number; number_of_blocks := number_of_blocks;
             run_kind := InFile |}, data_end_offset).

(** cluster_group.rs 51-84: the loop over the data runs; the runs and the offset after
    them. A run takes at least one byte, so that fuel of one more than the size of the
    data is never used up. *)
Fixpoint data_runs_loop (fuel : nat) (data : list N) (data_offset last_block_number : N)
    (data_runs : list data_run) : res (list data_run * N) :=
  match fuel with
  | O => Panic
  | S fuel =>
      if data_offset <? len data then
        rest <- slice data data_offset (len data) ;;
        '(data_run, read_count) <- data_run_read rest last_block_number ;;
        let data_offset := data_offset + read_count in
        match run_kind data_run with
        | EndOfList => Ok (data_runs, data_offset)
        | InFile =>
            data_runs_loop fuel data data_offset (block_number data_run) (data_runs ++ [data_run])
        | Sparse =>
            data_runs_loop fuel data data_offset last_block_number (data_runs ++ [data_run])
        end
      else Ok (data_runs, data_offset)
  end.

(** cluster_group.rs 42-86 [NtfsClusterGroup::read_data_runs]: the runs and the number of
    bytes used *)
Definition read_data_runs (data : list N) (data_runs_offset : N) : res (list data_run * N) :=
  '(data_runs, data_offset) <- data_runs_loop (S (length data)) data data_runs_offset 0 [] ;;
  n <- sub_chk data_offset data_runs_offset ;;
  Ok (data_runs, n).

(** ** Fix-up values *)

(** [buffer.copy_within(from..from + 2, to)] *)
Definition copy_two (buffer : list N) (from to : N) : res (list N) :=
  a <- idx buffer from ;; b <- idx buffer (from + 1) ;;
  buffer <- upd buffer to a ;; upd buffer (to + 1) b.

(** fixup_values.rs 72-90: the sectors; the buffer keeps what was written before an
    error *)
Fixpoint fixup_loop (n : nat) (buffer placeholder : list N) (fixup_value_offset buffer_offset : N)
  : list N * res unit :=
  match n with
  | O => (buffer, Ok tt)
  | S n =>
      if buffer_offset + 2 <=? len buffer then
        match slice buffer buffer_offset (buffer_offset + 2) with
        | Ok found =>
            if (if list_eq_dec N.eq_dec found placeholder then true else false) then
              match copy_two buffer fixup_value_offset buffer_offset with
              | Ok buffer => fixup_loop n buffer placeholder (fixup_value_offset + 2) (buffer_offset + 512)
              | Err => (buffer, Err)
              | Panic => (buffer, Panic)
              end
            else
              (* the fix-up value is read for the error message *)
              match u16_le buffer fixup_value_offset with
              | Panic => (buffer, Panic)
              | _ => (buffer, Err)
              end
        | _ => (buffer, Panic)
        end
      else fixup_loop n buffer placeholder (fixup_value_offset + 2) (buffer_offset + 512)
  end.

(** fixup_values.rs 19-92 [apply_fixup_values]; the debug output is left out *)
Definition apply_fixup_values (buffer : list N) (fixup_values_offset number_of_fixup_values : N)
  : list N * res unit :=
  let buffer_size := len buffer in
  if buffer_size <=? fixup_values_offset then (buffer, Err)
  else
    let fixup_values_size := 2 + number_of_fixup_values * 2 in
    if buffer_size <? fixup_values_offset + fixup_values_size then (buffer, Err)
    else
      match slice buffer fixup_values_offset (fixup_values_offset + 2) with
      | Ok placeholder =>
          (* [for _ in 1..number_of_fixup_values]: none when the number is 0 *)
          fixup_loop (N.to_nat (number_of_fixup_values - 1)) buffer placeholder
            (fixup_values_offset + 2) 510
      | _ => (buffer, Panic)
      end.

(** ** Streams of non-resident attributes *)

(** cluster_group.rs 20-29 *)
Record cluster_group := { first_vcn : N; last_vcn : N; data_runs : list data_run }.
(** The fields of mft_attribute.rs [NtfsMftAttribute] that the streams use *)
Record ntfs_attribute := {
  allocated_data_size : N; data_size : N; valid_data_size : N;
  is_compressed : bool; compression_unit_size : N; data_cluster_groups : list cluster_group
}.
(** block_range.rs 23-35 *)
Record block_range := {
  virtual_cluster_offset : N; cluster_block_number : N; range_blocks : N; range_sparse : bool
}.

(** block_stream.rs 88-122 *)
Fixpoint ntfs_insert_runs (cluster_block_size : N) (runs : list data_run)
    (t : block_tree block_range) (vcn offset : N) : res (block_tree block_range * N * N) :=
  match runs with
  | [] => Ok (t, vcn, offset)
  | data_run :: runs =>
      range_size <- mul_chk two64 (number_of_blocks data_run) cluster_block_size ;;
      sparse <- match run_kind data_run with InFile => Ok false | Sparse => Ok true | EndOfList => Err end ;;
      match bt_insert t offset range_size
        {| virtual_cluster_offset := offset; cluster_block_number := block_number data_run;
           range_blocks := number_of_blocks data_run; range_sparse := sparse |} with
      | (t, Ok _) =>
          vcn <- add_chk two64 vcn (number_of_blocks data_run) ;;
          offset <- add_chk two64 offset range_size ;;
          ntfs_insert_runs cluster_block_size runs t vcn offset
      | (_, Err) => Err
      | (_, Panic) => Panic
      end
  end.
(** block_stream.rs 81-131 *)
Fixpoint ntfs_insert_groups (cluster_block_size : N) (groups : list cluster_group)
    (t : block_tree block_range) (vcn offset : N) : res (block_tree block_range) :=
  match groups with
  | [] => Ok t
  | group :: groups =>
      check (first_vcn group =? vcn) ;;;
      '(t, vcn, offset) <- ntfs_insert_runs cluster_block_size (data_runs group) t vcn offset ;;
      (if last_vcn group =? two64 - 1 then Ok tt
       else last <- add_chk two64 (last_vcn group) 1 ;; check (last =? vcn)) ;;;
      ntfs_insert_groups cluster_block_size groups t vcn offset
  end.

(** block_stream.rs 26-44 *)
Record ntfs_block_stream := {
  ns_cluster_block_size : N; ns_tree : block_tree block_range; ns_size : N; ns_valid_data_size : N
}.
(** block_stream.rs 60-143 [open] of a non-resident attribute *)
Definition ntfs_block_stream_open (cluster_block_size : N) (attribute : ntfs_attribute)
  : res ntfs_block_stream :=
  blocks <- div_ceil (allocated_data_size attribute) cluster_block_size ;;
  block_tree_size <- mul_chk two64 blocks cluster_block_size ;;
  let t := bt_new block_tree_size 0 cluster_block_size in
  t <- (if 0 <? allocated_data_size attribute
        then ntfs_insert_groups cluster_block_size (data_cluster_groups attribute) t 0 0 else Ok t) ;;
  Ok (if is_compressed attribute
      then {| ns_cluster_block_size := cluster_block_size; ns_tree := t;
              ns_size := allocated_data_size attribute;
              ns_valid_data_size := allocated_data_size attribute |}
      else {| ns_cluster_block_size := cluster_block_size; ns_tree := t;
              ns_size := data_size attribute; ns_valid_data_size := valid_data_size attribute |}).

(** block_stream.rs 155-215: the body of the loop over the ranges; [volume] is the
    content of the data stream *)
Definition ntfs_block_step (volume : list N) (stream : ntfs_block_stream)
    (u : unit) (current_offset read_remainder_size : N) : unit * res (list N) :=
  (u,
   if ns_valid_data_size stream <=? current_offset then
     range_remainder_size <- sub_chk (ns_size stream) current_offset ;;
     Ok (repeat 0 (N.to_nat (N.min read_remainder_size range_remainder_size)))
   else
     found <- bt_get (ns_tree stream) current_offset ;;
     range <- of_option found ;;
     let range_logical_offset := virtual_cluster_offset range in
     range_size <- mul_chk two64 (range_blocks range) (ns_cluster_block_size stream) ;;
     range_end <- add_chk two64 range_logical_offset range_size ;;
     let range_logical_end_offset :=
       if ns_valid_data_size stream <? range_end then ns_valid_data_size stream else range_end in
     range_relative_offset <- sub_chk current_offset range_logical_offset ;;
     n <- sub_chk range_logical_end_offset range_logical_offset ;;
     range_remainder_size <- sub_chk n range_relative_offset ;;
     let range_read_size := N.min read_remainder_size range_remainder_size in
     if range_sparse range then Ok (repeat 0 (N.to_nat range_read_size))
     else
       range_physical_offset <- mul_chk two64 (cluster_block_number range) (ns_cluster_block_size stream) ;;
       offset <- add_chk two64 range_physical_offset range_relative_offset ;;
       Ok (read_at volume offset range_read_size)).
(** block_stream.rs 146-223, 233-271 *)
Definition ntfs_block_rd (volume : list N) (stream : ntfs_block_stream) :=
  blocks_rd (ns_size stream) (ntfs_block_step volume stream).
Definition ntfs_block_stream_step (volume : list N) (stream : ntfs_block_stream) :=
  stream_step (ns_size stream) (ntfs_block_rd volume stream).
