(** * Files of the Windows overlay filter: keramics-formats/src/ntfs/wof_compressed_stream.rs *)
From Verif Require Import Base Streams_model Streams_spec BlockTree_model Blocks_model Lru_model Ntfs_model NtfsCompressed_model NtfsFs_model Lzx_model.

(** wof_compressed_stream.rs 29-60; the offsets of the blocks and the cache, which change, are
    the state of the stream *)
Record wof_stream := { wf_stream : ntfs_block_stream; wf_method : N; wf_unit : N; wf_compressed : N; wf_size : N }.
(** wof_compressed_stream.rs 110-121 *)
Definition wof_unit_size (method : N) : res N :=
  if method =? 0 then Ok 4096 else if method =? 1 then Ok 32768
  else if method =? 2 then Ok 8192 else if method =? 3 then Ok 16384 else Err.
(** wof_compressed_stream.rs 80-125 [open] *)
Definition wof_open (cluster_block_size method : N) (attribute : mft_attribute) (size : N) : res wof_stream :=
  check (negb (ma_is_compressed attribute)) ;;;
  check (negb (ma_is_resident attribute)) ;;;
  stream <- ntfs_block_stream_open cluster_block_size (ma_stream attribute) ;;
  unit_size <- wof_unit_size method ;;
  Ok {| wf_stream := stream; wf_method := method; wf_unit := unit_size; wf_compressed := ma_valid attribute; wf_size := size |}.

(** [read_exact_at_position] of the block stream: keramics-core/src/data_stream.rs 50-61 *)
Definition wof_read_exact (volume : list N) (v : wof_stream) (offset n : N) : res (list N) :=
  data <- nc_read_at volume (wf_stream v) offset n ;;
  check (len data =? n) ;;;
  Ok data.

(** wof_compressed_stream.rs 324-343: what was pushed stays when an offset is out of bounds *)
Fixpoint wof_entries (compressed_size width data_size : N) (n : nat) (data : list N) (data_offset : N) (offsets : list N)
  : list N * res unit :=
  match n with
  | O => (offsets, Ok tt)
  | S n =>
      match (raw <- slice data data_offset (data_offset + width) ;; add_chk two64 (le_value raw) data_size) with
      | Ok block_offset =>
          if compressed_size <? block_offset then (offsets, Err)
          else wof_entries compressed_size width data_size n data (data_offset + width) (offsets ++ [block_offset])
      | Err => (offsets, Err)
      | Panic => (offsets, Panic)
      end
  end.
(** wof_compressed_stream.rs 288-357 [read_compressed_block_offsets]. Simplification here and
    below: memory is always there, whatever size the attribute has. *)
Definition wof_read_offsets (volume : list N) (v : wof_stream) (offsets : list N) : list N * res unit :=
  let width := if two32 - 1 <? wf_compressed v then 8 else 4 in
  match (number <- div_ceil (wf_size v) (wf_unit v) ;;
         n <- sub_chk number 1 ;;
         data_size <- mul_chk two64 n width ;;
         data <- wof_read_exact volume v 0 data_size ;;
         Ok (n, data_size, data)) with
  | Ok (n, data_size, data) => wof_entries (wf_compressed v) width data_size (N.to_nat n) data 0 (offsets ++ [data_size])
  | Err => (offsets, Err)
  | Panic => (offsets, Panic)
  end.

Section Wof.
  (** [LzxpressHuffmanContext::decompress]: keramics-compression/src/lib.rs declares it, its
      source is not in /repo *)
  Context (xpress : list N -> list N -> res (list N * N)).

  (** wof_compressed_stream.rs 222-285 [read_compressed_block], into a buffer of zeros *)
  Definition wof_block (volume : list N) (v : wof_stream) (block_offset block_size : N) : res (list N) :=
    data <- wof_read_exact volume v block_offset block_size ;;
    let buffer := repeat 0 (N.to_nat (wf_unit v)) in
    '(buffer, _) <- (if wf_method v =? 1 then lzx_decompress data buffer
                     else if (wf_method v =? 0) || (wf_method v =? 2) || (wf_method v =? 3) then xpress data buffer
                     else Err) ;;
    Ok buffer.
  (** wof_compressed_stream.rs 187-213: a compressed block, by way of the cache *)
  Definition wof_cached (volume : list N) (v : wof_stream) (c : lru (list N)) (block_offset block_size : N) : lru (list N) * res (list N) :=
    match (if lru_contains c block_offset then Ok c
           else data <- wof_block volume v block_offset block_size ;; lru_insert c block_offset data) with
    | Ok c => (c, of_option (lru_get c block_offset))
    | Err => (c, Err)
    | Panic => (c, Panic)
    end.
  (** wof_compressed_stream.rs 144-217: the body of the loop of [read_data_from_blocks] *)
  Definition wof_step (volume : list N) (v : wof_stream) (offsets : list N) (c : lru (list N)) (current_offset n : N)
    : lru (list N) * res (list N) :=
    match (block_index <- div_chk current_offset (wf_unit v) ;;
           block_offset <- idx offsets block_index ;;
           next_block_offset <- (if block_index + 1 <? len offsets then idx offsets (block_index + 1) else Ok (wf_compressed v)) ;;
           block_size <- sub_chk next_block_offset block_offset ;;
           range_offset <- mul_chk two64 block_index (wf_unit v) ;;
           rest <- sub_chk (wf_size v) range_offset ;;
           relative <- sub_chk current_offset range_offset ;;
           remainder <- sub_chk (N.min (wf_unit v) rest) relative ;;
           Ok (block_offset, block_size, N.min (wf_unit v) rest, relative, N.min n remainder)) with
    | Ok (block_offset, block_size, range_size, relative, n) =>
        if range_size =? block_size then
          (c, o <- add_chk two64 block_offset relative ;; wof_read_exact volume v o n)
        else
          let '(c, data) := wof_cached volume v c block_offset block_size in
          (c, data <- data ;; slice data relative (relative + n))
    | Err => (c, Err)
    | Panic => (c, Panic)
    end.
  (** wof_compressed_stream.rs 128-219 [read_data_from_blocks] *)
  Definition wof_rd (volume : list N) (v : wof_stream) (s : list N * lru (list N)) (current_offset n : N)
    : (list N * lru (list N)) * res (list N) :=
    let '(offsets, c) := s in
    match (if (0 <? wf_size v) && (len offsets =? 0) then wof_read_offsets volume v offsets else (offsets, Ok tt)) with
    | (offsets, Ok _) =>
        let '(c, r) := blocks_rd (wf_size v) (wof_step volume v offsets) c current_offset n in ((offsets, c), r)
    | (offsets, Err) => ((offsets, c), Err)
    | (offsets, Panic) => ((offsets, c), Panic)
    end.
  (** wof_compressed_stream.rs 360-404 *)
  Definition wof_stream_step (volume : list N) (v : wof_stream) := stream_step (wf_size v) (wof_rd volume v).
End Wof.
(** wof_compressed_stream.rs 64-77 *)
Definition wof_start : (list N * lru (list N)) * N := (([], lru_new 8), 0).
