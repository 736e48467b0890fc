(** * Layered images with a block tree that is filled while reading: the part that VHD,
    VHDX and QCOW have in common *)
From Verif Require Import Base Streams_model BlockTree_model Blocks_model.

(** vhd/block_range.rs 14-53, vhdx/block_range.rs 14-53, qcow/block_range.rs 14-54:
    InParent is called InBackingFile in QCOW. *)
Inductive range_type := InFile | InParent | Sparse | Compressed.
Record block_range := { br_media_offset : N; br_data_offset : N; br_size : N; br_type : range_type }.
Definition tree := block_tree block_range.

(** One file of an image. [ly_load tree media_offset block_number] fills the tree:
    [read_block_allocation_entry] or [read_cluster_block_entry]. [ly_fixed] is the case of
    vhd/file.rs 482-495. *)
Record layer := {
  ly_file : list N;
  ly_media_size : N;
  ly_block_size : N;
  ly_fixed : bool;
  ly_load : tree -> N -> N -> tree * res unit
}.

(** The body of the loop of [read_data_from_blocks]: vhd/file.rs 346-421, vhdx/file.rs
    726-801, qcow/file.rs 443-520. The state is the number of the block, the tree, and the
    state of the parent [P]. QCOW has no block number, there it is not used. *)
Definition lazy_step {P} (l : layer) (parent : P -> N -> N -> P * res (list N))
    (s : N * tree * P) (media_offset count : N) : (N * tree * P) * res (list N) :=
  let '(block_number, t, p) := s in
  let value :=
    match bt_get t media_offset with
    | Ok None =>
        match ly_load l t media_offset block_number with
        | (t, Ok _) => (t, bt_get t media_offset)
        | (t, Err) => (t, Err)
        | (t, Panic) => (t, Panic)
        end
    | v => (t, v)
    end in
  let t := fst value in
  match snd value with
  | Ok (Some r) =>
      match (range_relative_offset <- sub_chk media_offset (br_media_offset r) ;;
             range_remainder_size <- sub_chk (br_size r) range_relative_offset ;;
             Ok (range_relative_offset, if range_remainder_size <? count then range_remainder_size else count)) with
      | Ok (range_relative_offset, range_read_size) =>
          match br_type r with
          | InFile =>
              match add_chk two64 (br_data_offset r) range_relative_offset with
              | Ok o => ((block_number + 1, t, p), Ok (read_at (ly_file l) o range_read_size))
              | _ => ((block_number, t, p), Panic)
              end
          | InParent => let '(p, data) := parent p media_offset range_read_size in ((block_number + 1, t, p), data)
          | Sparse => ((block_number + 1, t, p), Ok (repeat 0 (N.to_nat range_read_size)))
          | Compressed => ((block_number, t, p), Panic)
          end
      | Err => ((block_number, t, p), Err)
      | Panic => ((block_number, t, p), Panic)
      end
  | Ok None => ((block_number, t, p), Err)
  | Err => ((block_number, t, p), Err)
  | Panic => ((block_number, t, p), Panic)
  end.

(** vhd/file.rs 336-344 and 474-495, vhdx/file.rs 716-722, qcow/file.rs 434-439 *)
Definition lazy_rd {P} (l : layer) (parent : P -> N -> N -> P * res (list N))
    (s : tree * P) (media_offset n : N) : (tree * P) * res (list N) :=
  if ly_fixed l then (s, Ok (read_at (ly_file l) media_offset n))
  else
    match div_chk media_offset (ly_block_size l) with
    | Ok block_number =>
        let '((_, t, p), r) :=
          blocks_rd (ly_media_size l) (lazy_step l parent) (block_number, fst s, snd s) media_offset n in
        ((t, p), r)
    | _ => (s, Panic)
    end.

(** The files of an image, that of the newest first. The state of a file is its tree and
    its position. A file reads from the next one with [data_stream_read_at_position!],
    which moves the position of that. *)
Definition parents := list (tree * N).
Fixpoint chain_rd (layers : list layer) : tree * parents -> N -> N -> (tree * parents) * res (list N) :=
  match layers with
  | [] => fun s media_offset n => (s, Panic)
  | l :: ls =>
      lazy_rd l (fun (p : parents) media_offset n =>
        match ls, p with
        | l' :: _, (t, _) :: p =>
            let '((t, p, o), r) := stream_read (ly_media_size l') (chain_rd ls) ((t, p), media_offset) n in
            ((t, o) :: p, r)
        | _, _ => (p, Err)
        end)
  end.
Definition chain_step (layers : list layer) : (tree * parents) * N -> stream_op -> ((tree * parents) * N) * stream_out :=
  match layers with
  | [] => fun s op => (s, Data Panic)
  | l :: _ => stream_step (ly_media_size l) (chain_rd layers)
  end.
(** Calls on any of the files: the number of files on top of it, and the call. *)
Definition layers_step (layers : list layer) (s : parents) (op : nat * stream_op) : parents * stream_out :=
  match skipn (fst op) s with
  | (t, o) :: p =>
      let '((t, p, o), out) := chain_step (skipn (fst op) layers) ((t, p), o) (snd op) in
      (firstn (fst op) s ++ (t, o) :: p, out)
  | [] => (s, Data Panic)
  end.
Fixpoint layers_run (layers : list layer) (s : parents) (ops : list (nat * stream_op)) : parents * list stream_out :=
  match ops with
  | [] => (s, [])
  | op :: ops =>
      let '(s, out) := layers_step layers s op in
      let '(s, outs) := layers_run layers s ops in
      (s, out :: outs)
  end.

(** ** Sector bitmaps: vhd/sector_bitmap.rs and vhdx/sector_bitmap.rs *)

(** The bits of a byte in the order of the loop of lines 73-88: from the lowest on. *)
Definition byte_bits (b : N) : list N := map (fun i => N.land (N.shiftr b i) 1) [0; 1; 2; 3; 4; 5; 6; 7].
(** Lines 70-94. The offset stays far below 2^64 for a bitmap that fits in memory. *)
Fixpoint bitmap_loop (bits : list N) (bytes_per_bit offset range_offset range_bit_value : N) : list (N * bool) :=
  match bits with
  | [] => [(offset - range_offset, negb (range_bit_value =? 0))]
  | bit_value :: bits =>
      if bit_value =? range_bit_value then
        bitmap_loop bits bytes_per_bit (offset + bytes_per_bit) range_offset range_bit_value
      else
        (offset - range_offset, negb (range_bit_value =? 0)) ::
        bitmap_loop bits bytes_per_bit (offset + bytes_per_bit) offset bit_value
  end.
(** [read_data], lines 65-97: the first value is [data[0] >> 7] in VHD and [data[0] & 1]
    in VHDX. *)
Definition bitmap_ranges (vhd : bool) (data : list N) (bytes_per_bit : N) : res (list (N * bool)) :=
  first <- idx data 0 ;;
  Ok (bitmap_loop (flat_map byte_bits data) bytes_per_bit 0 0 (if vhd then N.shiftr first 7 else N.land first 1)).

(** The insertion of the ranges: vhd/file.rs 291-331 and vhdx/file.rs 678-711. [unset] is
    the type of a range that is not set. *)
Fixpoint insert_bitmap (t : tree) (unset : range_type) (media_offset data_offset : N) (ranges : list (N * bool))
  : tree * res unit :=
  match ranges with
  | [] => (t, Ok tt)
  | (size, is_set) :: ranges =>
      let r :=
        if is_set
        then {| br_media_offset := media_offset; br_data_offset := data_offset; br_size := size; br_type := InFile |}
        else {| br_media_offset := media_offset; br_data_offset := 0; br_size := size; br_type := unset |} in
      match bt_insert t media_offset size r with
      | (t, Ok _) =>
          match add_chk two64 media_offset size, add_chk two64 data_offset size with
          | Ok media_offset, Ok data_offset => insert_bitmap t unset media_offset data_offset ranges
          | _, _ => (t, Panic)
          end
      | (t, r) => (t, r)
      end
  end.

(** The state of the newest file, at its position, from those of all files. *)
Definition chain_start (p : parents) : (tree * parents) * N :=
  match p with (t, o) :: p => ((t, p), o) | [] => ((bt_new 0 0 0, []), 0) end.
