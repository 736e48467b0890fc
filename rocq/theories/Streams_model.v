(** * Data streams: seek, the bounded read, window streams and the fake stream

    A read is modelled by the bytes it puts at the start of the caller's buffer; the
    number of bytes is the count the call returns. The rest of the buffer is never
    written by the modelled code. A [usize] is 64 bits wide. *)
From Verif Require Import Base.

(** [std::io::SeekFrom] *)
Inductive seek_from :=
| SeekStart (offset : N)
| SeekCurrent (relative_offset : Z)
| SeekEnd (relative_offset : Z).

(** [v as i64] for a [u64] and [z as u64] for an [i64]. *)
Definition as_i64 (v : N) : Z :=
  if v <? two63 then Z.of_N v else (Z.of_N v - Z.of_N two64)%Z.
Definition as_u64 (z : Z) : N := Z.to_N (z mod Z.of_N two64).
(** [a + b] on [i64]: panics on overflow. *)
Definition add_i64 (a b : Z) : res Z :=
  if ((- Z.of_N two63 <=? a + b) && (a + b <? Z.of_N two63))%Z then Ok (a + b)%Z else Panic.

(** [seek] of every stream type: keramics-formats/src/mbr/partition.rs 104-119; the
    same lines in gpt/partition.rs, apm/partition.rs, ext/fat/ntfs block_stream.rs,
    ntfs/compressed_stream.rs, ntfs/wof_compressed_stream.rs,
    keramics-core/src/fake_data_stream.rs 98-113, keramics-tools/src/range_stream.rs
    128-143, and with [media_offset], [media_size] in the image formats. *)
Definition stream_seek (size current_offset : N) (pos : seek_from) : res N :=
  match pos with
  | SeekCurrent relative_offset =>
      o <- add_i64 (as_i64 current_offset) relative_offset ;; Ok (as_u64 o)
  | SeekEnd relative_offset =>
      o <- add_i64 (as_i64 size) relative_offset ;; Ok (as_u64 o)
  | SeekStart offset => Ok offset
  end.

(** [read] of every stream type: the end of stream test, the clamp to what remains,
    the read proper [rd state offset count] and the advance of the position
    (mbr/partition.rs 77-101, ext/block_stream.rs 156-178, ...). [state] is whatever
    the read proper changes, the position of the stream it reads from for instance. *)
Definition stream_read {S} (size : N) (rd : S -> N -> N -> S * res (list N))
    (st : S * N) (n : N) : (S * N) * res (list N) :=
  let '(s, current_offset) := st in
  if size <=? current_offset then (st, Ok [])
  else
    let remaining_size := size - current_offset in
    let read_size := if remaining_size <? n then remaining_size else n in
    match rd s current_offset read_size with
    | (s', Ok data) =>
        match add_chk two64 current_offset (len data) with
        | Ok o => ((s', o), Ok data)
        | _ => ((s', current_offset), Panic)
        end
    | (s', Err) => ((s', current_offset), Err)
    | (s', Panic) => ((s', current_offset), Panic)
    end.

(** A history of calls on one stream and what each call returned. *)
Inductive stream_op := Read (n : N) | Seek (pos : seek_from).
Inductive stream_out := Data (r : res (list N)) | Position (r : res N).

Definition stream_step {S} (size : N) (rd : S -> N -> N -> S * res (list N))
    (st : S * N) (op : stream_op) : (S * N) * stream_out :=
  match op with
  | Read n => let '(st', r) := stream_read size rd st n in (st', Data r)
  | Seek pos =>
      match stream_seek size (snd st) pos with
      | Ok o => ((fst st, o), Position (Ok o))
      | Err => (st, Position Err)
      | Panic => (st, Position Panic)
      end
  end.

Fixpoint run {St} (step : St -> stream_op -> St * stream_out) (st : St)
    (ops : list stream_op) : St * list stream_out :=
  match ops with
  | [] => (st, [])
  | op :: t =>
      let '(st', o) := step st op in
      let '(st'', os) := run step st' t in
      (st'', o :: os)
  end.

(** ** The source under a window

    A file with contents [bytes] and one position, shared by everything that reads
    from it (keramics-core/src/os_data_stream.rs 22-61 over [std::fs::File]; reading
    a regular file returns what is there up to the requested count). Simplification:
    a read never fails and is never interrupted. *)
Definition source_seek (bytes : list N) (position offset : N) : N := offset.
Definition source_read (bytes : list N) (position n : N) : N * list N :=
  let data := firstn (N.to_nat n) (skipn (N.to_nat position) bytes) in
  (position + len data, data).

(** [data_stream_read_at_position!(source, buf, SeekFrom::Start(offset))]:
    keramics-core/src/macros.rs 83-99, data_stream.rs 31-34. Both steps happen under
    one lock. *)
Definition source_read_at (bytes : list N) (position offset n : N) : N * list N :=
  source_read bytes (source_seek bytes position offset) n.

(** The read proper of a window at [window_offset]: mbr/partition.rs 92-97,
    gpt/partition.rs 93-98, apm/partition.rs 93-98, range_stream.rs 104-121. *)
Definition window_rd (bytes : list N) (window_offset : N)
    (position current_offset n : N) : N * res (list N) :=
  match add_chk two64 window_offset current_offset with
  | Ok o => let '(p, data) := source_read_at bytes position o n in (p, Ok data)
  | _ => (position, Panic)
  end.

(** One call on a partition or range stream of [size] bytes at [offset]. The state is
    the position of the source and that of the window. *)
Definition window_step (bytes : list N) (offset size : N) :=
  stream_step size (window_rd bytes offset).

(** [FileRangeDataStream::open]: range_stream.rs 46-76. The size of the window. *)
Definition range_open (bytes : list N) (range_offset : N) : res N :=
  if len bytes <=? range_offset then Err else Ok (len bytes - range_offset).

(** Several windows over one source, each with its own position, calls interleaved in
    any order: [ops] is a list of (window number, call). *)
Record window := { w_offset : N; w_size : N }.

Definition windows_step (bytes : list N) (ws : list window) (st : N * list N)
    (op : nat * stream_op) : (N * list N) * stream_out :=
  let '(position, offsets) := st in
  let w := nth (fst op) ws {| w_offset := 0; w_size := 0 |} in
  let '((p, o), out) :=
    window_step bytes (w_offset w) (w_size w) (position, nth (fst op) offsets 0) (snd op) in
  ((p, set_nth offsets (fst op) o), out).

Fixpoint windows_run (bytes : list N) (ws : list window) (st : N * list N)
    (ops : list (nat * stream_op)) : (N * list N) * list (nat * stream_out) :=
  match ops with
  | [] => (st, [])
  | op :: t =>
      let '(st', o) := windows_step bytes ws st op in
      let '(st'', os) := windows_run bytes ws st' t in
      (st'', (fst op, o) :: os)
  end.

(** ** The fake data stream

    The loop of [FakeDataStream::read]: keramics-core/src/fake_data_stream.rs 67-91.
    [current_offset] does not change inside the loop. [out] is what is already in the
    buffer. *)
Fixpoint fake_read_loop (fuel : nat) (data : list N) (current_offset read_size : N)
    (out : list N) : res (list N) :=
  match fuel with
  | O => Panic
  | S fuel' =>
      if len out <? read_size then
        let read_remainder_size := read_size - len out in
        if current_offset <? len data then
          let data_remainder_size := N.min read_remainder_size (len data - current_offset) in
          d <- slice data current_offset (current_offset + data_remainder_size) ;;
          fake_read_loop fuel' data current_offset read_size (out ++ d)
        else
          fake_read_loop fuel' data current_offset read_size
            (out ++ repeat 0 (N.to_nat read_remainder_size))
      else Ok out
  end.

Definition fake_rd (data : list N) (u : unit) (current_offset n : N) : unit * res (list N) :=
  (u, fake_read_loop (S (N.to_nat n)) data current_offset n []).

(** [FakeDataStream::new(data, size)] 32-45 and the calls on it. *)
Definition fake_step (data : list N) (size : N) := stream_step size (fake_rd data).

(** [open_fake_data_stream]: fake_data_stream.rs 117-121 *)
Definition open_fake_step (data : list N) := fake_step data (len data).
