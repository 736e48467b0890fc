(** * The read loop shared by the image formats and file system streams *)
From Verif Require Import Base Streams_model Streams_spec BlockTree_model.

(** [data_stream_read_at_position!(source, buf, SeekFrom::Start(offset))]
    (keramics-core/src/macros.rs 83-99) of a source with contents [bytes]. Simplification:
    the position of the source is left out, every read of the modelled code sets it
    first (see C20_interleaving_invisible). *)
Definition read_at (bytes : list N) (offset n : N) : list N := bytes_at bytes offset n.

(** [data_stream_read_exact_at_position!]: keramics-core/src/macros.rs 101-117,
    data_stream.rs 36-56; a short read is an error. *)
Definition read_exact_at (bytes : list N) (offset n : N) : res (list N) :=
  if offset + n <=? len bytes then Ok (bytes_at bytes offset n) else Err.

(** The loop of [read_data_from_blocks] (ntfs/block_stream.rs 146-223, fat/block_stream.rs
    122-168, ext/block_stream.rs 84-146, and the image formats): until the buffer is full
    or the end is reached, find the range of the current offset and read from it what fits.
    [out] is what is in the buffer, [step state offset count] the body of the loop: it
    returns the bytes it put in the buffer. *)
Fixpoint read_blocks {St} (fuel : nat) (size : N) (step : St -> N -> N -> St * res (list N))
    (s : St) (current_offset read_size : N) (out : list N) : St * res (list N) :=
  match fuel with
  | O => (s, Panic)
  | S fuel' =>
      if len out <? read_size then
        if size <=? current_offset then (s, Ok out)
        else
          match step s current_offset (read_size - len out) with
          | (s', Ok []) => (s', Ok out)
          | (s', Ok data) =>
              match add_chk two64 current_offset (len data) with
              | Ok current_offset => read_blocks fuel' size step s' current_offset read_size (out ++ data)
              | _ => (s', Panic)
              end
          | (s', Err) => (s', Err)
          | (s', Panic) => (s', Panic)
          end
      else (s, Ok out)
  end.
(** Every turn reads at least one byte. *)
Definition blocks_rd {St} (size : N) (step : St -> N -> N -> St * res (list N))
    (s : St) (current_offset n : N) : St * res (list N) :=
  read_blocks (S (N.to_nat n)) size step s current_offset n [].

(** A loop that inserts ranges into a block tree and stops at the first error. *)
Fixpoint insert_ranges {V} (t : block_tree V) (h : list (N * N * V)) : res (block_tree V) :=
  match h with
  | [] => Ok t
  | (o, s, v) :: rest =>
      match bt_insert t o s v with
      | (t, Ok _) => insert_ranges t rest
      | (_, Err) => Err
      | (_, Panic) => Panic
      end
  end.
