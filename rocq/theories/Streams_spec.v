(** * What a read-only file is

    A file has a [size] and contents [c]; [len c < size] describes a truncated image,
    of which only the first bytes are there. *)
From Verif Require Import Base Streams_model.

(** The bytes of [c] from [p] on, [n] at most. *)
Definition bytes_at (c : list N) (p n : N) : list N :=
  firstn (N.to_nat n) (skipn (N.to_nat p) c).

(** Where a seek leads; it may be a negative number. *)
Definition seek_target (size p : N) (pos : seek_from) : Z :=
  match pos with
  | SeekStart o => Z.of_N o
  | SeekCurrent d => (Z.of_N p + d)%Z
  | SeekEnd d => (Z.of_N size + d)%Z
  end.

(** One call at position [p]: a read returns the bytes there and moves past them, a
    seek moves to its target and returns it, or fails and stays when the target is
    negative. *)
Definition file_step (size : N) (c : list N) (p : N) (op : stream_op) : N * stream_out :=
  match op with
  | Read n => let d := bytes_at c p n in (p + len d, Data (Ok d))
  | Seek pos =>
      let t := seek_target size p pos in
      if (t <? 0)%Z then (p, Position Err) else (Z.to_N t, Position (Ok (Z.to_N t)))
  end.

(** Histories whose seeks lead to a position from 0 to 2^63 - 1. *)
Fixpoint seeks_ok (size : N) (c : list N) (p : N) (ops : list stream_op) : Prop :=
  match ops with
  | [] => True
  | op :: t =>
      (match op with
       | Read _ => True
       | Seek pos => (0 <= seek_target size p pos < Z.of_N two63)%Z
       end) /\ seeks_ok size c (fst (file_step size c p op)) t
  end.

(** What a window of a source shows. *)
Definition window_content (bytes : list N) (offset size : N) : list N :=
  bytes_at bytes offset size.

(** [data] followed by zeros, or cut, to [size] bytes. *)
Definition padded (data : list N) (size : N) : list N :=
  firstn (N.to_nat size) (data ++ repeat 0 (N.to_nat size)).

(** The calls made on, and the answers of, one window of an interleaving. *)
Definition calls_of {A} (i : nat) (l : list (nat * A)) : list A :=
  map snd (filter (fun x => Nat.eqb (fst x) i) l).
