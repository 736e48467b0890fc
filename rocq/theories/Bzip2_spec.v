(** * What bzip2 data mean

    Written from the format of bzip2 1.0, as what a compressor writes. *)
From Coq Require Import Permutation Sorted.
From Verif Require Import Base Checksums_spec Huffman_spec.

(** ** Run-length coding of the data: a run of 4 to 259 equal bytes is written as four of them
    and the number of the others; after it a new run starts, also one of the same byte. A
    run of up to three bytes is written as it is. [p] is the byte of the run before. *)
Inductive rle1 : option N -> list N -> list N -> Prop :=
| R_end p : rle1 p [] []
| R_short p b n d e : (1 <= n <= 3)%nat -> p <> Some b -> rle1 (Some b) d e ->
    rle1 p (repeat b n ++ d) (repeat b n ++ e)
| R_long p b k d e : (k <= 255)%nat -> p <> Some b -> rle1 None d e ->
    rle1 p (repeat b (4 + k) ++ d) (repeat b 4 ++ N.of_nat k :: e).

(** ** Burrows-Wheeler transform: of the sorted rotations of [s] the last bytes, and which of
    them is [s] itself. *)
Definition rotate (l : list N) : list N := match l with [] => [] | x :: t => t ++ [x] end.
Definition rotations (l : list N) : list (list N) := map (fun n => Nat.iter n rotate l) (seq 0 (length l)).
Fixpoint lex_le (a b : list N) : Prop :=
  match a, b with
  | [], _ => True
  | _ :: _, [] => False
  | x :: a, y :: b => x < y \/ (x = y /\ lex_le a b)
  end.
Definition bwt (s l : list N) (origin : N) : Prop :=
  exists sorted, Permutation sorted (rotations s) /\ StronglySorted lex_le sorted /\
    l = map (fun r => last r 0) sorted /\ nth_error sorted (N.to_nat origin) = Some s.

(** ** Move-to-front coding: each byte becomes its index in the list of bytes, of which it is
    then moved to the front. *)
Fixpoint index_of (x : N) (l : list N) : N :=
  match l with
  | [] => 0
  | y :: l => if x =? y then 0 else 1 + index_of x l
  end.
Definition front (x : N) (l : list N) : list N := x :: filter (fun y => negb (x =? y)) l.
Fixpoint mtf (l : list N) (data : list N) : list N :=
  match data with
  | [] => []
  | x :: data => index_of x l :: mtf (front x l) data
  end.

(** ** Runs of the index 0: their length is written with the digits 1, symbol 0, and 2, symbol
    1, in base 2, the least significant first. Another index [i] is the symbol [i + 1]. *)
Fixpoint run_length (symbols : list N) : N :=
  match symbols with
  | [] => 0
  | s :: symbols => (s + 1) + 2 * run_length symbols
  end.
Inductive rle2 : list N -> list N -> Prop :=
| Z_end : rle2 [] []
| Z_run digits rest symbols : digits <> [] -> Forall (fun s => s < 2) digits -> hd 1 rest <> 0 ->
    rle2 rest symbols -> rle2 (repeat 0 (N.to_nat (run_length digits)) ++ rest) (digits ++ symbols)
| Z_index i rest symbols : 0 < i -> rle2 rest symbols -> rle2 (i :: rest) (i + 1 :: symbols).

(** ** The bits *)
Definition number_bits (n : nat) (v : N) : list bool := bits_msb n v.
Definition bytes_bits (l : list N) : list bool := flat_map (bits_msb 8) l.

(** Which bytes are used: for each 16 byte values a bit that says whether one of them is
    used, then 16 bits for each such group. *)
Definition group_used (used : N -> bool) (g : N) : bool := existsb (fun i => used (16 * g + i)) (seqN 0 16).
Definition used_bits (used : N -> bool) : list bool :=
  map (group_used used) (seqN 0 16) ++
  flat_map (fun g => if group_used used g then map (fun i => used (16 * g + i)) (seqN 0 16) else []) (seqN 0 16).
Definition alphabet (used : N -> bool) : list N := filter used (seqN 0 256).

(** The selectors: move-to-front coded, each index in unary. *)
Definition selectors_bits (number_of_tables : N) (selectors : list N) : list bool :=
  flat_map (fun i => repeat true (N.to_nat i) ++ [false]) (mtf (seqN 0 (N.to_nat number_of_tables)) selectors).

(** The code lengths of a table: from one to the next by steps up, 10, and down, 11, ended
    by 0. No length is larger than [limit], also not between the steps. *)
Inductive steps (limit : N) : N -> N -> list bool -> Prop :=
| T_stop l : 1 <= l <= limit -> steps limit l l [false]
| T_up l m bits : 1 <= l <= limit -> steps limit (l + 1) m bits -> steps limit l m (true :: false :: bits)
| T_down l m bits : 1 <= l <= limit -> steps limit (l - 1) m bits -> steps limit l m (true :: true :: bits).
Inductive lengths_bits (limit : N) : N -> list N -> list bool -> Prop :=
| L_end l : lengths_bits limit l [] []
| L_next l m lengths bits rest : steps limit l m bits -> lengths_bits limit m lengths rest ->
    lengths_bits limit l (m :: lengths) (bits ++ rest).
(** A table is complete: no code word could be added. *)
Definition complete (lengths : list N) : Prop := kraft 20 lengths = 2 ^ 20.
Definition table_bits (limit : N) (lengths : list N) (bits : list bool) : Prop :=
  exists start rest, bits = number_bits 5 start ++ rest /\ start < 32 /\ lengths_bits limit start lengths rest /\
    complete lengths.

(** The symbols: 50 at a time with the table of the next selector. *)
Fixpoint symbols_bits (tables : list (list N)) (selectors : list N) (i : N) (symbols : list N) : list bool :=
  match symbols with
  | [] => []
  | s :: symbols =>
      code_word (nth (N.to_nat (nth (N.to_nat (i / 50)) selectors 0)) tables []) s ++
      symbols_bits tables selectors (i + 1) symbols
  end.

(** A block of data. [limit] is the largest length of a code word, 20 in the format, and
    [size] the largest size of a block, after the first run-length coding. *)
Definition crc (data : list N) : N := crc32_forward 0x04c11db7 0 data.
Record block := {
  block_text : list N;            (** after the first run-length coding *)
  block_last : list N;            (** after the Burrows-Wheeler transform *)
  block_origin : N;
  block_used : N -> bool;
  block_symbols : list N;         (** without that of the end of the block *)
  block_tables : list (list N);
  block_selectors : list N;
  block_table_bits : list (list bool)
}.
Definition block_bits (data : list N) (b : block) : list bool :=
  number_bits 48 0x314159265359 ++ number_bits 32 (crc data) ++ [false] ++ number_bits 24 (block_origin b) ++
  used_bits (block_used b) ++ number_bits 3 (len (block_tables b)) ++ number_bits 15 (len (block_selectors b)) ++
  selectors_bits (len (block_tables b)) (block_selectors b) ++ concat (block_table_bits b) ++
  symbols_bits (block_tables b) (block_selectors b) 0 (block_symbols b ++ [len (alphabet (block_used b)) + 1]).
Definition block_of (limit size : N) (data : list N) (b : block) : Prop :=
  rle1 None data (block_text b) /\
  bwt (block_text b) (block_last b) (block_origin b) /\
  Forall (fun x => block_used b x = true) (block_last b) /\
  rle2 (mtf (alphabet (block_used b)) (block_last b)) (block_symbols b) /\
  wf_bytes data /\ 0 < len (block_text b) <= size /\
  2 <= len (block_tables b) <= 6 /\
  Forall2 (table_bits limit) (block_tables b) (block_table_bits b) /\
  Forall (fun t => len t = len (alphabet (block_used b)) + 2) (block_tables b) /\
  1 <= len (block_selectors b) < 2 ^ 15 /\
  Forall (fun i => i < len (block_tables b)) (block_selectors b) /\
  len (block_symbols b) < 50 * len (block_selectors b).

(** The checksum of a stream is made from those of its blocks. *)
Definition combine (c : N) (x : N) : N := N.lxor (N.lor (N.shiftl c 1 mod 2 ^ 32) (N.shiftr c 31)) x.
Definition stream_crc (blocks : list (list N)) : N := fold_left (fun c d => combine c (crc d)) blocks 0.
(** A stream of blocks, in bytes; bits are added at the end to fill the last byte. *)
Definition stream_of (limit size : N) (level : N) (blocks : list (list N * block)) (bytes : list N) : Prop :=
  1 <= level <= 9 /\
  Forall (fun '(data, b) => block_of limit size data b) blocks /\
  exists rest padding, bytes = [0x42; 0x5a; 0x68; 0x30 + level] ++ rest /\ wf_bytes rest /\
    (length padding < 8)%nat /\
    bytes_bits rest = concat (map (fun '(data, b) => block_bits data b) blocks) ++
      number_bits 48 0x177245385090 ++ number_bits 32 (stream_crc (map fst blocks)) ++ padding.
Definition stream_data (blocks : list (list N * block)) : list N := concat (map fst blocks).
(** The format: code words of up to 20 bits, blocks of up to [level] times 100000 bytes. *)
Definition bzip2_stream (level : N) (blocks : list (list N * block)) (bytes : list N) : Prop :=
  stream_of 20 (100000 * level) level blocks bytes.
