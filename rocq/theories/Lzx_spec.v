(** * LZX streams, as in WIM files

    Written from the descriptions of the format ([MS-PATCH] 2.3 to 2.7 and those of WIM): a
    stream is a sequence of bits, made of blocks; what an encoder may write and what it means. *)
From Verif Require Import Base Lz_spec Huffman_spec.

(** Bits are taken from little-endian words of 16 bits, the most significant first. *)
Fixpoint word_bits (bytes : list N) : list bool :=
  match bytes with
  | low :: high :: r => bits_msb 16 (low + 256 * high) ++ word_bits r
  | _ => []
  end.

(** ** Tokens *)
(** Slots 0 to 2 stand for one of the three distances used last. Slot [3] and those after it
    stand for ranges of distances, each starting where the one before it ends; within
    its range a distance is given by extra bits. There are 30 slots for the 32 KiB of a
    chunk. *)
Definition slot_extra (slot : N) : N := if slot <? 4 then 0 else slot / 2 - 1.
Definition slot_base (slot : N) : N :=
  1 + fold_right N.add 0 (map (fun s => 2 ^ slot_extra s) (seqN 3 (N.to_nat (slot - 3)))).

Inductive lzx_token :=
| XLiteral (b : N)
| XRecent (slot size : N)
| XMatch (slot extra size : N).

Record recents := mk_recents { recent0 : N; recent1 : N; recent2 : N }.

Definition slot_of (t : lzx_token) : N :=
  match t with XLiteral _ => 0 | XRecent s _ => s | XMatch s _ _ => s end.
Definition distance_of (q : recents) (t : lzx_token) : N :=
  match t with
  | XLiteral _ => 0
  | XRecent s _ => if s =? 0 then recent0 q else if s =? 1 then recent1 q else recent2 q
  | XMatch s extra _ => slot_base s + extra
  end.
(** A distance that was used comes first; in the place of a repeated one comes the one that
    was first. *)
Definition recents_after (q : recents) (t : lzx_token) : recents :=
  match t with
  | XLiteral _ => q
  | XRecent s _ =>
      if s =? 0 then q
      else if s =? 1 then mk_recents (recent1 q) (recent0 q) (recent2 q)
      else mk_recents (recent2 q) (recent1 q) (recent0 q)
  | XMatch _ _ _ => mk_recents (distance_of q t) (recent0 q) (recent1 q)
  end.
Definition size_of (t : lzx_token) : N :=
  match t with XLiteral _ => 1 | XRecent _ n | XMatch _ _ n => n end.

(** A symbol of the main code is a literal or a slot and a size up to 8; 7 stands for a larger
    size, whose rest is a symbol of the code for sizes. *)
Definition main_symbol (t : lzx_token) : N :=
  match t with
  | XLiteral b => b
  | XRecent _ n | XMatch _ _ n => 256 + 8 * slot_of t + N.min (n - 2) 7
  end.

(** The code lengths of a block: [aligned] only in blocks of that type. *)
Record codes := mk_codes { main_code : list N; size_code : list N; aligned_code : option (list N) }.

Definition uses_size_code (t : lzx_token) : bool :=
  match t with XLiteral _ => false | XRecent _ n | XMatch _ _ n => 9 <=? n end.

(** In aligned blocks the last three of three or more extra bits are a symbol. *)
Definition token_valid (c : codes) (q : recents) (out : list N) (t : lzx_token) : Prop :=
  coded (main_code c) (main_symbol t) /\
  (uses_size_code t = true -> coded (size_code c) (size_of t - 9)) /\
  match t with
  | XLiteral b => b < 256
  | XRecent s n => s < 3 /\ 2 <= n <= 257 /\ 1 <= distance_of q t <= len out
  | XMatch s extra n =>
      3 <= s < 30 /\ 2 <= n <= 257 /\ extra < 2 ^ slot_extra s /\ distance_of q t <= len out /\
      match aligned_code c with
      | Some a => 3 <= slot_extra s -> coded a (extra mod 8)
      | None => True
      end
  end.
Definition token_meaning (q : recents) (out : list N) (t : lzx_token) : list N :=
  match t with
  | XLiteral b => out ++ [b]
  | _ => lz_copy out (distance_of q t) (N.to_nat (size_of t))
  end.
Definition extra_bits (c : codes) (s extra : N) : list bool :=
  match aligned_code c with
  | Some a =>
      if 3 <=? slot_extra s
      then bits_msb (N.to_nat (slot_extra s - 3)) (extra / 8) ++ code_word a (extra mod 8)
      else bits_msb (N.to_nat (slot_extra s)) extra
  | None => bits_msb (N.to_nat (slot_extra s)) extra
  end.
Definition token_bits (c : codes) (t : lzx_token) : list bool :=
  code_word (main_code c) (main_symbol t) ++
  (if uses_size_code t then code_word (size_code c) (size_of t - 9) else []) ++
  match t with XMatch s extra _ => extra_bits c s extra | _ => [] end.

Fixpoint tokens_valid (c : codes) (q : recents) (out : list N) (ts : list lzx_token) : Prop :=
  match ts with
  | [] => True
  | t :: r => token_valid c q out t /\
              tokens_valid c (recents_after q t) (token_meaning q out t) r
  end.
Fixpoint tokens_meaning (q : recents) (out : list N) (ts : list lzx_token) : list N :=
  match ts with
  | [] => out
  | t :: r => tokens_meaning (recents_after q t) (token_meaning q out t) r
  end.
Definition tokens_recents (q : recents) (ts : list lzx_token) : recents := fold_left recents_after ts q.

(** ** Code lengths *)
(** They are written as differences from those before, modulo 17, with a code of their own
    whose 20 lengths come first, four bits each. *)
Inductive size_instruction :=
| IDelta (l : N)            (* one length, 0 to 16 *)
| IZeros (n : N)            (* 4 to 19 zeros *)
| IManyZeros (n : N)        (* 20 to 51 zeros *)
| ISame (n l : N).          (* 4 or 5 times the same length *)

Definition instruction_lengths (i : size_instruction) : list N :=
  match i with
  | IDelta l => [l]
  | IZeros n | IManyZeros n => repeat 0 (N.to_nat n)
  | ISame n l => repeat l (N.to_nat n)
  end.
Definition delta_symbol (before l : N) : N := (before + 17 - l) mod 17.
(** [before] is the old length at this place. *)
Definition instruction_valid (pre : list N) (before : N) (i : size_instruction) : Prop :=
  match i with
  | IDelta l => l <= 16 /\ coded pre (delta_symbol before l)
  | IZeros n => 4 <= n <= 19 /\ coded pre 17
  | IManyZeros n => 20 <= n <= 51 /\ coded pre 18
  | ISame n l => 4 <= n <= 5 /\ l <= 16 /\ coded pre 19 /\ coded pre (delta_symbol before l)
  end.
Definition instruction_bits (pre : list N) (before : N) (i : size_instruction) : list bool :=
  match i with
  | IDelta l => code_word pre (delta_symbol before l)
  | IZeros n => code_word pre 17 ++ bits_msb 4 (n - 4)
  | IManyZeros n => code_word pre 18 ++ bits_msb 5 (n - 20)
  | ISame n l => code_word pre 19 ++ bits_msb 1 (n - 4) ++ code_word pre (delta_symbol before l)
  end.
Fixpoint instructions_valid (pre before : list N) (is : list size_instruction) : Prop :=
  match is with
  | [] => True
  | i :: r => instruction_valid pre (hd 0 before) i /\
              instructions_valid pre (skipn (length (instruction_lengths i)) before) r
  end.
Fixpoint instructions_bits (pre before : list N) (is : list size_instruction) : list bool :=
  match is with
  | [] => []
  | i :: r => instruction_bits pre (hd 0 before) i ++
              instructions_bits pre (skipn (length (instruction_lengths i)) before) r
  end.

Record lengths_part := mk_part { pre_lengths : list N; size_instructions : list size_instruction }.
Definition part_lengths (p : lengths_part) : list N := flat_map instruction_lengths (size_instructions p).
Definition part_valid (before : list N) (p : lengths_part) : Prop :=
  length (pre_lengths p) = 20%nat /\ Forall (fun l => l < 16) (pre_lengths p) /\
  (exists s, coded (pre_lengths p) s) /\ ~ over_subscribed 15 (pre_lengths p) /\
  instructions_valid (pre_lengths p) before (size_instructions p) /\
  length (part_lengths p) = length before.
Definition part_bits (before : list N) (p : lengths_part) : list bool :=
  flat_map (bits_msb 4) (pre_lengths p) ++ instructions_bits (pre_lengths p) before (size_instructions p).

(** ** Blocks *)
(** The code lengths of a coded block: those of the literals, of the matches and of the
    sizes, and in aligned blocks eight of three bits each. *)
Record block_codes := mk_block_codes {
  literal_part : lengths_part;
  match_part : lengths_part;
  size_part : lengths_part;
  aligned_part : option (list N) }.
Definition codes_of (h : block_codes) : codes :=
  mk_codes (part_lengths (literal_part h) ++ part_lengths (match_part h)) (part_lengths (size_part h))
    (aligned_part h).

Inductive lzx_block_of :=
| Coded (h : block_codes) (ts : list lzx_token)
| Uncompressed (padding : list bool) (q : recents) (l : list N).

(** What is known between blocks: the output, the distances used last and the code lengths of
    the last coded block. *)
Record lzx_context := mk_context {
  output : list N; distances : recents; old_main : list N; old_sizes : list N }.
Definition first_context : lzx_context :=
  mk_context [] (mk_recents 1 1 1) (repeat 0 496) (repeat 0 249).

Definition context_after (x : lzx_context) (b : lzx_block_of) : lzx_context :=
  match b with
  | Coded h ts =>
      mk_context (tokens_meaning (distances x) (output x) ts) (tokens_recents (distances x) ts)
        (main_code (codes_of h)) (size_code (codes_of h))
  | Uncompressed _ q l => mk_context (output x ++ l) q (old_main x) (old_sizes x)
  end.
(** How many bytes it stands for. *)
Definition block_size (x : lzx_context) (b : lzx_block_of) : N :=
  len (output (context_after x b)) - len (output x).

(** The type and the size; [short] for the size 32768 given by a single bit. *)
Definition block_kind (b : lzx_block_of) : N :=
  match b with
  | Coded h _ => match aligned_part h with None => 1 | Some _ => 2 end
  | Uncompressed _ _ _ => 3
  end.
Definition header_bits (short : bool) (x : lzx_context) (b : lzx_block_of) : list bool :=
  bits_msb 3 (block_kind b) ++ (if short then [true] else false :: bits_msb 16 (block_size x b)).
(** The bytes of an uncompressed block follow words and are filled up to whole ones. *)
Definition fill (l : list N) : list N := if N.odd (len l) then [0] else [].
Definition recents_bytes (q : recents) : list N :=
  le_bytes 4 (recent0 q) ++ le_bytes 4 (recent1 q) ++ le_bytes 4 (recent2 q).
Definition codes_bits (x : lzx_context) (h : block_codes) : list bool :=
  (match aligned_part h with None => [] | Some a => flat_map (bits_msb 3) a end) ++
  part_bits (firstn 256 (old_main x)) (literal_part h) ++
  part_bits (skipn 256 (old_main x)) (match_part h) ++
  part_bits (old_sizes x) (size_part h).
Definition block_bits (short : bool) (x : lzx_context) (b : lzx_block_of) : list bool :=
  header_bits short x b ++
  match b with
  | Coded h ts => codes_bits x h ++ flat_map (token_bits (codes_of h)) ts
  | Uncompressed padding q l => padding ++ word_bits (recents_bytes q ++ l ++ fill l)
  end.

Definition codes_valid (x : lzx_context) (h : block_codes) : Prop :=
  part_valid (firstn 256 (old_main x)) (literal_part h) /\
  part_valid (skipn 256 (old_main x)) (match_part h) /\
  part_valid (old_sizes x) (size_part h) /\
  (exists s, coded (main_code (codes_of h)) s) /\
  ~ over_subscribed 16 (main_code (codes_of h)) /\ ~ over_subscribed 16 (size_code (codes_of h)) /\
  match aligned_part h with
  | None => True
  | Some a => length a = 8%nat /\ Forall (fun l => l < 8) a /\ (exists s, coded a s) /\ ~ over_subscribed 16 a
  end.
(** At bit position [position]. Before the bytes of an uncompressed block there are 1 to 16
    bits up to the next word. *)
Definition block_valid (position : N) (short : bool) (x : lzx_context) (b : lzx_block_of) : Prop :=
  1 <= block_size x b <= 65535 /\ (short = true -> block_size x b = 32768) /\
  match b with
  | Coded h ts => codes_valid x h /\ tokens_valid (codes_of h) (distances x) (output x) ts
  | Uncompressed padding q l =>
      wf_bytes l /\ (1 <= length padding <= 16)%nat /\
      (position + len (header_bits short x b) + len padding) mod 16 = 0 /\
      1 <= recent0 q < 2 ^ 32 /\ 1 <= recent1 q < 2 ^ 32 /\ 1 <= recent2 q < 2 ^ 32
  end.

Fixpoint blocks_valid (position : N) (x : lzx_context) (bs : list (bool * lzx_block_of)) : Prop :=
  match bs with
  | [] => True
  | (short, b) :: r =>
      block_valid position short x b /\
      blocks_valid (position + len (block_bits short x b)) (context_after x b) r
  end.
Fixpoint blocks_bits (x : lzx_context) (bs : list (bool * lzx_block_of)) : list bool :=
  match bs with
  | [] => []
  | (short, b) :: r => block_bits short x b ++ blocks_bits (context_after x b) r
  end.
Definition blocks_meaning (bs : list (bool * lzx_block_of)) : list N :=
  output (fold_left (fun x b => context_after x (snd b)) bs first_context).

(** ** Call instructions *)
(** Before compression the targets of x86 calls, a byte 0xe8 and four bytes, are made absolute.
    The last six bytes do not start one. [position] is that of the first byte of [l] in data
    of [size] bytes. A target is a signed number of 32 bits. *)
Definition file_size : Z := 12000000.
Definition signed32 (v : N) : Z := if v <? 2 ^ 31 then Z.of_N v else (Z.of_N v - 2 ^ 32)%Z.
Definition absolute_target (position target : Z) : Z :=
  if ((- position <=? target) && (target <? file_size))%Z then
    if (target + position <? file_size)%Z then (target + position)%Z else (target - file_size)%Z
  else target.
Fixpoint absolute_calls (size position : N) (l : list N) : list N :=
  match l with
  | b :: ((b0 :: b1 :: b2 :: b3 :: r) as r') =>
      if (b =? 0xe8) && (position + 6 <? size) then
        let target := absolute_target (Z.of_N position) (signed32 (le_value [b0; b1; b2; b3])) in
        b :: le_bytes 4 (Z.to_N (target mod 2 ^ 32)) ++ absolute_calls size (position + 5) r
      else b :: absolute_calls size (position + 1) r'
  | _ => l
  end.
Definition prepared (content : list N) : list N := absolute_calls (len content) 0 content.

(** ** What the decoder does not take *)
(** A coded block without a code for sizes, uncompressed bytes that start where a word does after
    the header, and uncompressed blocks of an odd size other than the last. *)
Definition block_taken (position : N) (short : bool) (x : lzx_context) (b : lzx_block_of) : Prop :=
  match b with
  | Coded h _ => exists s, coded (size_code (codes_of h)) s
  | Uncompressed padding _ l => (length padding < 16)%nat
  end.
Fixpoint blocks_taken (position : N) (x : lzx_context) (bs : list (bool * lzx_block_of)) : Prop :=
  match bs with
  | [] => True
  | (short, b) :: r =>
      block_taken position short x b /\
      match b with Uncompressed _ _ l => r = [] \/ N.odd (len l) = false | _ => True end /\
      blocks_taken (position + len (block_bits short x b)) (context_after x b) r
  end.
