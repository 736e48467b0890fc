(** * DEFLATE streams (RFC 1951)

    Written from the RFC: a stream is a sequence of bits, made of blocks; what an encoder
    may write and what it means. *)
From Verif Require Import Base Lz_spec Huffman_spec.

(** Numbers other than Huffman code words are packed starting with their least
    significant bit, and bytes are filled from theirs (RFC 1951, 3.1.1). *)
Fixpoint bits_lsb (n : nat) (v : N) : list bool :=
  match n with
  | O => []
  | S m => N.odd v :: bits_lsb m (v / 2)
  end.
Definition bits_of (bytes : list N) : list bool := flat_map (bits_lsb 8) bytes.

(** Length codes 257 to 285 and distance codes 0 to 29 (3.2.5): the number of extra bits
    follows a rule, and each code starts where the one before it ends. *)
Definition length_extra (code : N) : N :=
  let i := code - 257 in if (i <? 8) || (i =? 28) then 0 else i / 4 - 1.
Definition length_base (code : N) : N :=
  if code =? 285 then 258
  else 3 + fold_right N.add 0 (map (fun c => 2 ^ length_extra c) (seqN 257 (N.to_nat (code - 257)))).
Definition distance_extra (code : N) : N := if code <? 2 then 0 else code / 2 - 1.
Definition distance_base (code : N) : N :=
  1 + fold_right N.add 0 (map (fun c => 2 ^ distance_extra c) (seqN 0 (N.to_nat code))).

Inductive deflate_token :=
| DLiteral (b : N)
| DMatch (length_code extra_length distance_code extra_distance : N).

Definition match_length (lc le : N) : N := length_base lc + le.
Definition match_distance (dc de : N) : N := distance_base dc + de.

(** Given the code lengths of the two trees and the output so far. *)
Definition token_valid (literals distances out : list N) (t : deflate_token) : Prop :=
  match t with
  | DLiteral b => b < 256 /\ coded literals b
  | DMatch lc le dc de =>
      257 <= lc <= 285 /\ coded literals lc /\ le < 2 ^ length_extra lc /\
      dc < 30 /\ coded distances dc /\ de < 2 ^ distance_extra dc /\
      match_distance dc de <= len out
  end.
Definition token_meaning (out : list N) (t : deflate_token) : list N :=
  match t with
  | DLiteral b => out ++ [b]
  | DMatch lc le dc de => lz_copy out (match_distance dc de) (N.to_nat (match_length lc le))
  end.
Definition token_bits (literals distances : list N) (t : deflate_token) : list bool :=
  match t with
  | DLiteral b => code_word literals b
  | DMatch lc le dc de =>
      code_word literals lc ++ bits_lsb (N.to_nat (length_extra lc)) le ++
      code_word distances dc ++ bits_lsb (N.to_nat (distance_extra dc)) de
  end.

Fixpoint tokens_valid (literals distances out : list N) (ts : list deflate_token) : Prop :=
  match ts with
  | [] => True
  | t :: r => token_valid literals distances out t /\
              tokens_valid literals distances (token_meaning out t) r
  end.
Definition tokens_meaning (out : list N) (ts : list deflate_token) : list N :=
  fold_left token_meaning ts out.
(** The tokens of a block, ended by symbol 256. *)
Definition tokens_bits (literals distances : list N) (ts : list deflate_token) : list bool :=
  concat (map (token_bits literals distances) ts) ++ code_word literals 256.

(** ** The fixed code (3.2.6) *)
Definition fixed_literals : list N :=
  map (fun s => if s <? 144 then 8 else if s <? 256 then 9 else if s <? 280 then 7 else 8) (seqN 0 288).
Definition fixed_distances : list N := repeat 5 30.

(** ** Dynamic codes (3.2.7) *)
Inductive length_instruction :=
| CLength (l : N)          (* 0 to 15 *)
| CRepeat (n : N)          (* the previous length, 3 to 6 times *)
| CZeros (n : N)           (* 3 to 10 zeros *)
| CManyZeros (n : N).      (* 11 to 138 zeros *)

Definition instruction_valid (i : length_instruction) : Prop :=
  match i with
  | CLength l => l <= 15
  | CRepeat n => 3 <= n <= 6
  | CZeros n => 3 <= n <= 10
  | CManyZeros n => 11 <= n <= 138
  end.
Definition instruction_symbol (i : length_instruction) : N :=
  match i with CLength l => l | CRepeat _ => 16 | CZeros _ => 17 | CManyZeros _ => 18 end.
Definition instruction_bits (code_lengths : list N) (i : length_instruction) : list bool :=
  code_word code_lengths (instruction_symbol i) ++
  match i with
  | CLength _ => []
  | CRepeat n => bits_lsb 2 (n - 3)
  | CZeros n => bits_lsb 3 (n - 3)
  | CManyZeros n => bits_lsb 7 (n - 11)
  end.
Fixpoint expand (lengths : list N) (is : list length_instruction) : option (list N) :=
  match is with
  | [] => Some lengths
  | CLength l :: r => expand (lengths ++ [l]) r
  | CRepeat n :: r =>
      match rev lengths with
      | [] => None
      | l :: _ => expand (lengths ++ repeat l (N.to_nat n)) r
      end
  | CZeros n :: r | CManyZeros n :: r => expand (lengths ++ repeat 0 (N.to_nat n)) r
  end.

(** The order in which the lengths of the code for code lengths are sent. *)
Definition code_length_order : list N :=
  [16; 17; 18; 0; 8; 7; 9; 6; 10; 5; 11; 4; 12; 3; 13; 2; 14; 1; 15].

Record dynamic_header := mk_header {
  number_of_literals : N;               (* 257 to 286 *)
  number_of_distances : N;              (* 1 to 30 *)
  number_sent : N;                      (* 4 to 19 *)
  code_length_lengths : list N;         (* of the 19 symbols of the code for code lengths *)
  instructions : list length_instruction;
  literal_lengths : list N;
  distance_lengths : list N }.

Definition header_valid (h : dynamic_header) : Prop :=
  257 <= number_of_literals h <= 286 /\ 1 <= number_of_distances h <= 30 /\
  4 <= number_sent h <= 19 /\
  length (code_length_lengths h) = 19%nat /\
  Forall (fun l => l < 8) (code_length_lengths h) /\
  (forall i, number_sent h <= i < 19 ->
     length_of (code_length_lengths h) (nth (N.to_nat i) code_length_order 0) = 0) /\
  ~ over_subscribed 15 (code_length_lengths h) /\
  Forall (fun i => instruction_valid i /\ coded (code_length_lengths h) (instruction_symbol i))
    (instructions h) /\
  expand [] (instructions h) = Some (literal_lengths h ++ distance_lengths h) /\
  len (literal_lengths h) = number_of_literals h /\
  len (distance_lengths h) = number_of_distances h /\
  ~ over_subscribed 15 (literal_lengths h) /\ ~ over_subscribed 15 (distance_lengths h) /\
  coded (literal_lengths h) 256.

Definition header_bits (h : dynamic_header) : list bool :=
  bits_lsb 5 (number_of_literals h - 257) ++ bits_lsb 5 (number_of_distances h - 1) ++
  bits_lsb 4 (number_sent h - 4) ++
  flat_map (fun i => bits_lsb 3 (length_of (code_length_lengths h) (nth (N.to_nat i) code_length_order 0)))
    (seqN 0 (N.to_nat (number_sent h))) ++
  flat_map (instruction_bits (code_length_lengths h)) (instructions h).

(** ** Blocks *)
Inductive stream_block :=
| Stored (padding : list bool) (l : list N)      (* up to 65535 bytes *)
| Fixed (ts : list deflate_token)
| Dynamic (h : dynamic_header) (ts : list deflate_token).

(** At bit position [position] of the stream. Stored bytes start at a byte boundary. *)
Definition block_valid (position : N) (out : list N) (b : stream_block) : Prop :=
  match b with
  | Stored padding l =>
      len l <= 65535 /\ wf_bytes l /\ (length padding < 8)%nat /\
      (position + 3 + len padding) mod 8 = 0
  | Fixed ts => tokens_valid fixed_literals fixed_distances out ts
  | Dynamic h ts =>
      header_valid h /\ tokens_valid (literal_lengths h) (distance_lengths h) out ts
  end.
Definition block_bits (last : bool) (b : stream_block) : list bool :=
  [last] ++
  match b with
  | Stored padding l =>
      bits_lsb 2 0 ++ padding ++ bits_lsb 16 (len l) ++ bits_lsb 16 (65535 - len l) ++ bits_of l
  | Fixed ts => bits_lsb 2 1 ++ tokens_bits fixed_literals fixed_distances ts
  | Dynamic h ts =>
      bits_lsb 2 2 ++ header_bits h ++ tokens_bits (literal_lengths h) (distance_lengths h) ts
  end.
Definition block_meaning (out : list N) (b : stream_block) : list N :=
  match b with
  | Stored _ l => out ++ l
  | Fixed ts | Dynamic _ ts => tokens_meaning out ts
  end.

(** All blocks, the last of them marked. *)
Fixpoint blocks_valid (position : N) (out : list N) (bs : list stream_block) : Prop :=
  match bs with
  | [] => False
  | [b] => block_valid position out b
  | b :: r =>
      block_valid position out b /\
      blocks_valid (position + len (block_bits false b)) (block_meaning out b) r
  end.
Fixpoint blocks_bits (bs : list stream_block) : list bool :=
  match bs with
  | [] => []
  | [b] => block_bits true b
  | b :: r => block_bits false b ++ blocks_bits r
  end.
Definition blocks_meaning (bs : list stream_block) : list N := fold_left block_meaning bs [].

(** The one thing the decoder does not take: a block without distance codes. *)
Definition has_distance_code (b : stream_block) : Prop :=
  match b with
  | Dynamic h _ => exists s, coded (distance_lengths h) s
  | _ => True
  end.

(** For examples: whole bytes, the last one filled up with zeros. *)
Fixpoint bits_value (bs : list bool) : N :=
  match bs with [] => 0 | b :: r => N.b2n b + 2 * bits_value r end.
Definition pack (bs : list bool) : list N :=
  le_bytes (N.to_nat ((len bs + 7) / 8)) (bits_value bs).
