(** * LZ77 and the encodings of ADC, LZVN and LZNT1

    Written from the format descriptions, not from the code: sequences of tokens, what
    they mean, and how an encoder writes them down. *)
From Verif Require Import Base.

(** Append [n] bytes, each a copy of the one [distance] before the end. *)
Fixpoint lz_copy (out : list N) (distance : N) (n : nat) : list N :=
  match n with
  | O => out
  | S m => lz_copy (out ++ [nth (length out - N.to_nat distance) out 0]) distance m
  end.

(** ** ADC *)
Inductive adc_token :=
| ALiteral (l : list N)            (* 1 to 128 bytes *)
| AShort (distance size : N)       (* 1 to 1024 back, 3 to 18 bytes *)
| ALong (distance size : N).       (* 1 to 65536 back, 4 to 67 bytes *)

Definition adc_valid (t : adc_token) : Prop :=
  match t with
  | ALiteral l => 1 <= len l <= 128 /\ wf_bytes l
  | AShort d s => 1 <= d <= 1024 /\ 3 <= s <= 18
  | ALong d s => 1 <= d <= 65536 /\ 4 <= s <= 67
  end.

Definition adc_encode_token (t : adc_token) : list N :=
  match t with
  | ALiteral l => (128 + (len l - 1)) :: l
  | AShort d s => [(s - 3) * 4 + (d - 1) / 256; (d - 1) mod 256]
  | ALong d s => [64 + (s - 4); (d - 1) / 256; (d - 1) mod 256]
  end.
Definition adc_encode (ts : list adc_token) : list N := concat (map adc_encode_token ts).

(** What a token adds to the output; [None] when it reaches before its start. *)
Definition adc_token_meaning (out : list N) (t : adc_token) : option (list N) :=
  match t with
  | ALiteral l => Some (out ++ l)
  | AShort d s | ALong d s =>
      if d <=? len out then Some (lz_copy out d (N.to_nat s)) else None
  end.
Fixpoint adc_meaning (out : list N) (ts : list adc_token) : option (list N) :=
  match ts with
  | [] => Some out
  | t :: r => match adc_token_meaning out t with Some o => adc_meaning o r | None => None end
  end.

(** ** LZVN

    A token may carry up to three literals before its match. *)
Inductive lzvn_token :=
| VLiteral (l : list N)                       (* 1 to 271 bytes *)
| VMatch (size : N)                           (* 1 to 271 bytes, the previous distance *)
| VSmall (l : list N) (distance size : N)     (* distance up to 1535 *)
| VMedium (l : list N) (distance size : N)    (* distance up to 16383, 3 to 34 bytes *)
| VLarge (l : list N) (distance size : N)     (* distance up to 65535 *)
| VPrevious (l : list N) (size : N)           (* the previous distance *)
| VNothing (byte : N).                        (* 0x0e or 0x16 *)

Definition lzvn_valid (t : lzvn_token) : Prop :=
  match t with
  | VLiteral l => 1 <= len l <= 271 /\ wf_bytes l
  | VMatch s => 1 <= s <= 271
  | VSmall l d s => len l <= 3 /\ wf_bytes l /\ d < 1536 /\ 3 <= s <= 10 - 2 * len l
  | VMedium l d s => len l <= 3 /\ wf_bytes l /\ d < 16384 /\ 3 <= s <= 34
  | VLarge l d s => len l <= 3 /\ wf_bytes l /\ d < 65536 /\ 3 <= s <= 10 - 2 * len l
  | VPrevious l s => 1 <= len l <= 3 /\ wf_bytes l /\ 3 <= s <= 10 - 2 * len l
  | VNothing b => b = 0x0e \/ b = 0x16
  end.

Definition lzvn_encode_token (t : lzvn_token) : list N :=
  match t with
  | VLiteral l =>
      (if len l <? 16 then [0xe0 + len l] else [0xe0; len l - 16]) ++ l
  | VMatch s => if s <? 16 then [0xf0 + s] else [0xf0; s - 16]
  | VSmall l d s => [len l * 64 + (s - 3) * 8 + d / 256; d mod 256] ++ l
  | VMedium l d s =>
      [0xa0 + len l * 8 + (s - 3) / 4; d mod 64 * 4 + (s - 3) mod 4; d / 64] ++ l
  | VLarge l d s => [len l * 64 + (s - 3) * 8 + 7; d mod 256; d / 256] ++ l
  | VPrevious l s => [len l * 64 + (s - 3) * 8 + 6] ++ l
  | VNothing b => [b]
  end.
(** The end of the stream is 0x06 and seven zero bytes. *)
Definition lzvn_end : list N := [6; 0; 0; 0; 0; 0; 0; 0].
Definition lzvn_encode (ts : list lzvn_token) : list N :=
  concat (map lzvn_encode_token ts) ++ lzvn_end.

(** Literals, match size and the distance named by a token, if it names one. *)
Definition lzvn_parts (t : lzvn_token) : list N * N * option N :=
  match t with
  | VLiteral l => (l, 0, None)
  | VMatch s => ([], s, None)
  | VSmall l d s | VMedium l d s | VLarge l d s => (l, s, Some d)
  | VPrevious l s => (l, s, None)
  | VNothing _ => ([], 0, None)
  end.

(** The state is the output and the previous distance. *)
Fixpoint lzvn_meaning (out : list N) (previous : N) (ts : list lzvn_token) : option (list N) :=
  match ts with
  | [] => Some out
  | t :: r =>
      let '(l, s, od) := lzvn_parts t in
      let d := match od with Some d => d | None => previous end in
      let out := out ++ l in
      if s =? 0 then lzvn_meaning out d r
      else if (1 <=? d) && (d <=? len out)
           then lzvn_meaning (lz_copy out d (N.to_nat s)) d r
           else None
  end.

(** Some token copies from distance zero: not a legal stream. *)
Fixpoint lzvn_zero_distance (previous : N) (ts : list lzvn_token) : Prop :=
  match ts with
  | [] => False
  | t :: r =>
      let '(l, s, od) := lzvn_parts t in
      let d := match od with Some d => d | None => previous end in
      (s <> 0 /\ d = 0) \/ lzvn_zero_distance d r
  end.

(** ** LZNT1

    A compressed chunk is a list of tokens, eight to a flag byte. How the 16 bits of a
    back reference are divided depends on how much of the chunk is already there:
    just enough bits, and at least four, to reach back to its first byte. *)
Inductive lznt1_token := NLiteral (b : N) | NMatch (distance size : N).

Definition lznt1_distance_bits (position : N) : N := N.max 4 (N.log2_up position).

(** The output [out] is that of the chunk alone. *)
Definition lznt1_token_valid (out : list N) (t : lznt1_token) : Prop :=
  match t with
  | NLiteral b => b < 256
  | NMatch d s =>
      1 <= d <= len out /\ 3 <= s < 3 + 2 ^ (16 - lznt1_distance_bits (len out))
  end.
Definition lznt1_token_meaning (out : list N) (t : lznt1_token) : list N :=
  match t with
  | NLiteral b => out ++ [b]
  | NMatch d s => lz_copy out d (N.to_nat s)
  end.
(** All tokens valid where they stand, and never more than a chunk of 4096 bytes. *)
Fixpoint lznt1_tokens_valid (out : list N) (ts : list lznt1_token) : Prop :=
  match ts with
  | [] => True
  | t :: r => lznt1_token_valid out t /\ len (lznt1_token_meaning out t) <= 4096 /\
              lznt1_tokens_valid (lznt1_token_meaning out t) r
  end.
Definition lznt1_tokens_meaning (out : list N) (ts : list lznt1_token) : list N :=
  fold_left lznt1_token_meaning ts out.

Definition lznt1_encode_token (out : list N) (t : lznt1_token) : list N :=
  match t with
  | NLiteral b => [b]
  | NMatch d s =>
      let v := (d - 1) * 2 ^ (16 - lznt1_distance_bits (len out)) + (s - 3) in
      [v mod 256; v / 256]
  end.
(** The flag byte and the tokens of one group, and the output after it. *)
Fixpoint lznt1_group_flags (ts : list lznt1_token) : N :=
  match ts with
  | [] => 0
  | t :: r => (match t with NLiteral _ => 0 | NMatch _ _ => 1 end) + 2 * lznt1_group_flags r
  end.
Fixpoint lznt1_group_bytes (out : list N) (ts : list lznt1_token) : list N :=
  match ts with
  | [] => []
  | t :: r => lznt1_encode_token out t ++ lznt1_group_bytes (lznt1_token_meaning out t) r
  end.
Fixpoint lznt1_encode_groups (out : list N) (gs : list (list lznt1_token)) : list N :=
  match gs with
  | [] => []
  | g :: r =>
      (lznt1_group_flags g :: lznt1_group_bytes out g) ++
      lznt1_encode_groups (lznt1_tokens_meaning out g) r
  end.
(** Groups of eight, the last one of one to eight. *)
Fixpoint lznt1_groups_of_eight (gs : list (list lznt1_token)) : Prop :=
  match gs with
  | [] => True
  | [g] => (1 <= length g <= 8)%nat
  | g :: r => length g = 8%nat /\ lznt1_groups_of_eight r
  end.

Inductive lznt1_chunk :=
| NRaw (l : list N)
| NCompressed (groups : list (list lznt1_token)).

Definition lznt1_chunk_data (ch : lznt1_chunk) : list N :=
  match ch with NRaw l => l | NCompressed gs => lznt1_encode_groups [] gs end.
Definition lznt1_chunk_meaning (ch : lznt1_chunk) : list N :=
  match ch with NRaw l => l | NCompressed gs => lznt1_tokens_meaning [] (concat gs) end.
Definition lznt1_chunk_valid (ch : lznt1_chunk) : Prop :=
  1 <= len (lznt1_chunk_data ch) <= 4096 /\
  match ch with
  | NRaw l => wf_bytes l
  | NCompressed gs => lznt1_tokens_valid [] (concat gs) /\ lznt1_groups_of_eight gs
  end.
(** The header holds the size less one, the signature 3 and the compressed flag. *)
Definition lznt1_chunk_header (ch : lznt1_chunk) : N :=
  (len (lznt1_chunk_data ch) - 1) + 3 * 4096 +
  (match ch with NRaw _ => 0 | NCompressed _ => 32768 end).
Definition lznt1_encode (chs : list lznt1_chunk) : list N :=
  concat (map (fun ch =>
    let h := lznt1_chunk_header ch in
    h mod 256 :: h / 256 :: lznt1_chunk_data ch) chs).
Definition lznt1_meaning (chs : list lznt1_chunk) : list N :=
  concat (map lznt1_chunk_meaning chs).
