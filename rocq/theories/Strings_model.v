(** * keramics-types/src/ucs2_string.rs, utf16_string.rs and the readers of byte_string.rs *)
From Verif Require Import Base Bytes_model Uuid_model.

(** The loop [for data_offset in (0..data_size).step_by(2)] with a [break] at zero:
    ucs2_string.rs:53-59 and 68-74, 94-100 ([read_data_le]), utf16_string.rs:36-42 and 51-57.
    [steps] is the number of offsets left. *)
Fixpoint read_u16s (get : list N -> N -> res N) (data : list N) (steps : nat) (data_offset : N) : res (list N) :=
  match steps with
  | O => Ok []
  | S steps' =>
      value_16bit <- get data data_offset ;;
      if value_16bit =? 0 then Ok [] else
      rest <- read_u16s get data steps' (data_offset + 2) ;;
      Ok (value_16bit :: rest)
  end.
(** Number of offsets of [(0..n).step_by(2)]. *)
Definition steps2 (n : N) : nat := N.to_nat ((n + 1) / 2).

(** ucs2_string.rs:49-61, utf16_string.rs:32-44 [from_be_bytes] *)
Definition u16string_from_be_bytes (data : list N) : res (list N) :=
  read_u16s u16_be data (steps2 (len data)) 0.
(** ucs2_string.rs:64-76, utf16_string.rs:47-59 [from_le_bytes] *)
Definition u16string_from_le_bytes (data : list N) : res (list N) :=
  read_u16s u16_le data (steps2 (len data)) 0.
(** ucs2_string.rs:91-101 [read_data_le]: appends to the elements already there *)
Definition ucs2_read_data_le (elements data : list N) : res (list N) :=
  l <- read_u16s u16_le data (steps2 (len data)) 0 ;; Ok (elements ++ l).

(** [slice.iter().position(|v| *v == 0)] *)
Fixpoint position0 (l : list N) : option nat :=
  match l with
  | [] => None
  | a :: rest => if a =? 0 then Some O else match position0 rest with Some i => Some (S i) | None => None end
  end.
(** ucs2_string.rs:149-160 [From<&[u16]>]; byte_string.rs:149-161 [From<&[u8]>] *)
Definition string_from_slice (l : list N) : list N :=
  match position0 l with Some i => firstn i l | None => l end.
(** byte_string.rs:113-119 [read_data] *)
Definition bytestring_read_data (elements data : list N) : list N := elements ++ string_from_slice data.

(** ucs2_string.rs:35-46 [new_with_case_folding]; the [HashMap] as its lookup function *)
Definition ucs2_case_folding (source : list N) (mappings : N -> option N) : list N :=
  map (fun e => match mappings e with Some v => v | None => e end) source.

(** ucs2_string.rs:104-128 [compare]; the index loop as a walk over both lists, the
    tests after the loop being those on the remaining lengths *)
Fixpoint ucs2_compare (a b : list N) : comparison :=
  match a, b with
  | x :: a', y :: b' => if x <? y then Lt else if y <? x then Gt else ucs2_compare a' b'
  | [], _ :: _ => Lt
  | _ :: _, [] => Gt
  | [], [] => Eq
  end.

(** [char::from_u32] *)
Definition char_from_u32 (v : N) : option N :=
  if (v <? 0xd800) || ((0xe000 <=? v) && (v <? 0x110000)) then Some v else None.

(** ucs2_string.rs:131-146 [to_string]: characters as code points *)
Definition ucs2_char (e : N) : list N :=
  match char_from_u32 e with
  | Some c => if c =? 0x5c then [0x5c; 0x5c] else [c]
  | None => [0x5c; 0x7b] ++ format_hex 4 e ++ [0x7d]
  end.
Definition ucs2_to_string (l : list N) : list N := flat_map ucs2_char l.

(** ucs2_string.rs:162-170 [From<&str>]: [str::encode_utf16] of the characters *)
Definition encode_utf16_char (c : N) : list N :=
  if c <? 0x10000 then [c]
  else [N.lor 0xd800 (N.shiftr (c - 0x10000) 10); N.lor 0xdc00 (N.land (c - 0x10000) 0x3ff)].
Definition ucs2_from_str (s : list N) : list N := flat_map encode_utf16_char s.

(** utf16_string.rs:62-64 [to_string]: [String::from_utf16(..).unwrap()]; the decoder of
    the standard library, a lone surrogate being its error *)
Fixpoint utf16_to_string (l : list N) : res (list N) :=
  match l with
  | [] => Ok []
  | u :: rest =>
      if (u <? 0xd800) || (0xe000 <=? u) then s <- utf16_to_string rest ;; Ok (u :: s)
      else if 0xdc00 <=? u then Panic
      else
        match rest with
        | [] => Panic
        | u2 :: rest' =>
            if (u2 <? 0xdc00) || (0xe000 <=? u2) then Panic else
            s <- utf16_to_string rest' ;;
            Ok ((N.lor (N.shiftl (N.land u 0x3ff) 10) (N.land u2 0x3ff) + 0x10000) :: s)
        end
  end.
