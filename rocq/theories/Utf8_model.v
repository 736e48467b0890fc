(** * keramics-encodings/src/utf8.rs *)
From Verif Require Import Base Strings_model Uuid_model.

(** [b < lo || b > hi] *)
Definition outside (b lo hi : N) : bool := (b <? lo) || (hi <? b).

(** utf8.rs:54-156: the bytes of one code point after [byte_value1]; [rest] is
    [bytes[byte_index..]]. Gives the code point and what follows. *)
Definition utf8_decode_one (byte_value1 : N) (rest : list N) : res (N * list N) :=
  check (negb (((0x80 <=? byte_value1) && (byte_value1 <? 0xc0)) || (0xf4 <? byte_value1))) ;;;
  '(byte_value2, rest) <-
    (if 0xc0 <=? byte_value1 then
       match rest with
       | [] => Err
       | byte_value :: rest =>
           check (negb (if byte_value1 =? 0xe0 then outside byte_value 0xa0 0xbf
                        else if byte_value1 =? 0xed then outside byte_value 0x80 0x9f
                        else if byte_value1 =? 0xf0 then outside byte_value 0x90 0xbf
                        else outside byte_value 0x80 0xbf)) ;;;
           Ok (byte_value, rest)
       end
     else Ok (0, rest)) ;;
  '(byte_value3, rest) <-
    (if 0xe0 <=? byte_value1 then
       match rest with
       | [] => Err
       | byte_value :: rest =>
           check (negb (if byte_value2 =? 0xe0 then outside byte_value 0xa0 0xbf
                        else if byte_value2 =? 0xed then outside byte_value 0x80 0x9f
                        else outside byte_value 0x80 0xbf)) ;;;
           Ok (byte_value, rest)
       end
     else Ok (0, rest)) ;;
  '(byte_value4, rest) <-
    (if 0xf0 <=? byte_value1 then
       match rest with
       | [] => Err
       | byte_value :: rest => check (negb (outside byte_value 0x80 0xbf)) ;;; Ok (byte_value, rest)
       end
     else Ok (0, rest)) ;;
  let code_point :=
    if byte_value1 <? 0x80 then byte_value1
    else if byte_value1 <? 0xe0 then N.lor (N.shiftl (N.land byte_value1 0x1f) 6) (N.land byte_value2 0x3f)
    else if byte_value1 <? 0xf0 then
      N.lor (N.lor (N.shiftl (N.land byte_value1 0x0f) 12) (N.shiftl (N.land byte_value2 0x3f) 6)) (N.land byte_value3 0x3f)
    else
      N.lor (N.lor (N.lor (N.shiftl (N.land byte_value1 0x07) 18) (N.shiftl (N.land byte_value2 0x3f) 12))
        (N.shiftl (N.land byte_value3 0x3f) 6)) (N.land byte_value4 0x3f) in
  Ok (code_point, rest).

(** utf8.rs:43-160 [next]: the item and the bytes from the new [byte_index] on, which
    moves only when a code point was decoded *)
Definition utf8_next (rest : list N) : option (res N * list N) :=
  match rest with
  | [] => None
  | byte_value1 :: rest1 =>
      match utf8_decode_one byte_value1 rest1 with
      | Ok (code_point, rest2) => Some (Ok code_point, rest2)
      | _ => Some (Err, rest)
      end
  end.

(** The loop of [ByteString::extend], byte_string.rs:57-65, over a UTF-8 string: the code
    points up to the end or an error. Each item takes a byte, so the length is enough fuel. *)
Fixpoint utf8_decode_fuel (fuel : nat) (rest : list N) : res (list N) :=
  match utf8_next rest, fuel with
  | None, _ => Ok []
  | Some _, O => Panic
  | Some (Ok code_point, rest), S fuel' => l <- utf8_decode_fuel fuel' rest ;; Ok (code_point :: l)
  | Some (_, _), S _ => Err
  end.
Definition utf8_decode (bytes : list N) : res (list N) := utf8_decode_fuel (length bytes) bytes.

(** byte_string.rs:122-146 [to_string] of a UTF-8 string: [todo!()] on an error *)
Definition utf8_bytestring_to_string (elements : list N) : res (list N) :=
  match utf8_decode elements with
  | Ok code_points => Ok (ucs2_to_string code_points)
  | _ => Panic
  end.
