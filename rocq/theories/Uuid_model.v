(** * keramics-types/src/uuid.rs *)
From Verif Require Import Base Bytes_model.

(** uuid.rs:20-27 [Uuid] *)
Record uuid := { part1 : N; part2 : N; part3 : N; part4 : N; part5 : N }.

(** uuid.rs:31-33 [new] *)
Definition uuid_new : uuid := {| part1 := 0; part2 := 0; part3 := 0; part4 := 0; part5 := 0 |}.

(** uuid.rs:36-46 [from_be_bytes] *)
Definition uuid_from_be_bytes (data : list N) : res uuid :=
  part5_upper <- u16_be data 10 ;;
  part5_lower <- u32_be data 12 ;;
  p1 <- u32_be data 0 ;;
  p2 <- u16_be data 4 ;;
  p3 <- u16_be data 6 ;;
  p4 <- u16_be data 8 ;;
  Ok {| part1 := p1; part2 := p2; part3 := p3; part4 := p4;
        part5 := N.lor (N.shiftl part5_upper 32) part5_lower |}.

(** uuid.rs:49-59 [from_le_bytes] *)
Definition uuid_from_le_bytes (data : list N) : res uuid :=
  part5_upper <- u16_be data 10 ;;
  part5_lower <- u32_be data 12 ;;
  p1 <- u32_le data 0 ;;
  p2 <- u16_le data 4 ;;
  p3 <- u16_le data 6 ;;
  p4 <- u16_be data 8 ;;
  Ok {| part1 := p1; part2 := p2; part3 := p3; part4 := p4;
        part5 := N.lor (N.shiftl part5_upper 32) part5_lower |}.

(** uuid.rs:62-68 [is_max], 71-73 [is_nil] *)
Definition uuid_is_max (u : uuid) : bool :=
  (part1 u =? 0xffffffff) && (part2 u =? 0xffff) && (part3 u =? 0xffff) && (part4 u =? 0xffff) &&
  (part5 u =? 0xffffffffffff).
Definition uuid_is_nil (u : uuid) : bool :=
  (part1 u =? 0) && (part2 u =? 0) && (part3 u =? 0) && (part4 u =? 0) && (part5 u =? 0).

(** ** [&str] as its UTF-8 bytes *)

(** A byte index is a character boundary: start, end, or not a continuation byte. *)
Definition is_boundary (s : list N) (i : N) : bool :=
  (i =? len s) ||
  match nth_error s (N.to_nat i) with
  | Some b => negb ((0x80 <=? b) && (b <? 0xc0))
  | None => false
  end.
(** [&s[a..b]] *)
Definition str_slice (s : list N) (a b : N) : res (list N) :=
  if is_boundary s a && is_boundary s b then slice s a b else Panic.

(** [char::to_digit(16)] *)
Definition hex_digit (c : N) : option N :=
  if (0x30 <=? c) && (c <=? 0x39) then Some (c - 0x30)
  else if (0x61 <=? c) && (c <=? 0x66) then Some (c - 0x61 + 10)
  else if (0x41 <=? c) && (c <=? 0x46) then Some (c - 0x41 + 10)
  else None.

(** Digit loop of [from_str_radix(_, 16)] on a word of modulus [m]. *)
Fixpoint radix_loop (m acc : N) (s : list N) : option N :=
  match s with
  | [] => Some acc
  | c :: rest =>
      match hex_digit c with
      | None => None
      | Some d => if acc * 16 + d <? m then radix_loop m (acc * 16 + d) rest else None
      end
  end.

(** [uN::from_str_radix(s, 16)]: one leading [+] is accepted when digits follow. *)
Definition from_str_radix16 (m : N) (s : list N) : option N :=
  match s with
  | [] => None
  | [c] => match hex_digit c with Some d => Some d | None => None end
  | c :: rest => if c =? 0x2b then radix_loop m 0 rest else radix_loop m 0 s
  end.

Definition set1 (u : uuid) v := {| part1 := v; part2 := part2 u; part3 := part3 u; part4 := part4 u; part5 := part5 u |}.
Definition set2 (u : uuid) v := {| part1 := part1 u; part2 := v; part3 := part3 u; part4 := part4 u; part5 := part5 u |}.
Definition set3 (u : uuid) v := {| part1 := part1 u; part2 := part2 u; part3 := v; part4 := part4 u; part5 := part5 u |}.
Definition set4 (u : uuid) v := {| part1 := part1 u; part2 := part2 u; part3 := part3 u; part4 := v; part5 := part5 u |}.
Definition set5 (u : uuid) v := {| part1 := part1 u; part2 := part2 u; part3 := part3 u; part4 := part4 u; part5 := v |}.

(** One [self.partN = match uN::from_str_radix(&string[a..b], 16) { .. }]: the parts
    already set stay set on an error. The slice of the error message [c..d] is taken too. *)
Definition parse_part (s : list N) (a b d m : N) (u : uuid) (set : uuid -> N -> uuid)
    (k : uuid -> uuid * res unit) : uuid * res unit :=
  match str_slice s a b with
  | Ok t =>
      match from_str_radix16 m t with
      | Some v => k (set u v)
      | None => (u, (str_slice s a d ;;; Err))
      end
  | _ => (u, Panic)
  end.

(** [string.starts_with("{")], [string.ends_with("}")] *)
Definition starts_with_c (s : list N) (c : N) : bool := match s with b :: _ => b =? c | [] => false end.
Definition ends_with_c (s : list N) (c : N) : bool := starts_with_c (rev s) c.

(** [&string[a..b] != "-"] *)
Definition not_dash (s : list N) (a : N) : res bool :=
  t <- str_slice s a (a + 1) ;;
  Ok (negb (match t with [b] => b =? 0x2d | _ => false end)).

(** uuid.rs:86-92: [||] evaluates left to right and stops at the first true *)
Definition dashes_bad (s : list N) : res bool :=
  b <- not_dash s 8 ;; if b then Ok true else
  b <- not_dash s 13 ;; if b then Ok true else
  b <- not_dash s 18 ;; if b then Ok true else
  not_dash s 23.

(** uuid.rs:76-139 [from_string] *)
Definition uuid_from_string (u : uuid) (s : list N) : uuid * res unit :=
  let r :=
    if starts_with_c s 0x7b && ends_with_c s 0x7d then str_slice s 1 (len s - 1) else Ok s in
  match r with
  | Ok s =>
      if negb (len s =? 36) then (u, Err) else
      match dashes_bad s with
      | Ok true => (u, Err)
      | Ok false =>
          parse_part s 0 8 8 two32 u set1 (fun u =>
          parse_part s 9 13 13 two16 u set2 (fun u =>
          parse_part s 14 18 18 two16 u set3 (fun u =>
          parse_part s 19 23 24 two16 u set4 (fun u =>
          parse_part s 24 36 36 two64 u set5 (fun u => (u, Ok tt))))))
      | _ => (u, Panic)
      end
  | _ => (u, Panic)
  end.

(** ** [format!("{:0Wx}", v)]: hexadecimal digits without leading zeros, padded with
    zeros to at least [w] *)
Definition lower_hex (d : N) : N := if d <? 10 then 0x30 + d else 0x61 + (d - 10).
Fixpoint hex_digits_rev (fuel : nat) (v : N) : list N :=
  match fuel with
  | O => []
  | S fuel' => if v =? 0 then [] else lower_hex (v mod 16) :: hex_digits_rev fuel' (v / 16)
  end.
Definition format_hex (w : nat) (v : N) : list N :=
  let d := rev (hex_digits_rev 32 v) in
  let d := match d with [] => [0x30] | _ => d end in
  repeat 0x30 (w - length d) ++ d.

(** uuid.rs:142-147 [to_string] *)
Definition uuid_to_string (u : uuid) : list N :=
  format_hex 8 (part1 u) ++ [0x2d] ++ format_hex 4 (part2 u) ++ [0x2d] ++ format_hex 4 (part3 u) ++ [0x2d] ++
  format_hex 4 (part4 u) ++ [0x2d] ++ format_hex 12 (part5 u).
