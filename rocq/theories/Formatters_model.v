(** * keramics-core/src/formatters.rs *)
From Verif Require Import Base Uuid_model.
Open Scope N_scope.

(** Texts are lists of character codes. *)
(** formatters.rs 15-42 [debug_format_array]. [joined s l] is [l.join(s)]; [number_text] is the
    decimal text of [number_of_values]. The comparison loop is [forallb]. *)
Fixpoint joined (separator : list N) (l : list (list N)) : list N :=
  match l with
  | [] => []
  | [x] => x
  | x :: l => x ++ separator ++ joined separator l
  end.
Fixpoint decimal_rev (fuel : nat) (v : N) : list N :=
  match fuel with O => [] | S fuel => 0x30 + v mod 10 :: (if v <? 10 then [] else decimal_rev fuel (v / 10)) end.
Definition number_text (v : N) : list N := rev (decimal_rev 20 v).
Fixpoint bytes_eq (a b : list N) : bool :=
  match a, b with
  | [], [] => true
  | x :: a, y :: b => (x =? y) && bytes_eq a b
  | _, _ => false
  end.
Definition comma := [0x2c; 0x20].
Definition indentation := [0x20; 0x20; 0x20; 0x20; 0x20; 0x20; 0x20; 0x20].
(** The rows of the [step_by(16)] loop, 33-35, from [value_index] on *)
Fixpoint array_rows (fuel : nat) (array : list (list N)) (value_index last : N) : res (list (list N)) :=
  match fuel with
  | O => Panic
  | S fuel =>
      if value_index <? last then
        row <- slice array value_index (value_index + 16) ;;
        rows <- array_rows fuel array (value_index + 16) last ;;
        Ok (joined comma row :: rows)
      else Ok []
  end.
Definition debug_format_array (array : list (list N)) : res (list N) :=
  let n := len array in
  first <- idx array 0 ;;
  if forallb (bytes_eq first) array then Ok ([0x5b] ++ first ++ [0x3b; 0x20] ++ number_text n ++ [0x5d])
  else if 16 <? n then
    last <- sub_chk n 16 ;;
    rows <- array_rows (S (length array)) array 0 last ;;
    final <- slice array last n ;;
    Ok ([0x5b; 0x0a] ++ indentation ++ joined ([0x2c; 0x0a] ++ indentation) (rows ++ [joined comma final]) ++ [0x0a; 0x20; 0x20; 0x20; 0x20; 0x5d])
  else Ok ([0x5b] ++ joined comma array ++ [0x5d]).

(** formatters.rs 45-135 [format_as_hexdump]. [output] is what [string_parts] are together. *)
Record dump_state := { ascii_values : list N; character_index : N; data_offset : N; group_data_offset : N; output : list N }.
Definition ascii_value (b : N) : N := if (b <? 32) || (127 <=? b) then 0x2e else b.
(** 71-96: one byte in the loop over whole groups, from the offset on *)
Definition group_byte (data : list N) (s : dump_state) : res dump_state :=
  let out := if character_index s =? 0 then output s ++ format_hex 8 (data_offset s) ++ [0x20; 0x20] else output s in
  let g := if character_index s =? 0 then data_offset s else group_data_offset s in
  b <- idx data (data_offset s) ;;
  a <- upd (ascii_values s) (character_index s) (ascii_value b) ;;
  let out := out ++ format_hex 2 b ++ [0x20] in
  let out := if character_index s =? 7 then out ++ [0x20] else out in
  if character_index s =? 15 then
    shown <- slice a 0 (character_index s + 1) ;;
    Ok {| ascii_values := a; character_index := 0; data_offset := data_offset s + 1; group_data_offset := g;
          output := out ++ [0x20] ++ shown ++ [0x0a] |}
  else Ok {| ascii_values := a; character_index := character_index s + 1; data_offset := data_offset s + 1; group_data_offset := g; output := out |}.
(** 55-97: whether the group is left out *)
Definition same_group (data : list N) (group : bool) (groups_data_size : N) (s : dump_state) : res bool :=
  if (character_index s =? 0) && group && negb (group_data_offset s =? data_offset s) then
    a <- slice data (group_data_offset s) (group_data_offset s + 16) ;;
    b <- slice data (data_offset s) (data_offset s + 16) ;;
    Ok (bytes_eq a b && (data_offset s + 16 <? groups_data_size))
  else Ok false.
Fixpoint groups_loop (fuel : nat) (data : list N) (group : bool) (groups_data_size : N) (s : dump_state) : res dump_state :=
  match fuel with
  | O => Panic
  | S fuel =>
      if data_offset s <? groups_data_size then
        same <- same_group data group groups_data_size s ;;
        if same then
          groups_loop fuel data group groups_data_size
            {| ascii_values := ascii_values s; character_index := character_index s; data_offset := data_offset s + 16; group_data_offset := group_data_offset s;
               output := if group_data_offset s + 16 =? data_offset s then output s ++ [0x2e; 0x2e; 0x2e; 0x0a] else output s |}
        else s <- group_byte data s ;; groups_loop fuel data group groups_data_size s
      else Ok s
  end.
(** 98-116: the bytes after the whole groups *)
Fixpoint remainder_loop (fuel : nat) (data : list N) (data_size : N) (s : dump_state) : res dump_state :=
  match fuel with
  | O => Panic
  | S fuel =>
      if data_offset s <? data_size then
        let c := data_offset s mod 16 in
        let out := if c =? 0 then output s ++ format_hex 8 (data_offset s) ++ [0x20; 0x20] else output s in
        b <- idx data (data_offset s) ;;
        a <- upd (ascii_values s) c (ascii_value b) ;;
        let out := out ++ format_hex 2 b ++ [0x20] in
        let out := if c =? 7 then out ++ [0x20] else out in
        remainder_loop fuel data data_size
          {| ascii_values := a; character_index := c; data_offset := data_offset s + 1; group_data_offset := group_data_offset s; output := out |}
      else Ok s
  end.
(** 120-125: the padding from [index] on *)
Fixpoint padding (n : nat) (index : N) : list N :=
  match n with
  | O => []
  | S n => (if index =? 7 then [0x20] else []) ++ [0x20; 0x20; 0x20] ++ padding n (index + 1)
  end.
Definition format_as_hexdump (data : list N) (group : bool) : res (list N) :=
  let size := len data in
  let groups_data_size := size / 16 * 16 in
  s <- groups_loop (S (length data)) data group groups_data_size
         {| ascii_values := repeat 0x2e 16; character_index := 0; data_offset := 0; group_data_offset := 0; output := [] |} ;;
  s <- remainder_loop (S (length data)) data size s ;;
  out <- (if (0 <? size) && (0 <? character_index s) then
            let c := character_index s + 1 in
            shown <- slice (ascii_values s) 0 c ;;
            Ok (output s ++ padding (N.to_nat (16 - c)) c ++ [0x20] ++ shown ++ [0x0a])
          else Ok (output s)) ;;
  Ok (out ++ [0x0a]).

(** formatters.rs 138-143 [format_as_string] *)
Definition format_as_string (data : list N) : list N := flat_map (format_hex 2) data.
