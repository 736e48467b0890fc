(** * keramics-encodings/src/base64.rs and its use for XML property list data *)
From Verif Require Import Base.

(** base64.rs:66-93: classification of a character *)
Inductive b64_class := Sextet (v : N) | Padding | WhiteSpace | Invalid.
Definition b64_classify (byte_value : N) : b64_class :=
  if (0x41 <=? byte_value) && (byte_value <? 0x5b) then Sextet (byte_value - 0x41)
  else if (0x61 <=? byte_value) && (byte_value <? 0x7b) then Sextet (26 + (byte_value - 0x61))
  else if (0x30 <=? byte_value) && (byte_value <? 0x3a) then Sextet (52 + (byte_value - 0x30))
  else if byte_value =? 0x2b then Sextet 62
  else if byte_value =? 0x2f then Sextet 63
  else if byte_value =? 0x3d then Padding
  else if (byte_value =? 0x09) || (byte_value =? 0x0a) || (byte_value =? 0x0b) || (byte_value =? 0x0d) || (byte_value =? 0x20)
  then WhiteSpace
  else Invalid.

(** base64.rs:21-42 [Base64Stream]: [b64_rest] is [data[data_offset..]], so that
    [data_offset] is [data_size - len b64_rest] *)
Record b64_stream := { b64_rest : list N; b64_bits : N; b64_nbits : N; b64_found_padding : bool }.

(** base64.rs:46-57 [new] with [data_offset] 0 *)
Definition b64_new (data : list N) : b64_stream :=
  {| b64_rest := data; b64_bits := 0; b64_nbits := 0; b64_found_padding := false |}.

(** base64.rs:61-98: the loop of [get_value] *)
Fixpoint b64_fill (skip_white_space : bool) (rest : list N) (bits nbits : N) (pad : bool) : res b64_stream :=
  let stop := Ok {| b64_rest := rest; b64_bits := bits; b64_nbits := nbits; b64_found_padding := pad |} in
  if 8 <=? nbits then stop else
  match rest with
  | [] => stop
  | byte_value :: rest' =>
      if pad then stop else
      match b64_classify byte_value with
      | Sextet sixtet => b64_fill skip_white_space rest' (N.lor (N.shiftl bits 6 mod two32) sixtet) (nbits + 6) pad
      | Padding => Ok {| b64_rest := rest; b64_bits := bits; b64_nbits := nbits; b64_found_padding := true |}
      | WhiteSpace => if negb skip_white_space then Err else b64_fill skip_white_space rest' bits nbits pad
      | Invalid => Err
      end
  end.

(** base64.rs:60-112 [get_value] *)
Definition b64_get_value (skip_white_space : bool) (s : b64_stream) : res (option N * b64_stream) :=
  s <- b64_fill skip_white_space (b64_rest s) (b64_bits s) (b64_nbits s) (b64_found_padding s) ;;
  if b64_nbits s <? 8 then Ok (None, s) else
  n <- sub_chk (b64_nbits s) 8 ;;
  value_32bit <- shr_chk 32 (b64_bits s) n ;;
  bits <- (if n =? 0 then Ok 0 else
           sh <- sub_chk 32 n ;; mask <- shr_chk 32 0xffffffff sh ;; Ok (N.land (b64_bits s) mask)) ;;
  Ok (Some (value_32bit mod 256),
      {| b64_rest := b64_rest s; b64_bits := bits; b64_nbits := n; b64_found_padding := b64_found_padding s |}).

(** xmlplist.rs:282-302: the decoding loop of [parse_data_element]. Each byte takes at
    least one character, so [S (length rest)] steps suffice; running out of fuel is a panic
    so that no theorem can profit from it. *)
Fixpoint b64_collect (fuel : nat) (skip : bool) (s : b64_stream) : res (list N * b64_stream) :=
  match fuel with
  | O => Panic
  | S fuel' =>
      '(r, s) <- b64_get_value skip s ;;
      match r with
      | None => Ok ([], s)
      | Some byte_value =>
          '(data, s) <- b64_collect fuel' skip s ;;
          Ok (byte_value :: data, s)
      end
  end.
Definition plist_data (encoded_data : list N) : res (list N) :=
  '(data, _) <- b64_collect (S (length encoded_data)) true (b64_new encoded_data) ;; Ok data.

(** base64.rs:132-135: the loop of [decode] writing to the caller's buffer *)
Fixpoint b64_decode_loop (fuel : nat) (s : b64_stream) (data : list N) (data_offset : N) : res (list N * N * b64_stream) :=
  match fuel with
  | O => Panic
  | S fuel' =>
      '(r, s) <- b64_get_value false s ;;
      match r with
      | None => Ok (data, data_offset, s)
      | Some byte_value =>
          data <- upd data data_offset byte_value ;;
          b64_decode_loop fuel' s data (data_offset + 1)
      end
  end.

(** base64.rs:149-158: the check of the padding characters *)
Fixpoint b64_check_padding (n : nat) (data : list N) (padding_offset : N) : res unit :=
  match n with
  | O => Ok tt
  | S n' =>
      byte_value <- idx data padding_offset ;;
      check (byte_value =? 0x3d) ;;;
      b64_check_padding n' data (padding_offset + 1)
  end.

(** base64.rs:128-161 [decode]: the buffer and [data_size] after a successful call (what
    they hold after an error is not modelled) *)
Definition b64_decode (encoded_data data : list N) : res (list N * N) :=
  '(data, data_size, s) <- b64_decode_loop (S (length encoded_data)) (b64_new encoded_data) data 0 ;;
  if b64_found_padding s then
    let data_offset := len encoded_data - len (b64_rest s) in
    padding_size <- (let p := data_offset mod 4 in if 0 <? p then sub_chk 4 p else Ok p) ;;
    left <- sub_chk (len encoded_data) data_offset ;;
    check (padding_size <=? left) ;;;
    b64_check_padding (N.to_nat padding_size) encoded_data data_offset ;;;
    Ok (data, data_size)
  else Ok (data, data_size).
