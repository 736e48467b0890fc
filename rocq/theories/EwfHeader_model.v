(** * Model of the header values of EWF images

    keramics-formats/src/ewf/header.rs, header2.rs, object_storage.rs and header_value.rs. *)
From Coq Require Import String.
From Verif Require Import Base Deflate_model VfsContext_model.
Open Scope N_scope.
Open Scope list_scope.

(** enums.rs 14-33 [EwfHeaderValueType] *)
Inductive value_type :=
| AcquisitionDate | CaseNumber | CompressionLevel | Description | DeviceLabel | EvidenceNumber | ExaminerName | Model
| Notes | NotSet | PasswordHash | Platform | ProcessIdentifier | SerialNumber | SystemDate | Version.
Definition value_type_eq : forall a b : value_type, {a = b} + {a <> b}.
Proof. decide equality. Defined.
(** header_value.rs 17-22 [EwfHeaderValue] *)
Inductive header_value := ByteValue (elements : list N) | PosixTime (timestamp : N) | Utf16Value (elements : list N).
(** The [HashMap] of header values, as a list of pairs; a key is inserted at most once. *)
Definition header_values := list (value_type * header_value).
Definition get (t : value_type) (values : header_values) : option header_value :=
  match find (fun p => if value_type_eq t (fst p) then true else false) values with Some p => Some (snd p) | None => None end.

(** object_storage.rs 41-66 and 93-122 [next_line], on the data from the offset on, with the line
    so far in reverse: the line, if there is one, and the data after it. For UTF-16 the data are
    its 16 bit values. *)
Fixpoint line_from (data : list N) (last : N) (line : list N) : option (list N) * list N :=
  match data with
  | [] => (Some (rev line), [])
  | value :: data =>
    if value =? 0 then (None, data)
    else if value =? 10 then (Some (rev (if last =? 13 then tl line else line)), data)
    else line_from data value (value :: line)
  end.
Definition next_line (data : list N) : option (list N) * list N := line_from data 0 [].
(** object_storage.rs 100-104: the 16 bit values of the data. The size of the data is even here. *)
Fixpoint values_16bit (big_endian : bool) (data : list N) : list N :=
  match data with
  | a :: b :: data => (if big_endian then a * 256 + b else a + b * 256) :: values_16bit big_endian data
  | _ => []
  end.
(** object_storage.rs 125-138 [parse_date_value]; an overflow of the signed 32 bit value is a panic *)
Fixpoint parse_date_from (value : list N) (timestamp : N) : res (option N) :=
  match value with
  | [] => Ok (Some timestamp)
  | value_16bit :: value =>
    timestamp <- mul_chk 2147483648 timestamp 10 ;;
    if (value_16bit <? 48) || (57 <? value_16bit) then Ok None
    else
      timestamp <- add_chk 2147483648 timestamp (value_16bit - 48) ;;
      parse_date_from value timestamp
  end.
Definition parse_date_value (value : list N) : res (option N) := parse_date_from value 0.

(** [slice::split] on tabs *)
Fixpoint split_tabs (line : list N) : list (list N) :=
  match line with
  | [] => [[]]
  | value :: line =>
    if value =? 9 then [] :: split_tabs line
    else match split_tabs line with word :: words => (value :: word) :: words | [] => [[value]] end
  end.
(** byte_string.rs 149-161 [ByteString::from]: up to the first zero *)
Fixpoint until_zero (bytes : list N) : list N :=
  match bytes with [] => [] | byte :: bytes => if byte =? 0 then [] else byte :: until_zero bytes end.

(** header.rs 136-169: the codes of the types *)
Definition header_codes : list (list N * value_type) :=
  [(chars "a", Description); (chars "av", Version); (chars "c", CaseNumber); (chars "e", ExaminerName); (chars "l", DeviceLabel);
   (chars "m", AcquisitionDate); (chars "md", Model); (chars "n", EvidenceNumber); (chars "ov", Platform); (chars "p", PasswordHash);
   (chars "pid", ProcessIdentifier); (chars "r", CompressionLevel); (chars "sn", SerialNumber); (chars "t", Notes); (chars "u", SystemDate)].
(** header2.rs 148-181: the code of the notes is 0x0077, "w" *)
Definition header2_codes : list (list N * value_type) :=
  [(chars "a", Description); (chars "av", Version); (chars "c", CaseNumber); (chars "e", ExaminerName); (chars "l", DeviceLabel);
   (chars "m", AcquisitionDate); (chars "md", Model); (chars "n", EvidenceNumber); (chars "ov", Platform); (chars "p", PasswordHash);
   (chars "pid", ProcessIdentifier); (chars "r", CompressionLevel); (chars "sn", SerialNumber); (chars "w", Notes); (chars "u", SystemDate)].
Definition type_of_code (codes : list (list N * value_type)) (code : list N) : value_type :=
  match find (fun p => if list_eq_dec N.eq_dec code (fst p) then true else false) codes with Some p => snd p | None => NotSet end.

(** header.rs 172-177 and header2.rs 184-204: a value that is not there yet is inserted, if
    [convert] gives one. *)
Fixpoint insert_values (codes : list (list N * value_type)) (convert : value_type -> list N -> res (option header_value))
    (types words : list (list N)) (values : header_values) : res header_values :=
  match types, words with
  | code :: types, word :: words =>
    let t := type_of_code codes code in
    if (if value_type_eq t NotSet then true else false) || (match get t values with Some _ => true | None => false end)
    then insert_values codes convert types words values
    else
      converted <- convert t word ;;
      insert_values codes convert types words (match converted with Some v => (t, v) :: values | None => values end)
  | _, _ => Ok values
  end.
(** header.rs 174 *)
Definition convert_bytes (t : value_type) (word : list N) : res (option header_value) := Ok (Some (ByteValue (until_zero word))).
(** header2.rs 187-200 *)
Definition convert_utf16 (t : value_type) (word : list N) : res (option header_value) :=
  match t with
  | AcquisitionDate | SystemDate =>
    date <- parse_date_value word ;;
    Ok (match date with Some timestamp => Some (PosixTime timestamp) | None => None end)
  | _ => Ok (Some (Utf16Value word))
  end.
(** header.rs 66-179 and header2.rs 78-206: the lines *)
Definition read_lines (codes : list (list N * value_type)) (convert : value_type -> list N -> res (option header_value))
    (data : list N) (values : header_values) : res header_values :=
  match next_line data with
  | (None, _) => Err
  | (Some line, data) =>
    check (if list_eq_dec N.eq_dec line (chars "1") then true else if list_eq_dec N.eq_dec line (chars "3") then true else false) ;;;
    match next_line data with
    | (None, _) => Err
    | (Some line, data) =>
      check (if list_eq_dec N.eq_dec line (chars "main") then true else false) ;;;
      match next_line data with
      | (None, _) => Err
      | (Some value_types_line, data) =>
        match next_line data with
        | (None, _) => Err
        | (Some values_line, _) =>
          let value_types := split_tabs value_types_line in
          let words := split_tabs values_line in
          check (len words =? len value_types) ;;;
          insert_values codes convert value_types words values
        end
      end
    end
  end.
(** header.rs 38-180 [read_data] *)
Definition read_header (data : list N) (values : header_values) : res header_values :=
  '(header_data, _) <- zlib_decompress data (repeat 0 (N.to_nat (len data * 4))) ;;
  read_lines header_codes convert_bytes header_data values.
(** header2.rs 39-207 [read_data] *)
Definition read_header2 (data : list N) (values : header_values) : res header_values :=
  '(header2_data, _) <- zlib_decompress data (repeat 0 (N.to_nat (len data * 4))) ;;
  a <- idx header2_data 0 ;;
  b <- idx header2_data 1 ;;
  let big_endian := (a =? 254) && (b =? 255) in
  let offset := if big_endian || ((a =? 255) && (b =? 254)) then 2%nat else 0%nat in
  read_lines header2_codes convert_utf16 (values_16bit big_endian (skipn offset header2_data)) values.
