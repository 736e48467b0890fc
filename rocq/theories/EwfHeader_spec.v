(** * The text of the header sections of EWF images *)
From Coq Require Import String.
From Verif Require Import Base VfsContext_model EwfHeader_model.
Open Scope N_scope.
Open Scope list_scope.

(** The codes of the values, as EnCase writes them *)
Definition code_of (t : value_type) : string :=
  match t with
  | AcquisitionDate => "m" | CaseNumber => "c" | CompressionLevel => "r" | Description => "a" | DeviceLabel => "l" | EvidenceNumber => "n"
  | ExaminerName => "e" | Model => "md" | Notes => "t" | NotSet => "" | PasswordHash => "p" | Platform => "ov"
  | ProcessIdentifier => "pid" | SerialNumber => "sn" | SystemDate => "u" | Version => "av"
  end.

(** A text with codes and their values: four lines that end with a line feed, maybe after a
    carriage return, and whatever follows *)
Fixpoint tabbed (words : list (list N)) : list N :=
  match words with [] => [] | [word] => word | word :: words => word ++ [9] ++ tabbed words end.
Definition header_text (category eol : list N) (pairs : list (list N * list N)) (rest : list N) : list N :=
  category ++ eol ++ chars "main" ++ eol ++ tabbed (map fst pairs) ++ eol ++ tabbed (map snd pairs) ++ eol ++ rest.
Definition category_line (category : list N) : Prop := category = chars "1" \/ category = chars "3".
Definition line_end (eol : list N) : Prop := eol = [10] \/ eol = [13; 10].
Definition plain (word : list N) : Prop := Forall (fun c => c <> 0 /\ c <> 9 /\ c <> 10 /\ c <> 13) word.
Definition plain_pairs (pairs : list (list N * list N)) : Prop := pairs <> [] /\ Forall (fun p => plain (fst p) /\ plain (snd p)) pairs.

(** The value that is written for a code: the first one *)
Definition written (pairs : list (list N * list N)) (code : list N) (value : option (list N)) : Prop :=
  match value with
  | Some word => exists before after, pairs = before ++ (code, word) :: after /\ ~ In code (map fst before)
  | None => ~ In code (map fst pairs)
  end.

(** UTF-16 in a byte order, with its mark, which may be missing for little endian *)
Definition utf16_bytes (big_endian : bool) (units : list N) : list N :=
  flat_map (fun u => if big_endian then [u / 256; u mod 256] else [u mod 256; u / 256]) units.
Definition byte_order_mark (big_endian : bool) (mark : list N) : Prop :=
  mark = (if big_endian then [254; 255] else [255; 254]) \/ (big_endian = false /\ mark = []).

(** Dates: the digits of seconds since 1970 *)
Definition date_text (word : list N) (n : N) : Prop :=
  Forall (fun c => 48 <= c <= 57) word /\ fold_left (fun a c => a * 10 + (c - 48)) word 0 = n.
Definition is_date (t : value_type) : Prop := t = AcquisitionDate \/ t = SystemDate.
Definition dates_fit (pairs : list (list N * list N)) : Prop :=
  Forall (fun p => fst p = chars "m" \/ fst p = chars "u" -> exists n, date_text (snd p) n /\ n < 2147483648) pairs.
(** What is to be shown for a word *)
Definition shown (t : value_type) (word : list N) (v : header_value) : Prop :=
  (is_date t /\ exists n, date_text word n /\ v = PosixTime n) \/ (~ is_date t /\ v = Utf16Value word).
