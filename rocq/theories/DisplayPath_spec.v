(** * What the shown paths, modes and lines should say *)
From Coq Require Import String.
From Verif Require Import Base Uuid_spec DisplayPath_model.
Open Scope N_scope.
Open Scope list_scope.

(** The kinds of names of a file system, with the numbers they consist of: Unicode scalar
    values, 16 bit units, and decoded 32 bit numbers. *)
Inductive name_kind := Characters | Units | Decoded.
Definition name_ok (k : name_kind) (name : list N) : Prop :=
  Forall (fun c => match k with Characters => c < 0xd800 \/ 0xe000 <= c < 0x110000 | Units => c < 0x10000 | Decoded => c < 0x100000000 end) name.
Definition as_name (k : name_kind) (name : list N) : vfs_string :=
  match k with Characters => VString name | Units => VUcs2 name | Decoded => VByte (map (@Ok N) name) end.

(** Control characters: C0, delete and C1 *)
Definition control (c : N) : Prop := c < 32 \/ 127 <= c < 160.

(** The letters of a mode: a letter where the bit is set *)
Definition letter (mode : N) (bit : N) (c : string) : list N := if N.testbit mode bit then text c else text "-".
Definition type_letter (type : N) : list N :=
  text (match type with 1 => "p" | 2 => "c" | 4 => "d" | 6 => "b" | 10 => "l" | 12 => "s" | _ => "-" end).
Definition mode_text (mode : N) : list N :=
  type_letter (mode / 4096) ++
  letter mode 8 "r" ++ letter mode 7 "w" ++ letter mode 6 "x" ++ letter mode 5 "r" ++ letter mode 4 "w" ++ letter mode 3 "x" ++
  letter mode 2 "r" ++ letter mode 1 "w" ++ letter mode 0 "x".

(** The parts of a text between separators *)
Fixpoint split_at (separator : N) (t : list N) : list (list N) :=
  match t with
  | [] => [[]]
  | c :: t =>
    if c =? separator then [] :: split_at separator t
    else match split_at separator t with part :: parts => (c :: part) :: parts | [] => [[c]] end
  end.
