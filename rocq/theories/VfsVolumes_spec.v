(** * Specification of the names of partitions and image layers *)
From Coq Require Import String Ascii.
From Verif Require Import Base Formatters_spec VfsVolumes_model.
Open Scope N_scope.
Open Scope list_scope.

Definition text (s : string) : list N := List.map N_of_ascii (list_ascii_of_string s).
Definition slash : list N := text "/".

(** What the names of a kind of file system start with *)
Definition kind_text (kind : volume_kind) : list N :=
  text match kind with
       | Apm => "apm" | Gpt => "gpt" | Mbr => "mbr" | Qcow => "qcow" | Vhd => "vhd" | Vhdx => "vhdx"
       end%string.
Definition image_text (kind : image_kind) : list N :=
  text match kind with Ewf => "ewf1" | SparseImage => "sparseimage1" | Udif => "udif1" end%string.

(** The name of the n-th partition or layer: numbers start at 1 and have no leading zero. *)
Definition nth_name (kind : volume_kind) (n : N) (name : list N) : Prop :=
  exists t, decimal_text n t /\ name = kind_text kind ++ t.

(** The numerals that are taken for a number: digits, leading zeros allowed, after a plus
    sign or not *)
Definition digits_of (n : N) (t : list N) : Prop :=
  t <> [] /\ Forall (fun c => 48 <= c <= 57) t /\ fold_left (fun a c => a * 10 + (c - 48)) t 0 = n.
Definition numeral (n : N) (t : list N) : Prop :=
  digits_of n t \/ exists t', t = text "+" ++ t' /\ digits_of n t'.

(** A file system as opening it leaves it. *)
Definition is_open {A} (fs : volume_file_system A) : Prop :=
  exists kind system, volume_open (volume_new kind) (Ok system) = Ok fs /\ vs_number system < two64.
