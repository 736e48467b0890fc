(** * Specification of file name splitting, path joining and EWF segment file names *)
From Verif Require Import Base Strings_spec Utf8_spec.

(** The extension is what follows the last dot, a dot in front of the name (as in
    ".bashrc") not counting; the stem is what comes before that dot. *)
Definition splits (name stem extension : list N) : Prop :=
  name = stem ++ [0x2e] ++ extension /\ stem <> [] /\ ~ In 0x2e extension.
Definition no_extension (name : list N) : Prop := ~ In 0x2e (tl name).

Definition ascii (c : N) : Prop := c < 0x80.

(** The segment file extensions of a schema, in order: 01 .. 99, AA .. ZZ after the first
    letter, then AA .. ZZ after each of the following letters up to Z. *)
Definition digit (d : N) : N := 0x30 + d.
Definition numbered (first : N) : list (list N) :=
  map (fun n => [first; digit (n / 10); digit (n mod 10)]) (seqN 1 99).
Definition letters (base : N) : list N := seqN base 26.
Definition lettered (base first : N) : list (list N) :=
  flat_map (fun c0 => flat_map (fun c1 => map (fun c2 => [c0; c1; c2]) (letters base)) (letters base))
    (seqN first (N.to_nat (base + 26 - first))).
Definition extensions (base first : N) : list (list N) := numbered first ++ lettered base first.
