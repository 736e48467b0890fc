(** * RFC 3629 *)
From Verif Require Import Base Strings_spec.

(** Encoding of a code point *)
Definition utf8 (c : N) : list N :=
  if c <? 0x80 then [c]
  else if c <? 0x800 then [0xc0 + c / 64; 0x80 + c mod 64]
  else if c <? 0x10000 then [0xe0 + c / 4096; 0x80 + c / 64 mod 64; 0x80 + c mod 64]
  else [0xf0 + c / 262144; 0x80 + c / 4096 mod 64; 0x80 + c / 64 mod 64; 0x80 + c mod 64].

(** [bytes] is the UTF-8 form of the characters [s]; well-formed means being one. *)
Definition is_utf8_of (bytes s : list N) : Prop := bytes = flat_map utf8 s /\ Forall scalar s.

(** Bytes that RFC 3629 excludes and the decoder does not: c0 and c1 (over-long forms) and
    f4 followed by 90 or more (beyond 10ffff). *)
Definition no_excluded (bytes : list N) : Prop :=
  forall i b, nth_error bytes i = Some b ->
    b <> 0xc0 /\ b <> 0xc1 /\ (b = 0xf4 -> forall b2, nth_error bytes (S i) = Some b2 -> b2 < 0x90).
