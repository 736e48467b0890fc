(** * C47: the printable form of UCS-2 strings is unambiguous *)
From Coq Require Import String.
From Verif Require Import Base Strings_model Strings_spec Strings_proofs.
Open Scope list_scope.

(** The printable form can be read back, *)
Theorem C47_printable_form_readable : forall l, Forall (fun e => e < 65536) l -> unescape (ucs2_to_string l) = l.
Proof. exact unescape_to_string. Qed.
Print Assumptions C47_printable_form_readable.

(** hence different strings have different printable forms. *)
Theorem C47_printable_form_injective : forall a b,
  Forall (fun e => e < 65536) a -> Forall (fun e => e < 65536) b ->
  ucs2_to_string a = ucs2_to_string b -> a = b.
Proof. exact to_string_injective. Qed.
Print Assumptions C47_printable_form_injective.

(** It contains only Unicode scalar values. *)
Theorem C47_printable_form_is_unicode : forall a, Forall (fun e => e < 65536) a -> Forall scalar (ucs2_to_string a).
Proof. exact to_string_scalars. Qed.
Print Assumptions C47_printable_form_is_unicode.

Example C47_example : ucs2_to_string [0x41; 0x5c; 0xd83d; 0x7b] = Uuid_spec.text "A\\\{d83d}{".
Proof. vm_compute. reflexivity. Qed.
