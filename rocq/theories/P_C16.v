(** * C16: UUID text and byte forms *)
From Coq Require Import String.
From Verif Require Import Base Bytes_model Uuid_model Uuid_spec Uuid_proofs.

(** The string form is the canonical 8-4-4-4-12 lower case form. *)
Theorem C16_to_string_canonical : forall u, uuid_ok u ->
  uuid_to_string u = uuid_text false (part1 u) (part2 u) (part3 u) (part4 u) (part5 u).
Proof. exact to_string_text. Qed.
Print Assumptions C16_to_string_canonical.

(** Parsing the string form gives back the UUID, whatever the UUID held before; so do
    the upper case form and the form in braces. *)
Theorem C16_text_round_trip : forall u0 u up, uuid_ok u ->
  uuid_from_string u0 (uuid_to_string u) = (u, Ok tt) /\
  uuid_from_string u0 (uuid_text up (part1 u) (part2 u) (part3 u) (part4 u) (part5 u)) = (u, Ok tt) /\
  uuid_from_string u0 (braced (uuid_text up (part1 u) (part2 u) (part3 u) (part4 u) (part5 u))) = (u, Ok tt).
Proof.
  intros u0 u up H. rewrite to_string_text by auto. split; [apply from_string_text; auto|].
  apply (from_string_text u0 u up H).
Qed.
Print Assumptions C16_text_round_trip.

(** Bytes in big-endian order are shown in order. *)
Theorem C16_be_bytes : forall a, wf_bytes a -> len a < two64 -> 16 <= len a ->
  exists u, uuid_from_be_bytes a = Ok u /\ uuid_ok u /\
    uuid_to_string u =
      (bytes_text (part_of a 0 4) ++ dash ++ bytes_text (part_of a 4 6) ++ dash ++ bytes_text (part_of a 6 8) ++ dash ++
       bytes_text (part_of a 8 10) ++ dash ++ bytes_text (part_of a 10 16))%list.
Proof. exact uuid_be. Qed.
Print Assumptions C16_be_bytes.

(** The little-endian form differs only in the byte order of the first three fields. *)
Theorem C16_le_bytes : forall a, wf_bytes a -> len a < two64 -> 16 <= len a ->
  uuid_from_le_bytes a =
    uuid_from_be_bytes (rev (part_of a 0 4) ++ rev (part_of a 4 6) ++ rev (part_of a 6 8) ++ part_of a 8 16)%list.
Proof. exact uuid_le. Qed.
Print Assumptions C16_le_bytes.

(** Fewer than 16 bytes panic. *)
Theorem C16_short_bytes_panic : forall a, len a < 16 ->
  uuid_from_be_bytes a = Panic /\ uuid_from_le_bytes a = Panic.
Proof. exact uuid_bytes_short. Qed.
Print Assumptions C16_short_bytes_panic.

(** Partial: of the ASCII strings without a plus sign exactly the 8-4-4-4-12 forms, in
    either case and optionally in braces, are accepted, with the value they spell. *)
Theorem C16_accepts_exactly_uuids_partial : forall u0 u s, ascii_only s -> no_plus s ->
  (uuid_from_string u0 s = (u, Ok tt) <-> uuid_form s u \/ exists t, s = braced t /\ uuid_form t u).
Proof. exact accepts_iff. Qed.
Print Assumptions C16_accepts_exactly_uuids_partial.

(** Partial: no ASCII string makes the parser panic. *)
Theorem C16_no_panic_on_ascii_partial : forall u s, ascii_only s -> snd (uuid_from_string u s) <> Panic.
Proof. exact no_panic_ascii. Qed.
Print Assumptions C16_no_panic_on_ascii_partial.

(** The full claims are false: a plus sign is accepted in place of a digit, *)
Theorem C16_rejects_malformed_refuted :
  uuid_from_string uuid_new (text "+0000001-0000-0000-0000-000000000000") =
    ({| part1 := 1; part2 := 0; part3 := 0; part4 := 0; part5 := 0 |}, Ok tt).
Proof. vm_compute. reflexivity. Qed.
Print Assumptions C16_rejects_malformed_refuted.

(** and a two-byte character across offset 8 makes the parser panic (36 bytes of valid UTF-8). *)
Theorem C16_no_panic_refuted :
  let s := (text "0000000" ++ [0xc3; 0xa9] ++ text "000000000000000000000000000")%list in
  len s = 36 /\ snd (uuid_from_string uuid_new s) = Panic.
Proof. vm_compute. auto. Qed.
Print Assumptions C16_no_panic_refuted.

Example C16_example :
  let u := {| part1 := 0x01234567; part2 := 0x89ab; part3 := 0xcdef; part4 := 0x0011; part5 := 0x2233445566ff |} in
  uuid_ok u /\ uuid_to_string u = text "01234567-89ab-cdef-0011-2233445566ff".
Proof. vm_compute. auto 8. Qed.
