(** * C46: byte order conversions *)
From Verif Require Import Base Bytes_model Bytes_spec Bytes_proofs.

(** A field of 2, 4 or 8 bytes inside the buffer is read as the integer those bytes
    hold, in each byte order, unsigned and in two's complement. *)
Theorem C46_reads_field : forall a e, wf_bytes a -> len a < two64 ->
  Forall (fun n => e + n <= len a ->
    (exists v, bytes_to_uint_le n a e = Ok v /\ holds_le a e n v) /\
    (exists v, bytes_to_uint_be n a e = Ok v /\ holds_be a e n v) /\
    (exists z v, bytes_to_int_le n a e = Ok z /\ holds_le a e n v /\ twos_complement n v z) /\
    (exists z v, bytes_to_int_be n a e = Ok z /\ holds_be a e n v /\ twos_complement n v z)) [2; 4; 8].
Proof. exact byte_order_reads. Qed.
Print Assumptions C46_reads_field.

(** Whatever integer was stored there is what is read. *)
Theorem C46_inverts_encoding : forall a e, wf_bytes a -> len a < two64 ->
  Forall (fun n =>
    (forall v, holds_le a e n v -> bytes_to_uint_le n a e = Ok v) /\
    (forall v, holds_be a e n v -> bytes_to_uint_be n a e = Ok v) /\
    (forall v z, holds_le a e n v -> twos_complement n v z -> bytes_to_int_le n a e = Ok z) /\
    (forall v z, holds_be a e n v -> twos_complement n v z -> bytes_to_int_be n a e = Ok z)) [2; 4; 8].
Proof. exact byte_order_inverts. Qed.
Print Assumptions C46_inverts_encoding.

(** A field that does not fit panics. *)
Theorem C46_panics_outside : forall a e, len a < two64 ->
  Forall (fun n => len a < e + n ->
    bytes_to_uint_le n a e = Panic /\ bytes_to_uint_be n a e = Panic /\
    bytes_to_int_le n a e = Panic /\ bytes_to_int_be n a e = Panic) [2; 4; 8].
Proof. exact byte_order_panics. Qed.
Print Assumptions C46_panics_outside.

Example C46_example :
  holds_be [0; 0xff; 0xfe; 7] 1 2 0xfffe /\ twos_complement 2 0xfffe (-2) /\
  u16_be [0; 0xff; 0xfe; 7] 1 = Ok 0xfffe /\ i16_be [0; 0xff; 0xfe; 7] 1 = Ok (-2)%Z /\
  u16_le [0; 0xff; 0xfe; 7] 1 = Ok 0xfeff.
Proof.
  split; [|vm_compute; repeat split; discriminate].
  split; [reflexivity|]. intros i Hi.
  assert (E : i = 0 \/ i = 1) by lia. destruct E as [->| ->]; reflexivity.
Qed.
