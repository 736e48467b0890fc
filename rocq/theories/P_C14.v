(** * C14: UTF-8 decoding *)
From Verif Require Import Base BaseLemmas Strings_model Strings_spec Utf8_model Utf8_spec Utf8_proofs.

(** Decoding the UTF-8 form of any characters gives the characters. *)
Theorem C14_decode_encode : forall bytes s, is_utf8_of bytes s -> utf8_decode bytes = Ok s.
Proof. intros bytes s [-> Hs]. apply decode_encoded; auto. Qed.
Print Assumptions C14_decode_encode.

(** One at a time: each code point is produced as soon as its bytes were read. *)
Theorem C14_next_encode : forall c rest, scalar c -> utf8_next (utf8 c ++ rest) = Some (Ok c, rest).
Proof. exact next_encoded. Qed.
Print Assumptions C14_next_encode.

(** Decoding is total, *)
Theorem C14_no_panic : forall bytes, utf8_decode bytes <> Panic.
Proof. intros. apply decode_no_panic. auto. Qed.
Print Assumptions C14_no_panic.

(** and accepts exactly the well-formed UTF-8 sequences among those without c0, c1 and f4
    followed by 90 or more. Missing from the property: those bytes, see below. *)
Theorem C14_accepts_well_formed_partial : forall bytes s,
  is_utf8_of bytes s <-> utf8_decode bytes = Ok s /\ no_excluded bytes.
Proof.
  intros bytes s. split.
  - intros [-> Hs]. split; [apply decode_encoded; auto|apply encoded_no_excluded; auto].
  - intros [H Hx]. eapply decode_sound; eauto.
Qed.
Print Assumptions C14_accepts_well_formed_partial.

(** The property as stated is false: an over-long form and a value beyond 10ffff are accepted. *)
Theorem C14_rejects_ill_formed_refuted :
  ~ (forall bytes s, utf8_decode bytes = Ok s -> is_utf8_of bytes s).
Proof.
  intros H. specialize (H [0xc0; 0xaf] [0x2f] eq_refl). destruct H as [H _]. discriminate.
Qed.
Print Assumptions C14_rejects_ill_formed_refuted.
Theorem C14_beyond_unicode_refuted :
  utf8_decode [0xf4; 0x90; 0x80; 0x80] = Ok [0x110000] /\ ~ scalar 0x110000.
Proof. split; [reflexivity|]. unfold scalar. lia. Qed.
Print Assumptions C14_beyond_unicode_refuted.

(** After an error the iterator does not move: it returns the error for ever. *)
Theorem C14_error_repeats_refuted : forall rest rest', utf8_next rest = Some (Err, rest') ->
  rest' = rest /\ utf8_next rest' = Some (Err, rest').
Proof.
  intros rest rest' H. assert (rest' = rest); [|subst; auto].
  destruct rest as [|b rest]; cbn [utf8_next] in H; [discriminate|].
  destruct (utf8_decode_one b rest) as [[? ?]| |]; inversion H; auto.
Qed.
Print Assumptions C14_error_repeats_refuted.

(** Converting a byte string that is not UTF-8 panics ([todo!()]). *)
Theorem C14_to_string_panics : forall elements, utf8_bytestring_to_string elements = Panic <-> utf8_decode elements = Err.
Proof.
  intros e. unfold utf8_bytestring_to_string. pose proof (C14_no_panic e).
  destruct (utf8_decode e); split; try discriminate; auto; congruence.
Qed.
Print Assumptions C14_to_string_panics.

Example C14_example :
  utf8_decode [0x41; 0xc3; 0xa9; 0xe2; 0x82; 0xac; 0xf0; 0x9f; 0x98; 0x80] = Ok [0x41; 0xe9; 0x20ac; 0x1f600] /\
  flat_map utf8 [0x41; 0xe9; 0x20ac; 0x1f600] = [0x41; 0xc3; 0xa9; 0xe2; 0x82; 0xac; 0xf0; 0x9f; 0x98; 0x80] /\
  utf8_decode [0xed; 0xa0; 0x80] = Err /\ utf8_decode [0xe0; 0x80; 0x80] = Err /\ utf8_decode [0x80] = Err /\ utf8_decode [0xc3] = Err.
Proof. vm_compute. auto 10. Qed.
