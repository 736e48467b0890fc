(** * C15: single byte code pages are mappings between bytes and code points *)
From Verif Require Import Base BaseLemmas CodePages_model CodePages_tables CodePages_spec CodePages_proofs.

(** 31 of the 36 pages are exact: decoding and encoding are mutually inverse for every byte
    and every code point, and so for strings. *)
Theorem C15_mutually_inverse_partial : Forall (fun p => decode_then_encode p /\ encode_then_decode p) exact_pages.
Proof.
  pose proof pages_decode_then_encode as H1. pose proof pages_encode_then_decode as H2.
  do 2 apply Forall_inv_tail in H1. do 3 apply Forall_inv_tail in H2. apply Forall_and; auto.
Qed.
Print Assumptions C15_mutually_inverse_partial.

Theorem C15_strings_partial : Forall (fun p =>
  (forall bytes s, wf_bytes bytes -> cp_decode_string p bytes = Ok s -> cp_encode_string p s = Ok bytes) /\
  (forall bytes s, cp_encode_string p s = Ok bytes -> wf_bytes bytes /\ cp_decode_string p bytes = Ok s)) exact_pages.
Proof.
  apply Forall_impl with (2 := C15_mutually_inverse_partial). intros p [H1 H2]. split.
  - intros bytes s Hw H. eapply (map_res_inverse _ _ byte_ok); eauto.
  - intros bytes s H. split.
    + apply map_res_elements in H. unfold wf_bytes. induction H; constructor; auto. apply (H2 x y); auto.
    + eapply (map_res_inverse _ _ (fun _ => True)); eauto.
      * apply Forall_forall. auto.
      * intros c b _ E. apply H2; auto.
Qed.
Print Assumptions C15_strings_partial.

(** Strings are converted element by element, on every page. *)
Theorem C15_element_by_element : forall p bytes s,
  (cp_decode_string p bytes = Ok s <-> Forall2 (fun b c => cp_decode_byte p b = Ok c) bytes s) /\
  (cp_encode_string p s = Ok bytes <-> Forall2 (fun c b => cp_encode_code_point p c = Ok b) s bytes).
Proof. intros. split; apply map_res_elements. Qed.
Print Assumptions C15_element_by_element.

(** No page panics on any byte or code point. *)
Theorem C15_no_panic : Forall total all_pages.
Proof. exact pages_total. Qed.
Print Assumptions C15_no_panic.

(** The five others, each failing in one direction only: *)
Theorem C15_iso8859_2_partial : decode_then_encode iso8859_2 /\
  forall c b, ~ In c [0x2da; 0x2dc; 0x2de] -> cp_encode_code_point iso8859_2 c = Ok b ->
    b < 256 /\ cp_decode_byte iso8859_2 b = Ok c.
Proof. split; [exact (Forall_inv pages_decode_then_encode)|exact iso8859_2_except]. Qed.
Print Assumptions C15_iso8859_2_partial.
Theorem C15_iso8859_4_partial : decode_then_encode iso8859_4 /\
  forall c b, ~ In c [0x17f] -> cp_encode_code_point iso8859_4 c = Ok b ->
    b < 256 /\ cp_decode_byte iso8859_4 b = Ok c.
Proof. split; [exact (Forall_inv (Forall_inv_tail pages_decode_then_encode))|exact iso8859_4_except]. Qed.
Print Assumptions C15_iso8859_4_partial.
Theorem C15_arabic_farsi_ascii_partial : Forall encode_then_decode [ascii; mac_arabic; mac_farsi].
Proof.
  pose proof pages_encode_then_decode as H. repeat first [apply Forall_nil | apply Forall_cons].
  - exact (Forall_inv H).
  - exact (Forall_inv (Forall_inv_tail H)).
  - exact (Forall_inv (Forall_inv_tail (Forall_inv_tail H))).
Qed.
Print Assumptions C15_arabic_farsi_ascii_partial.

(** U+02DA, U+02DC and U+02DE (and U+017F in ISO-8859-4) are silently encoded as the
    control character 0x1a instead of being rejected. *)
Theorem C15_iso8859_2_4_refuted :
  ~ encode_then_decode iso8859_2 /\ ~ encode_then_decode iso8859_4 /\
  cp_encode_code_point iso8859_2 0x2da = Ok 0x1a /\ cp_encode_code_point iso8859_4 0x17f = Ok 0x1a.
Proof.
  split; [|split].
  - intros H. destruct (H 0x2da 0x1a eq_refl) as [_ E]. discriminate.
  - intros H. destruct (H 0x17f 0x1a eq_refl) as [_ E]. discriminate.
  - vm_compute. auto.
Qed.
Print Assumptions C15_iso8859_2_4_refuted.

(** Mac Arabic and Farsi: the ASCII space 0x20 decodes to U+0020, which encodes to 0xa0.
    ASCII: the bytes from 0x80 are decoded although they cannot be encoded. *)
Theorem C15_arabic_farsi_ascii_refuted :
  ~ decode_then_encode mac_arabic /\ ~ decode_then_encode mac_farsi /\ ~ decode_then_encode ascii /\
  cp_encode_code_point mac_arabic 0x20 = Ok 0xa0 /\ cp_decode_byte ascii 0x80 = Ok 0x80 /\ cp_encode_code_point ascii 0x80 = Err.
Proof.
  split; [|split; [|split]].
  - intros H. specialize (H 0x20 0x20 ltac:(lia) eq_refl). discriminate.
  - intros H. specialize (H 0x20 0x20 ltac:(lia) eq_refl). discriminate.
  - intros H. specialize (H 0x80 0x80 ltac:(lia) eq_refl). discriminate.
  - vm_compute. auto.
Qed.
Print Assumptions C15_arabic_farsi_ascii_refuted.

Example C15_example :
  cp_decode_string windows1252 [0x80; 0x41] = Ok [0x20ac; 0x41] /\ cp_encode_string windows1252 [0x20ac; 0x41] = Ok [0x80; 0x41] /\
  cp_decode_byte windows1252 0x81 = Err /\ cp_encode_code_point koi8_r 0x20ac = Err.
Proof. vm_compute. auto. Qed.
