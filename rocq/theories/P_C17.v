(** * C17: UCS-2, UTF-16 and byte strings: reading, comparing, case folding *)
From Coq Require Import String.
From Verif Require Import Base Bytes_model Strings_model Strings_spec Strings_proofs.
Open Scope list_scope.

(** Reading an even number of bytes gives the 16-bit elements before the first zero. *)
Theorem C17_reads_to_terminator : forall big bytes, len bytes < two64 -> len bytes mod 2 = 0 ->
  exists l p, u16s big bytes l /\ before_nul l p /\
    (if big then u16string_from_be_bytes else u16string_from_le_bytes) bytes = Ok p.
Proof. exact read_even. Qed.
Print Assumptions C17_reads_to_terminator.

Theorem C17_read_data_appends : forall elements bytes, len bytes < two64 -> len bytes mod 2 = 0 ->
  exists l p, u16s false bytes l /\ before_nul l p /\ ucs2_read_data_le elements bytes = Ok (elements ++ p).
Proof. exact read_append. Qed.
Print Assumptions C17_read_data_appends.

(** From a slice (UCS-2 and byte strings): the elements before the first zero; there is only one such prefix. *)
Theorem C17_from_slice : forall l, before_nul l (string_from_slice l) /\
  forall p, before_nul l p -> p = string_from_slice l.
Proof. intros l. split; [apply from_slice_ok|]. intros p Hp. eapply before_nul_unique; eauto using from_slice_ok. Qed.
Print Assumptions C17_from_slice.

Theorem C17_byte_string_read_data : forall elements data,
  exists p, before_nul data p /\ bytestring_read_data elements data = elements ++ p.
Proof. intros. exists (string_from_slice data). split; [apply from_slice_ok|reflexivity]. Qed.
Print Assumptions C17_byte_string_read_data.

(** An odd number of bytes without a zero element before the last byte panics. *)
Theorem C17_odd_length_panics : forall big bytes last l,
  len (bytes ++ [last]) < two64 -> u16s big bytes l -> Forall (fun x => x <> 0) l ->
  (if big then u16string_from_be_bytes else u16string_from_le_bytes) (bytes ++ [last]) = Panic.
Proof. exact read_odd. Qed.
Print Assumptions C17_odd_length_panics.

(** Comparison is the lexicographic total order, and its equality is equality. *)
Theorem C17_compare_lexicographic : forall a b,
  (ucs2_compare a b = Lt <-> lex_lt a b) /\ (ucs2_compare a b = Gt <-> lex_lt b a) /\
  (ucs2_compare a b = Eq <-> a = b).
Proof. intros. split; [apply compare_lt|]. split; [apply compare_gt|apply compare_eq]. Qed.
Print Assumptions C17_compare_lexicographic.

Theorem C17_total_order :
  (forall a, ~ lex_lt a a) /\ (forall a b c, lex_lt a b -> lex_lt b c -> lex_lt a c) /\
  (forall a b, lex_lt a b \/ a = b \/ lex_lt b a).
Proof.
  split; [apply lex_irrefl|]. split; [apply lex_trans|].
  intros a b. destruct (ucs2_compare a b) eqn:E.
  - right; left. apply compare_eq; auto.
  - left. apply compare_lt; auto.
  - right; right. apply compare_gt; auto.
Qed.
Print Assumptions C17_total_order.

(** Case folding keeps the length and maps each element on its own. *)
Theorem C17_case_folding : forall l m, length (ucs2_case_folding l m) = length l /\
  forall i e, nth_error l i = Some e ->
    nth_error (ucs2_case_folding l m) i = Some (match m e with Some v => v | None => e end).
Proof. exact case_folding_ok. Qed.
Print Assumptions C17_case_folding.

(** UTF-16: a string of characters is stored as its UTF-16 form, and a UTF-16 string is
    converted to the characters it encodes; elements that are not UTF-16 panic. *)
Theorem C17_utf16_encode : forall s, Forall scalar s -> ucs2_from_str s = utf16 s.
Proof. exact encode_utf16_ok. Qed.
Print Assumptions C17_utf16_encode.

Theorem C17_utf16_decode : forall l s, Forall (fun u => u < 65536) l ->
  (utf16_to_string l = Ok s <-> l = utf16 s /\ Forall scalar s).
Proof. exact utf16_decode_spec. Qed.
Print Assumptions C17_utf16_decode.

Theorem C17_utf16_malformed_panics : forall l, Forall (fun u => u < 65536) l ->
  (utf16_to_string l = Panic <-> ~ exists s, l = utf16 s /\ Forall scalar s).
Proof.
  intros l Hw. pose proof (utf16_not_err l) as He. pose proof (fun s => utf16_decode_spec l s Hw) as Hs.
  destruct (utf16_to_string l) as [s| |]; [|congruence|].
  - split; [discriminate|]. intros H. exfalso. apply H. exists s. apply Hs; auto.
  - split; auto. intros _ (s & H). apply Hs in H. discriminate.
Qed.
Print Assumptions C17_utf16_malformed_panics.

Example C17_example :
  u16string_from_le_bytes [0x41; 0; 0x42; 0; 0; 0; 0x43; 0] = Ok [0x41; 0x42] /\
  u16string_from_be_bytes [0; 0x41; 0; 0; 1] = Ok [0x41] /\
  u16string_from_be_bytes [0; 0x41; 1] = Panic /\
  utf16_to_string [0xd83d; 0xde00] = Ok [0x1f600] /\ utf16_to_string [0xde00] = Panic.
Proof. vm_compute. auto 8. Qed.
