(** * C13: Base64 decoding inverts RFC 4648 encoding *)
From Coq Require Import String.
From Verif Require Import Base BaseLemmas Uuid_spec Base64_model Base64_spec Base64_proofs.
Open Scope list_scope.

(** Decoding the encoding of [l] into a buffer with room for it gives [l]; the rest of the
    buffer is left alone and [data_size] is the length of [l]. *)
Theorem C13_decode_encode : forall l data, wf_bytes l -> len l <= len data ->
  b64_decode (encode l) data = Ok (l ++ skipn (length l) data, len l).
Proof. intros. apply decode_ok; auto. apply encode_decodes; auto. Qed.
Print Assumptions C13_decode_encode.

(** With white space inserted anywhere, through the white space skipping stream. *)
Theorem C13_decode_encode_white_space : forall l e, wf_bytes l ->
  with_white_space (encode l) e -> plist_data e = Ok l.
Proof. intros. apply plist_spec. eapply encode_decodes_ws; eauto. Qed.
Print Assumptions C13_decode_encode_white_space.

(** What is accepted in general, and with which result. *)
Theorem C13_decode_accepts : forall e data, len e <= len data ->
  b64_decode e data <> Panic /\
  forall r, b64_decode e data = Ok r <->
    exists out, decodes_padded e out /\ len out <= len data /\ r = (out ++ skipn (length out) data, len out).
Proof.
  intros e data H. split; [apply decode_no_panic; auto|]. intros r. split; [apply decode_sound; auto|].
  intros (out & H1 & H2 & ->). apply decode_ok; auto.
Qed.
Print Assumptions C13_decode_accepts.

Theorem C13_white_space_accepts : forall e, plist_data e <> Panic /\
  forall out, plist_data e = Ok out <-> decodes_ws e out.
Proof. intros e. split; [apply plist_total|apply plist_spec]. Qed.
Print Assumptions C13_white_space_accepts.

(** A character outside the alphabet before any equals sign is rejected (white space too,
    by the context). *)
Theorem C13_rejects_outside_alphabet : forall pre c post data,
  len (pre ++ c :: post) <= len data -> ~ In c alphabet -> c <> equals_sign -> ~ In equals_sign pre ->
  b64_decode (pre ++ c :: post) data = Err.
Proof.
  intros pre c post data Hl Hc He Hp.
  destruct (b64_decode (pre ++ c :: post) data) as [r| |] eqn:E; auto.
  - exfalso. apply decode_sound in E; auto. destruct E as (out & (v & t & Hv & H1 & _ & H2) & _).
    apply app_eq_app in H1. destruct H1 as (l & [[H3 H4]|[H3 H4]]).
    + destruct l as [|x l].
      * cbn [app] in H4. subst t. destruct H2 as [H2|(t1 & H2 & _)]; inversion H2; auto.
      * destruct H2 as [->|(t1 & -> & _)].
        -- discriminate.
        -- apply Hp. rewrite H3. cbn [app] in H4. inversion H4; subst. apply in_or_app. right. left. auto.
    + destruct l as [|x l].
      * cbn [app] in H4. subst t. destruct H2 as [H2|(t1 & H2 & _)]; inversion H2; auto.
      * cbn [app] in H4. inversion H4; subst. apply Hc.
        assert (Hin : In x (map char_of v)) by (rewrite H3; apply in_or_app; right; left; auto).
        apply in_map_iff in Hin. destruct Hin as (w & <- & Hw). rewrite Forall_forall in Hv. specialize (Hv w Hw).
        unfold char_of. apply nth_In. change (length alphabet) with 64%nat. lia.
  - exfalso. eapply decode_no_panic; eauto.
Qed.
Print Assumptions C13_rejects_outside_alphabet.

(** A buffer that is too small panics. *)
Theorem C13_small_buffer_panics : forall l data, wf_bytes l -> len data < len l ->
  b64_decode (encode l) data = Panic.
Proof.
  intros l data Hw Hl. eapply decode_small; eauto.
  destruct (encode_decodes l Hw) as (v & t & H1 & H2 & H3 & H4). exists v, t. repeat split; auto.
  destruct H4 as [->|(t1 & -> & _)]; eauto.
Qed.
Print Assumptions C13_small_buffer_panics.

(** Acceptance is laxer than RFC 4648: missing padding, non-zero unused bits, an incomplete
    byte and data after the padding are not noticed. *)
Theorem C13_strict_decoding_refuted :
  b64_decode (text "QQ") [0; 0] = Ok ([0x41; 0], 1) /\ b64_decode (text "QR==") [0] = Ok ([0x41], 1) /\
  b64_decode (text "QUJDR") [0; 0; 0] = Ok ([0x41; 0x42; 0x43], 3) /\
  b64_decode (text "QQ==!!") [0] = Ok ([0x41], 1).
Proof. vm_compute. auto. Qed.
Print Assumptions C13_strict_decoding_refuted.

Example C13_example :
  encode [0x66; 0x6f; 0x6f; 0x62] = text "Zm9vYg==" /\
  b64_decode (text "Zm9vYg==") [1; 1; 1; 1; 1] = Ok ([0x66; 0x6f; 0x6f; 0x62; 1], 4) /\
  plist_data (text "Zm 9v Yg==") = Ok [0x66; 0x6f; 0x6f; 0x62] /\
  b64_decode (text "Zm 9v Yg==") (repeat 0 10) = Err /\ wf_bytes [0x66; 0x6f; 0x6f; 0x62].
Proof. rewrite <- wf_bytesb_iff. vm_compute. auto. Qed.
