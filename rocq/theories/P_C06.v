(** * C06: ADC decompression is faithful, memory safe and deterministic *)
From Verif Require Import Base BaseLemmas Lz_model Lz_spec Lz_proofs.

(** No compressed bytes and no destination buffer make it panic. *)
Theorem C06_no_panic :
  forall compressed buffer, wf_bytes compressed -> adc_decompress compressed buffer <> Panic.
Proof.
  intros c buf H. rewrite adc_decompress_pure by exact H. unfold finished.
  pose proof (adc_pure_no_panic (S (length c)) c [] (len buf)) as P.
  destruct (adc_pure _ _ _ _); cbn [bind]; try discriminate. exfalso. apply P; [lia | reflexivity].
Qed.
Print Assumptions C06_no_panic.

(** Any valid encoding of [original] decodes to it: the front of the buffer holds it, the
    rest of the buffer is untouched and its size is reported. Bytes after the encoding are
    ignored when the buffer is full. *)
Theorem C06_valid_encodings_decode :
  forall tokens original buffer trailing,
  Forall adc_valid tokens -> wf_bytes trailing ->
  adc_meaning [] tokens = Some original ->
  len original <= len buffer -> trailing = [] \/ len original = len buffer ->
  adc_decompress (adc_encode tokens ++ trailing) buffer =
    Ok (original ++ skipn (length original) buffer, len original).
Proof.
  intros ts o buf tail Hv Hw Hm Hl Ht.
  assert (Hwe : wf_bytes (adc_encode ts ++ tail)).
  { apply wf_bytes_app. split; [| exact Hw]. unfold adc_encode. clear Hm.
    induction Hv as [| t ts Ht' Hv IH]; [constructor |]. cbn [map concat].
    apply wf_bytes_app. split; [| exact IH].
    destruct t; cbn [adc_encode_token adc_valid] in *;
      [destruct Ht' as [? Ht']; apply wf_bytes_cons; split; [lia | exact Ht'] | ..];
      repeat first [apply wf_bytes_cons; split | apply Forall_nil]; lia. }
  rewrite adc_decompress_pure by exact Hwe. unfold finished.
  rewrite (adc_round_trip_pure ts Hv _ [] o (len buf) tail); auto.
  cbn [bind length]. now rewrite Nat.sub_0_r.
Qed.
Print Assumptions C06_valid_encodings_decode.

(** Whenever it succeeds, the bytes it reports are the meaning of a sequence of tokens
    that the input starts with, and it stopped at the end of the input or because the
    buffer was full. *)
Theorem C06_output_is_the_meaning :
  forall compressed buffer result size, wf_bytes compressed ->
  adc_decompress compressed buffer = Ok (result, size) ->
  exists tokens trailing,
    compressed = adc_encode tokens ++ trailing /\ Forall adc_valid tokens /\
    adc_meaning [] tokens = Some (firstn (N.to_nat size) result) /\
    skipn (N.to_nat size) result = skipn (N.to_nat size) buffer /\
    size <= len buffer /\ len result = len buffer /\
    (trailing = [] \/ size = len buffer).
Proof.
  intros c buf r n Hw H. rewrite adc_decompress_pure in H by exact Hw. unfold finished in H.
  destruct (adc_pure (S (length c)) c [] (len buf)) as [o | |] eqn:E; try discriminate.
  cbn [bind length] in H. injection H as <- <-. rewrite Nat.sub_0_r.
  assert (B : len o <= len buf) by (apply (adc_pure_bounded _ _ [] _ _ (N.le_0_l _) E)).
  destruct (adc_sound_pure _ _ _ _ _ Hw E) as (ts & tail & E1 & V & M & T).
  exists ts, tail. unfold len in *. rewrite Nat2N.id.
  rewrite firstn_app, firstn_all, Nat.sub_diag, firstn_O, app_nil_r.
  rewrite skipn_app, skipn_all, Nat.sub_diag, app_length, skipn_length.
  repeat split; auto; try lia. destruct T as [T | T]; [now left | right; lia].
Qed.
Print Assumptions C06_output_is_the_meaning.

(** What the buffer held before makes no difference to the outcome or to the bytes
    reported. *)
Theorem C06_previous_content_irrelevant :
  forall compressed buffer1 buffer2, wf_bytes compressed -> len buffer1 = len buffer2 ->
  match adc_decompress compressed buffer1, adc_decompress compressed buffer2 with
  | Ok (r1, n1), Ok (r2, n2) =>
      n1 = n2 /\ firstn (N.to_nat n1) r1 = firstn (N.to_nat n2) r2
  | Err, Err => True
  | _, _ => False
  end.
Proof.
  intros c b1 b2 Hw Hl.
  pose proof (C06_no_panic c b1 Hw) as P1.
  rewrite !adc_decompress_pure in * by exact Hw. rewrite <- Hl. unfold finished in *.
  destruct (adc_pure (S (length c)) c [] (len b1)) as [o | |]; cbn [bind] in *; auto.
  unfold len. rewrite Nat2N.id, !firstn_app, Nat.sub_diag, !firstn_O. auto.
Qed.
Print Assumptions C06_previous_content_irrelevant.

(** A literal, an overlapping short match and a long match. *)
Definition C06_tokens : list adc_token := [ALiteral [1; 2; 3]; AShort 2 6; ALong 9 4].
Example C06_tokens_valid : Forall adc_valid C06_tokens.
Proof. repeat constructor; cbn; lia. Qed.
Example C06_tokens_meaning :
  adc_meaning [] C06_tokens = Some [1; 2; 3; 2; 3; 2; 3; 2; 3; 1; 2; 3; 2].
Proof. reflexivity. Qed.
Example C06_tokens_decode :
  adc_decompress (adc_encode C06_tokens) (repeat 9 15) =
    Ok ([1; 2; 3; 2; 3; 2; 3; 2; 3; 1; 2; 3; 2; 9; 9], 13).
Proof. reflexivity. Qed.
(** A reference before the start is an error. *)
Example C06_bad_reference : adc_decompress [128; 7; 0; 5] (repeat 0 9) = Err.
Proof. reflexivity. Qed.
