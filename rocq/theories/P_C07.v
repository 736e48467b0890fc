(** * C07: LZVN decompression is memory safe and determined by its input *)
From Verif Require Import Base BaseLemmas Lz_model Lz_spec Lz_proofs Lzvn_proofs.

(** No compressed bytes and no destination buffer make it panic. *)
Theorem C07_no_panic :
  forall compressed buffer, wf_bytes compressed -> lzvn_decompress compressed buffer <> Panic.
Proof.
  intros c buf H. rewrite lzvn_decompress_pure by exact H. unfold finish2.
  pose proof (lzvn_pure_no_panic (S (length c)) c [] buf 0 H) as P.
  destruct (lzvn_pure _ _ _ _ _) as [[o r] | |]; cbn [bind]; try discriminate. exfalso. apply P; [lia | reflexivity].
Qed.
Print Assumptions C07_no_panic.

Lemma encode_tokens_wf ts : Forall lzvn_valid ts -> wf_bytes (concat (map lzvn_encode_token ts)).
Proof.
  intros Hv. induction Hv as [| t ts Ht Hv IH]; [constructor |]. cbn [map concat].
  apply wf_bytes_app. split; [| exact IH].
  destruct t as [l | s | l d s | l d s | l d s | l s | b];
    cbn [lzvn_encode_token lzvn_valid] in *.
  - destruct Ht as [Ht Hw]. apply wf_bytes_app. split; [| exact Hw].
    destruct (N.ltb_spec (len l) 16); repeat first [apply wf_bytes_cons; split | apply Forall_nil]; lia.
  - destruct (N.ltb_spec s 16); repeat first [apply wf_bytes_cons; split | apply Forall_nil]; lia.
  - destruct Ht as (H1 & Hw & H2 & H3). apply wf_bytes_app. split; [| exact Hw].
    repeat first [apply wf_bytes_cons; split | apply Forall_nil]; try lia.
  - destruct Ht as (H1 & Hw & H2 & H3). apply wf_bytes_app. split; [| exact Hw].
    repeat first [apply wf_bytes_cons; split | apply Forall_nil]; lia.
  - destruct Ht as (H1 & Hw & H2 & H3). apply wf_bytes_app. split; [| exact Hw].
    repeat first [apply wf_bytes_cons; split | apply Forall_nil]; lia.
  - destruct Ht as (H1 & Hw & H2). apply wf_bytes_app. split; [| exact Hw].
    repeat first [apply wf_bytes_cons; split | apply Forall_nil]; lia.
  - repeat first [apply wf_bytes_cons; split | apply Forall_nil]; lia.
Qed.

(** Any valid encoding of [original] decodes to it and leaves the rest of the buffer
    alone, whatever follows the end marker. *)
Theorem C07_valid_encodings_decode :
  forall tokens original buffer trailing,
  Forall lzvn_valid tokens -> wf_bytes trailing ->
  lzvn_meaning [] 0 tokens = Some original -> len original <= len buffer ->
  lzvn_decompress (lzvn_encode tokens ++ trailing) buffer =
    Ok (original ++ skipn (length original) buffer, len original).
Proof.
  intros ts o buf tail Hv Hw Hm Hl. unfold lzvn_encode. rewrite <- app_assoc.
  rewrite lzvn_decompress_pure.
  2:{ apply wf_bytes_app. split; [now apply encode_tokens_wf |].
      apply wf_bytes_app. split; [| exact Hw].
      repeat first [apply wf_bytes_cons; split | apply Forall_nil]; lia. }
  unfold finish2. rewrite (lzvn_round_trip_pure ts Hv _ [] buf 0 o); auto.
  - cbn [bind length]. now rewrite Nat.sub_0_r.
  - left. right. eexists. reflexivity.
Qed.
Print Assumptions C07_valid_encodings_decode.

(** A success is accounted for by tokens the input starts with, and the bytes reported are
    their meaning, unless one of them copies from distance zero. *)
Theorem C07_output_is_the_meaning_partial :
  forall compressed buffer result size, wf_bytes compressed ->
  lzvn_decompress compressed buffer = Ok (result, size) ->
  exists tokens trailing,
    compressed = concat (map lzvn_encode_token tokens) ++ trailing /\ Forall lzvn_valid tokens /\
    size <= len buffer /\ len result = len buffer /\
    (lzvn_zero_distance 0 tokens \/
     lzvn_meaning [] 0 tokens = Some (firstn (N.to_nat size) result)).
Proof.
  intros c buf r n Hw H. rewrite lzvn_decompress_pure in H by exact Hw. unfold finish2 in H.
  destruct (lzvn_pure (S (length c)) c [] buf 0) as [[o rest] | |] eqn:E; try discriminate.
  cbn [bind] in H. injection H as <- <-.
  destruct (lzvn_sound_pure _ _ _ _ _ _ _ Hw E) as (ts & tail & E1 & V & L & _ & M).
  change (len (@nil N)) with 0 in L.
  exists ts, tail. rewrite len_app. unfold len in *. rewrite Nat2N.id.
  rewrite firstn_app, firstn_all, Nat.sub_diag, firstn_O, app_nil_r.
  repeat split; auto; lia.
Qed.
Print Assumptions C07_output_is_the_meaning_partial.

(** The property: the outcome and the bytes reported are the same for all previous contents of the buffer. *)
Definition lzvn_deterministic (compressed : list N) : Prop :=
  forall buffer1 buffer2, len buffer1 = len buffer2 ->
  match lzvn_decompress compressed buffer1, lzvn_decompress compressed buffer2 with
  | Ok (r1, n1), Ok (r2, n2) =>
      n1 = n2 /\ firstn (N.to_nat n1) r1 = firstn (N.to_nat n2) r2
  | Err, Err => True
  | _, _ => False
  end.

(** It holds for everything a valid encoder can produce. Missing: inputs that name
    distance zero, for which it is false. *)
Theorem C07_deterministic_partial :
  forall tokens original trailing buffer1 buffer2,
  Forall lzvn_valid tokens -> wf_bytes trailing -> lzvn_meaning [] 0 tokens = Some original ->
  len original <= len buffer1 -> len buffer1 = len buffer2 ->
  exists rest1 rest2,
    lzvn_decompress (lzvn_encode tokens ++ trailing) buffer1 = Ok (original ++ rest1, len original) /\
    lzvn_decompress (lzvn_encode tokens ++ trailing) buffer2 = Ok (original ++ rest2, len original).
Proof.
  intros ts o tail b1 b2 Hv Hw Hm H1 H2.
  rewrite !(C07_valid_encodings_decode ts o) by (auto; lia). eauto.
Qed.
Print Assumptions C07_deterministic_partial.

(** For any input at all, a success is independent of the previous content unless the
    input has a token that copies from distance zero. *)
Theorem C07_deterministic_unless_zero_distance_partial :
  forall compressed buffer1 result size, wf_bytes compressed ->
  lzvn_decompress compressed buffer1 = Ok (result, size) ->
  (exists tokens trailing,
     compressed = concat (map lzvn_encode_token tokens) ++ trailing /\
     Forall lzvn_valid tokens /\ lzvn_zero_distance 0 tokens) \/
  (forall buffer2, len buffer2 = len buffer1 -> exists result2,
     lzvn_decompress compressed buffer2 = Ok (result2, size) /\
     firstn (N.to_nat size) result2 = firstn (N.to_nat size) result).
Proof.
  intros c b1 r n Hw H. rewrite lzvn_decompress_pure in H by exact Hw. unfold finish2 in H.
  destruct (lzvn_pure (S (length c)) c [] b1 0) as [[o rest] | |] eqn:E; try discriminate.
  cbn [bind] in H. injection H as <- <-.
  destruct (lzvn_sound_pure _ _ _ _ _ _ _ Hw E) as (ts & tail & E1 & V & L & T & M).
  change (len (@nil N)) with 0 in L.
  destruct M as [M | M]; [left; exists ts, tail; auto |]. right. intros b2 Hb.
  rewrite lzvn_decompress_pure by exact Hw. unfold finish2.
  exists (o ++ skipn (length o - length (@nil N)) b2). split.
  - rewrite E1. rewrite (lzvn_round_trip_pure ts V _ [] b2 0 o); [reflexivity | lia | exact M | |].
    + change (len (@nil N)) with 0. lia.
    + destruct T as [T | T]; [now left | right]. subst rest. change (len (@nil N)) with 0 in *. lia.
  - unfold len. rewrite Nat2N.id, !firstn_app, !Nat.sub_diag, !firstn_O. reflexivity.
Qed.
Print Assumptions C07_deterministic_unless_zero_distance_partial.

(** Three bytes "copied" from distance zero are whatever the buffer held. *)
Theorem C07_deterministic_refuted :
  ~ (forall compressed, wf_bytes compressed -> lzvn_deterministic compressed).
Proof.
  intros H. specialize (H (0xe1 :: 65 :: lzvn_encode [VSmall [] 0 3])).
  assert (W : wf_bytes (0xe1 :: 65 :: lzvn_encode [VSmall [] 0 3])).
  { apply wf_bytesb_iff. vm_compute. reflexivity. }
  specialize (H W [0; 0; 0; 0] [0; 1; 2; 3] eq_refl).
  vm_compute in H. destruct H as [_ H]. discriminate.
Qed.
Print Assumptions C07_deterministic_refuted.

Definition C07_tokens : list lzvn_token :=
  [VLiteral [1; 2; 3]; VSmall [4] 2 5; VNothing 0x0e; VMatch 3; VMedium [7; 8] 9 4; VPrevious [5] 3;
   VLarge [] 1 4].
Example C07_tokens_valid : Forall lzvn_valid C07_tokens.
Proof.
  repeat first [apply Forall_nil | apply Forall_cons]; cbn [lzvn_valid]; repeat split;
    try (left; reflexivity); try (apply wf_bytesb_iff; reflexivity); vm_compute; congruence.
Qed.
Example C07_tokens_decode :
  lzvn_decompress (lzvn_encode C07_tokens) (repeat 99 30) =
    Ok ([1; 2; 3; 4; 3; 4; 3; 4; 3; 4; 3; 4; 7; 8; 4; 3; 4; 3; 5; 3; 4; 7; 7; 7; 7; 7] ++ repeat 99 4, 26).
Proof. vm_compute. reflexivity. Qed.
