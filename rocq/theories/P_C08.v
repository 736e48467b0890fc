(** * C08: LZNT1 decompression is memory safe, deterministic and faithful *)
From Verif Require Import Base BaseLemmas Lz_model Lz_spec Lz_proofs Lznt1_proofs.

(** No compressed bytes and no destination buffer make it panic. *)
Theorem C08_no_panic :
  forall compressed buffer, wf_bytes compressed -> lznt1_decompress compressed buffer <> Panic.
Proof.
  intros c buf H. rewrite lznt1_decompress_pure. unfold finished.
  pose proof (lznt1_no_panic_pure (S (length c)) 0 c [] (len buf) H) as P.
  destruct (lznt1_pure _ _ _ _ _); cbn [bind]; try discriminate. exfalso. apply P; [lia | reflexivity].
Qed.
Print Assumptions C08_no_panic.

(** Chunks written by any valid encoder decode to what they mean, up to an end marker, the
    end of the data, or a full buffer. *)
Theorem C08_valid_encodings_decode :
  forall chunks buffer trailing,
  Forall lznt1_chunk_valid chunks ->
  len (lznt1_meaning chunks) <= len buffer ->
  trailing = [] \/ (exists t, trailing = 0 :: 0 :: t) \/
    len (lznt1_meaning chunks) = len buffer ->
  lznt1_decompress (lznt1_encode chunks ++ trailing) buffer =
    Ok (lznt1_meaning chunks ++ skipn (length (lznt1_meaning chunks)) buffer,
        len (lznt1_meaning chunks)).
Proof.
  intros chs buf tail Hv Hl Ht. rewrite lznt1_decompress_pure. unfold finished.
  rewrite (lznt1_round_trip_pure chs Hv); auto.
  - cbn [bind app length]. now rewrite Nat.sub_0_r.
  - cbn [app]. unfold lznt1_stops. tauto.
Qed.
Print Assumptions C08_valid_encodings_decode.

(** What the buffer held before makes no difference to the outcome or to the bytes
    reported, whatever the input, and no byte behind the reported ones is touched. *)
Theorem C08_previous_content_irrelevant :
  forall compressed buffer1 buffer2, wf_bytes compressed -> len buffer1 = len buffer2 ->
  match lznt1_decompress compressed buffer1, lznt1_decompress compressed buffer2 with
  | Ok (r1, n1), Ok (r2, n2) =>
      n1 = n2 /\ firstn (N.to_nat n1) r1 = firstn (N.to_nat n2) r2 /\
      skipn (N.to_nat n1) r1 = skipn (N.to_nat n1) buffer1
  | Err, Err => True
  | _, _ => False
  end.
Proof.
  intros c b1 b2 Hw Hl.
  pose proof (C08_no_panic c b1 Hw) as P1.
  rewrite !lznt1_decompress_pure in *. rewrite <- Hl. unfold finished in *.
  destruct (lznt1_pure (S (length c)) 0 c [] (len b1)) as [o | |]; cbn [bind length] in *; auto.
  unfold len. rewrite Nat2N.id, !firstn_app, !Nat.sub_diag, !firstn_O, !Nat.sub_0_r.
  rewrite skipn_app, skipn_all, Nat.sub_diag. auto.
Qed.
Print Assumptions C08_previous_content_irrelevant.

(** A compressed chunk of two groups, with a match behind the sixteenth byte, and a raw
    chunk. *)
Definition C08_chunks : list lznt1_chunk :=
  [NCompressed
     [[NLiteral 1; NLiteral 2; NLiteral 3; NMatch 3 9; NLiteral 4; NMatch 1 5; NLiteral 5; NMatch 17 4];
      [NMatch 2 3; NLiteral 6]];
   NRaw [7; 8; 9]].
Example C08_chunks_valid : Forall lznt1_chunk_valid C08_chunks.
Proof.
  repeat first [apply Forall_nil | apply Forall_cons]; unfold lznt1_chunk_valid;
    repeat split; vm_compute; repeat split; try discriminate; try lia;
    repeat first [apply Forall_nil | apply Forall_cons]; reflexivity.
Qed.
Example C08_chunks_decode :
  lznt1_decompress (lznt1_encode C08_chunks ++ [0; 0; 55]) (repeat 99 32) =
    Ok ([1; 2; 3; 1; 2; 3; 1; 2; 3; 1; 2; 3; 4; 4; 4; 4; 4; 4; 5; 3; 1; 2; 3; 2; 3; 2; 6; 7; 8; 9; 99; 99], 30).
Proof. vm_compute. reflexivity. Qed.
