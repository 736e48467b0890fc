(** * C02: forward CRC-32 equals the bit-by-bit remainder, independent of chunking *)
From Verif Require Import Base Checksums_model Checksums_spec Checksums_proofs.

(** Every polynomial and initial value; the context left by [finalize] gives the
    right checksum for a second message too. *)
Theorem C02_crc32_any_chunking :
  forall polynomial initial chunks,
  polynomial < 2 ^ 32 -> initial < 2 ^ 32 -> Forall wf_bytes chunks ->
  exists c c', crc_updates crc_update (crc_new polynomial initial) chunks = Ok c /\
    crc_finalize c = (crc32_forward polynomial initial (concat chunks), c') /\
    forall chunks2, Forall wf_bytes chunks2 ->
      exists c2, crc_updates crc_update c' chunks2 = Ok c2 /\
        fst (crc_finalize c2) = crc32_forward polynomial initial (concat chunks2).
Proof. exact crc_forward_ok. Qed.
Print Assumptions C02_crc32_any_chunking.

(** CRC-32/BZIP2 check value of "123456789". *)
Example C02_example :
  (c <- crc_updates crc_update (crc_new 0x04C11DB7 0) [[49; 50; 51; 52]; [53; 54; 55; 56; 57]] ;;
   Ok (fst (crc_finalize c))) = Ok 0xFC891918 /\
  crc32_forward 0x04C11DB7 0 [49; 50; 51; 52; 53; 54; 55; 56; 57] = 0xFC891918.
Proof. vm_compute. auto. Qed.
