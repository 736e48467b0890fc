(** * C03: reflected CRC-32 equals the bit-by-bit remainder, independent of chunking *)
From Verif Require Import Base Checksums_model Checksums_spec Checksums_proofs.

Theorem C03_reversed_crc32_any_chunking :
  forall polynomial initial chunks,
  polynomial < 2 ^ 32 -> initial < 2 ^ 32 -> Forall wf_bytes chunks ->
  exists c c', crc_updates rcrc_update (crc_new polynomial initial) chunks = Ok c /\
    crc_finalize c = (crc32_reflected polynomial initial (concat chunks), c') /\
    forall chunks2, Forall wf_bytes chunks2 ->
      exists c2, crc_updates rcrc_update c' chunks2 = Ok c2 /\
        fst (crc_finalize c2) = crc32_reflected polynomial initial (concat chunks2).
Proof. exact crc_reflected_ok. Qed.
Print Assumptions C03_reversed_crc32_any_chunking.

(** CRC-32 check value of "123456789". *)
Example C03_example :
  (c <- crc_updates rcrc_update (crc_new 0xEDB88320 0) [[49; 50; 51; 52]; [53; 54; 55; 56; 57]] ;;
   Ok (fst (crc_finalize c))) = Ok 0xCBF43926 /\
  crc32_reflected 0xEDB88320 0 [49; 50; 51; 52; 53; 54; 55; 56; 57] = 0xCBF43926.
Proof. vm_compute. auto. Qed.
