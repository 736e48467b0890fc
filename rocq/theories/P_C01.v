(** * C01: Adler-32 is the RFC 1950 checksum, independent of chunking *)
From Verif Require Import Base Checksums_model Checksums_spec Checksums_proofs.

(** Any initial value, any split of any data into [update] calls: no panic, the
    result is the RFC 1950 checksum of the concatenation and [finalize] leaves a
    context equal to a freshly created one. *)
Theorem C01_adler32_any_chunking :
  forall initial chunks, initial < 2 ^ 32 -> Forall wf_bytes chunks ->
  exists c, adler_updates (adler_new initial) chunks = Ok c /\
    adler_finalize c = (adler32 initial (concat chunks), adler_new initial).
Proof. exact adler_run_ok. Qed.
Print Assumptions C01_adler32_any_chunking.

(** With the standard initial value 1 this is the closed form of RFC 1950. *)
Theorem C01_adler32_standard :
  forall chunks, Forall wf_bytes chunks ->
  exists c, adler_updates (adler_new 1) chunks = Ok c /\
    fst (adler_finalize c) = adler32_closed (concat chunks).
Proof. exact adler_standard. Qed.
Print Assumptions C01_adler32_standard.

(** "Wikipedia" in two chunks, the published value 0x11E60398. *)
Example C01_example :
  Forall wf_bytes [[87; 105; 107; 105]; []; [112; 101; 100; 105; 97]] /\
  adler32 1 (concat [[87; 105; 107; 105]; []; [112; 101; 100; 105; 97]]) = 0x11E60398 /\
  (c <- adler_updates (adler_new 1) [[87; 105; 107; 105]; []; [112; 101; 100; 105; 97]] ;;
   Ok (adler_finalize c)) = Ok (0x11E60398, adler_new 1).
Proof. vm_compute. repeat split; repeat constructor. Qed.
