(** * The decompressors of UDIF images: keramics-formats/src/udif/file.rs 466-523 *)
From Verif Require Import Base Udif_model.
From Verif Require Bzip2_model Lzfse_model.

(** bzip2, file.rs 480-493, and LZFSE, file.rs 494-507, into a buffer of zeros. LZFSE data
    gets a round of the loop for every byte and one more; data of which the loop goes on
    after that, which there is by [C56_ends_refuted], is a panic here. *)
Definition udif_other (method : N) (data : list N) (size : N) : res (list N) :=
  if method =? 0x80000006 then
    '(buf, _) <- Bzip2_model.bzip2_decompress data (repeat 0 (N.to_nat size)) ;; Ok buf
  else
    '(buf, _) <- Lzfse_model.lzfse_decompress (S (length data)) data (repeat 0 (N.to_nat size)) ;; Ok buf.
(** file.rs 466-523. LZMA (508-511) cannot be reached: no type of an entry stands for it. *)
Definition udif_codec : N -> list N -> N -> res (list N) := udif_decompress udif_other.
