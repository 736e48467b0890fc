(** * C04: digests do not depend on the split into update calls; contexts are reusable *)
From Verif Require Import Base Hash_model Hash_transform_proofs.

(** [hash_run c chunks] is: update with every chunk, then finalize; the result is
    the digest and the context left by finalize. *)
Theorem C04_digest_chunk_independent :
  forall a, In a [md5_alg; sha1_alg; sha224_alg; sha256_alg; sha512_alg] ->
  forall chunks1 chunks2,
  concat chunks1 = concat chunks2 -> len (concat chunks1) < 2 ^ 61 ->
  hash_run a (hash_new a) chunks1 = hash_run a (hash_new a) chunks2 /\
  exists digest, hash_run a (hash_new a) chunks1 = Ok (digest, hash_new a).
Proof. exact all_chunk_independent. Qed.
Print Assumptions C04_digest_chunk_independent.

(** A block filled exactly by the first chunk, then an empty chunk, then more. *)
Example C04_example :
  concat [repeat 1 64; []; [2; 3]] = concat [repeat 1 60; [1; 1; 1; 1; 2]; [3]] /\
  len (concat [repeat 1 64; []; [2; 3]]) < 2 ^ 61 /\
  is_ok (hash_run md5_alg (hash_new md5_alg) [repeat 1 64; []; [2; 3]]) = true.
Proof. vm_compute. auto. Qed.
