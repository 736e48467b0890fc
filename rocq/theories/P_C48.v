(** * C48: single byte code pages decode as the published mappings say *)
From Verif Require Import Base CodePages_model CodePages_tables CodePages_standard CodePages_spec CodePages_proofs.

Theorem C48_decodes_as_published : Forall (fun '(p, reference) => decodes_as p reference) reference_pages.
Proof. exact pages_reference. Qed.
Print Assumptions C48_decodes_as_published.

Example C48_example : length reference_pages = 32%nat /\ decodes_as koi8_r std_koi8_r.
Proof.
  split; [reflexivity|]. pose proof C48_decodes_as_published as H. rewrite Forall_forall in H.
  apply (H (koi8_r, std_koi8_r)). cbn. tauto.
Qed.
