(** * C49: Apple Partition Maps *)
From Verif Require Import Base BaseLemmas Streams_spec Blocks_model Part_model Part_spec Part_proofs Fat_proofs.
Ltac Zify.zify_post_hook ::= idtac.

(** What is given out for a partition: offset, size, and the name, type and flags of its entry. *)
Definition apm_reported (entries : list apm_entry) (i : N) : res (N * N * list N * list N * N) :=
  '(offset, size) <- apm_partition_at entries i ;;
  e <- of_option (nth_error entries (N.to_nat i)) ;;
  Ok (offset, size, ae_name e, ae_type e, ae_flags e).

(** Every disk: a partition map is accepted exactly if each of its entries has the signature
    and the number of entries of the first, which describes the map; its partitions are then
    the other entries, in order. Reading never panics. *)
Theorem C49_partitions :
  forall volume, wf_bytes volume -> len volume < two64 ->
  (exists n entries, apm_map volume n /\ apm_read volume = Ok entries /\
     gives (apm_reported entries) (map (apm_described volume) (seqN 1 (N.to_nat (n - 1))))) \/
  ((forall n, ~ apm_map volume n) /\ apm_read volume = Err).
Proof.
  intros volume Hw Hl. destruct (apm_read_ok volume Hw Hl) as [[H E]|H]; [left|right; exact H].
  eexists _, _. split; [exact H|]. split; [exact E|]. intros i. unfold apm_reported, apm_partition_at.
  rewrite !nth_error_map. destruct (nth_error (seqN 1 _) (N.to_nat i)) as [j|]; cbn [option_map of_option bind]; [|reflexivity].
  assert (B : forall o, field_be (apm_sector volume j) o 4 < two32).
  { intros o. eapply N.lt_le_trans; [apply field_be_bound, wf_bytes_at, Hw|]. vm_compute. discriminate. }
  unfold apm_fields at 1 2. cbn [ae_start ae_sectors ae_name ae_type ae_flags apm_fields].
  destruct (mul_chk_shape (field_be (apm_sector volume j) 8 4) 512) as [[-> _]|[_ Hge]].
  2:{ pose proof (B 8). unfold two32, two64 in *. lia. }
  destruct (mul_chk_shape (field_be (apm_sector volume j) 12 4) 512) as [[-> _]|[_ Hge]].
  2:{ pose proof (B 12). unfold two32, two64 in *. lia. }
  reflexivity.
Qed.
Print Assumptions C49_partitions.

(** A map of two entries on a disk of three sectors. *)
Definition pad n (l : list N) : list N := l ++ repeat 0 (n - length l).
Definition sector (number start count : N) (name type : list N) : list N :=
  pad 512 ([0x50; 0x4d; 0; 0] ++ be_bytes 4 number ++ be_bytes 4 start ++ be_bytes 4 count ++ pad 32 name ++ pad 32 type).
Definition disk : list N := repeat 0 512 ++ sector 2 1 2 [0x41] apm_text ++ sector 2 3 5 [0x42; 0x43] [0x44].
Example C49_case : wf_bytes disk /\ apm_map disk 2 /\ apm_described disk 1 = (1536, 2560, [0x42; 0x43], [0x44], 0).
Proof.
  split; [apply wf_bytesb_iff; vm_compute; reflexivity|]. split; [|vm_compute; reflexivity].
  assert (H0 : apm_entry_ok disk 2 0) by (split; [vm_compute; discriminate|split; vm_compute; reflexivity]).
  assert (H1 : apm_entry_ok disk 2 1) by (split; [vm_compute; discriminate|split; vm_compute; reflexivity]).
  split; [assumption|]. split; [vm_compute; reflexivity|]. intros i Hi.
  destruct (N.eq_dec i 0) as [->|]; [assumption|]. replace i with 1 by lia. assumption.
Qed.
