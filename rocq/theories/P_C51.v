(** * C51: ext inodes are decoded as the format says *)
From Verif Require Import Base BaseLemmas Bytes_model Streams_spec Part_spec Strings_model Ext_model Headers_model Headers_spec Headers_proofs.
From Verif Require Import ExtFs_model ExtFs_spec ExtFs_proofs.
Ltac Zify.zify_post_hook ::= idtac.

(** Every inode of 128 bytes, or of 152 and more, of ext2, ext3 and ext4: owner, group, size,
    links, flags, checksum and the times that are shown are those at their places; the only
    error is a list of attributes that is not one. *)
Theorem C51_inode_partial :
  forall version data, buffer data -> len data = 128 \/ 152 <= len data ->
  (forall k, inode_attributes data k -> ext_inode_read version data = Ok (ext_inode_of version data k)) /\
  ((forall k, ~ inode_attributes data k) -> ext_inode_read version data = Err).
Proof. exact inode_exact. Qed.
Print Assumptions C51_inode_partial.

(** Fewer bytes are no inode. *)
Theorem C51_too_short :
  forall version data, buffer data -> len data < 128 -> ext_inode_read version data = Err.
Proof. intros v data Hb. apply (proj1 (inode_read_ok v data Hb)). Qed.
Print Assumptions C51_too_short.

(** Missing: no inode of 129 to 151 bytes is decoded with certainty. One of 129 bytes makes the
    reader panic, whatever the bytes. *)
Theorem C51_sizes_refuted :
  forall version data, buffer data -> len data = 129 -> ext_inode_read version data = Panic.
Proof.
  intros v data Hb Hl. unfold ext_inode_read. rewrite first_inode_ok by (try assumption; lia). cbn [bind].
  destruct (N.ltb_spec 128 (len data)); [|lia]. rewrite slice_at by lia. cbn [bind]. unfold ext_extension_read, u16_le.
  rewrite u_le_outside by (rewrite Streams_proofs.len_bytes_at; lia). reflexivity.
Qed.
Print Assumptions C51_sizes_refuted.

(** ** What is not shown *)
(** An inode of 256 bytes: size 5 GiB, access time -1 (one second before 1970), change and
    creation time 2 ^ 31 (in 2038): the lower 32 bits are negative, the extra bits say so. *)
Definition late_inode : list N := Eval vm_compute in
  le_bytes 2 0x81a4 ++ le_bytes 2 1000 ++ le_bytes 4 (2 ^ 30) ++
  le_bytes 4 (2 ^ 32 - 1) ++ le_bytes 4 (2 ^ 31) ++ le_bytes 4 1700000000 ++ le_bytes 4 0 ++
  le_bytes 2 1000 ++ le_bytes 2 1 ++ le_bytes 4 8 ++ le_bytes 4 0 ++ le_bytes 4 0 ++
  repeat 7 60 ++ le_bytes 4 0 ++ le_bytes 4 0 ++ le_bytes 4 1 ++ repeat 0 16 ++
  le_bytes 2 32 ++ le_bytes 2 0 ++ le_bytes 4 1 ++ le_bytes 4 (4 * 123456789) ++ le_bytes 4 0 ++
  le_bytes 4 (2 ^ 31) ++ le_bytes 4 1 ++ repeat 0 104.
Example C51_example : buffer late_inode /\ len late_inode = 256 /\ inode_attributes late_inode 0 /\
  exists i, ext_inode_read 4 late_inode = Ok i /\ xi_size i = 5 * 2 ^ 30 /\ xi_owner i = 1000 /\ xi_mode i = 0x81a4 /\
    xi_change i = TPosix64Ns (2 ^ 31) 0 /\ xi_modification i = TPosix64Ns 1700000000 123456789 /\ xi_reference i = repeat 7 60.
Proof.
  split; [split; [apply wf_bytesb_iff; vm_compute; reflexivity|vm_compute; reflexivity]|]. split; [vm_compute; reflexivity|].
  split; [vm_compute; reflexivity|]. eexists. split; [vm_compute; reflexivity|]. repeat split.
Qed.

(** On ext2 and ext3 the size of every file is cut to 32 bits: this one has 5 GiB and shows 1. *)
Theorem C51_large_files_refuted :
  (forall version data i, buffer data -> version <> 4 -> ext_inode_read version data = Ok i -> xi_size i < 2 ^ 32) /\
  exists i, ext_inode_read 3 late_inode = Ok i /\ xi_size i = 2 ^ 30.
Proof.
  split; [|eexists; split; vm_compute; reflexivity].
  intros v data i Hb Hv E. destruct (inode_read_ok v data Hb) as [H1 H2].
  destruct (N.le_gt_cases 128 (len data)) as [Hl|Hl]; [|rewrite H1 in E by exact Hl; discriminate].
  destruct (H2 Hl) as [(_ & R)|[(k & _ & R)|(_ & R)]]; rewrite R in E; try discriminate.
  injection E as <-. cbn [xi_size ext_inode_of]. destruct (N.eqb_spec v 4); [contradiction|]. rewrite N.add_0_r. now apply field4_lt.
Qed.
Print Assumptions C51_large_files_refuted.

(** A file created in 2038 or later has no creation time, though the same moment is shown as its
    change time; a time before 1970 is not set. *)
Theorem C51_times_refuted :
  exists i, ext_inode_read 4 late_inode = Ok i /\
    field late_inode 144 4 = field late_inode 12 4 /\ field late_inode 148 4 = field late_inode 132 4 /\
    seconds (field late_inode 144 4) (field late_inode 148 4) = (2 ^ 31)%Z /\
    xi_change i = TPosix64Ns (2 ^ 31) 0 /\ xi_creation i = None /\
    seconds (field late_inode 8 4) (field late_inode 140 4) = (-1)%Z /\ xi_access i = TNotSet.
Proof. eexists. split; [vm_compute; reflexivity|]. repeat split; vm_compute; reflexivity. Qed.
Print Assumptions C51_times_refuted.

(** Attributes: an inode with two of them. *)
Definition attributes_inode : list N := Eval vm_compute in
  firstn 160 late_inode ++ [0; 0; 2; 0xea] ++
  [3; 1] ++ repeat 9 14 ++ [0x61; 0x62; 0x63] ++ [0] ++ [8; 6] ++ repeat 9 14 ++ repeat 0x61 8 ++ repeat 0 48.
Example C51_attributes_example : len attributes_inode = 256 /\
  exists i, ext_inode_read 4 attributes_inode = Ok i /\ xi_attributes i = 2.
Proof. split; [vm_compute; reflexivity|]. eexists. split; vm_compute; reflexivity. Qed.
