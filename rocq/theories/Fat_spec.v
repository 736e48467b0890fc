(** * FAT: entries, chains and file content *)
From Verif Require Import Base Streams_spec Fat_model.

(** Entries are packed one after the other, least significant bits first: entry [i] of a
    table is the number in the bits from [slot * i] on, [value] of them. *)
Definition slot_bits (f : fat_format) : N := match f with Fat12 => 12 | Fat16 => 16 | Fat32 => 32 end.
(** The four upper bits of an entry of FAT32 are reserved. *)
Definition value_bits (f : fat_format) : N := match f with Fat12 => 12 | Fat16 => 16 | Fat32 => 28 end.
Definition bits_at (bytes : list N) (position count : N) : N := le_value bytes / 2 ^ position mod 2 ^ count.
Definition fat_entry (f : fat_format) (table : list N) (i : N) : N :=
  bits_at table (slot_bits f * i) (value_bits f).
(** The reserved bits of entry [i] are zero. *)
Definition reserved_clear (f : fat_format) (table : list N) (i : N) : Prop :=
  bits_at table (slot_bits f * i) (slot_bits f) < 2 ^ value_bits f.

(** The numbers that end a chain. *)
Definition end_of_chain (f : fat_format) (c : N) : Prop :=
  match f with Fat12 => 0xff8 | Fat16 => 0xfff8 | Fat32 => 0x0ffffff8 end <= c.
(** The cluster numbers that can be data: from 2 up to the reserved ones. *)
Definition data_cluster (f : fat_format) (c : N) : Prop :=
  2 <= c < match f with Fat12 => 0xff0 | Fat16 => 0xfff0 | Fat32 => 0x0ffffff0 end.
(** [chain f entry start clusters]: from [start] the entries lead through exactly the
    clusters, in that order, to an end. *)
Inductive chain (f : fat_format) (entry : N -> N) : N -> list N -> Prop :=
| chain_end c : end_of_chain f c -> chain f entry c []
| chain_next c clusters : data_cluster f c -> chain f entry (entry c) clusters ->
    chain f entry c (c :: clusters).

(** The cluster numbers met from [start] on. *)
Fixpoint steps (entry : N -> N) (start : N) (k : nat) : N :=
  match k with O => start | S k => entry (steps entry start k) end.

(** The bytes of the clusters in the order of the chain, the first cluster of a volume
    having number 2, cut at the size of the file. *)
Definition file_content (volume : list N) (first_cluster_offset cluster_size : N) (clusters : list N)
    (size : N) : list N :=
  bytes_at (flat_map (fun c => bytes_at volume (first_cluster_offset + (c - 2) * cluster_size) cluster_size)
    clusters) 0 size.
