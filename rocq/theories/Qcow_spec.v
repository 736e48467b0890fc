(** * What a QCOW image shows *)
From Verif Require Import Base Streams_spec Part_spec Image_spec Vhd_spec.

(** ** The header *)
Definition qcow_version (file : list N) : N := field_be file 4 4.
Definition qcow_cluster_bits (file : list N) : N :=
  if qcow_version file =? 1 then field_be file 32 1 else field_be file 20 4.
Definition qcow_cluster_size (file : list N) : N := 2 ^ qcow_cluster_bits file.
(** Entries of a level 2 table: one cluster of them from version 2 on. *)
Definition qcow_l2_bits (file : list N) : N :=
  if qcow_version file =? 1 then field_be file 33 1 else qcow_cluster_bits file - 3.
Definition qcow_media_size (file : list N) : N := field_be file 24 8.
Definition qcow_encryption (file : list N) : N :=
  if qcow_version file =? 1 then field_be file 36 4 else field_be file 32 4.
(** What a level 2 table stands for, and the number of entries of the level 1 table. *)
Definition qcow_l1_range (file : list N) : N := 2 ^ (qcow_cluster_bits file + qcow_l2_bits file).
Definition qcow_l1_entries (file : list N) : N :=
  if qcow_version file =? 1 then (qcow_media_size file + qcow_l1_range file - 1) / qcow_l1_range file else field_be file 36 4.
Definition qcow_l1_offset (file : list N) : N := field_be file 40 8.
Definition qcow_header_size (file : list N) : N :=
  if qcow_version file =? 1 then 48 else if qcow_version file =? 2 then 72 else field_be file 100 4.
Definition qcow_name_offset (file : list N) : N := field_be file 8 8.
Definition qcow_name_size (file : list N) : N := field_be file 16 4.
Definition qcow_has_backing (file : list N) : bool :=
  if qcow_name_offset file =? 0 then false else negb (qcow_name_size file =? 0).
Definition qcow_name (file : list N) : list N := before_zero (bytes_at file (qcow_name_offset file) (qcow_name_size file)).
(** The size in clusters. *)
Definition qcow_clusters (file : list N) : N := (qcow_media_size file + qcow_cluster_size file - 1) / qcow_cluster_size file.

Definition qcow_header_ok (file : list N) : Prop :=
  112 <= len file /\ bytes_at file 0 4 = [0x51; 0x46; 0x49; 0xfb] /\
  (qcow_version file = 1 /\ qcow_l1_entries file < 0x100000000 \/
   qcow_version file = 2 /\ 9 <= qcow_cluster_bits file \/
   qcow_version file = 3 /\ 9 <= qcow_cluster_bits file /\
     field_be file 72 8 <= 1 /\ field_be file 80 8 <= 1 /\ (field_be file 100 4 = 104 \/ field_be file 100 4 = 112)) /\
  qcow_cluster_bits file + qcow_l2_bits file <= 63 /\
  qcow_clusters file * qcow_cluster_size file < two64 /\
  (qcow_has_backing file = true ->
     qcow_header_size file <= qcow_name_offset file /\ qcow_name_size file <= 65536 /\
     qcow_name_offset file + qcow_name_size file <= len file) /\
  qcow_encryption file = 0.

(** ** One file *)
(** The offset in an entry of a table: bits 0 to 62 in version 1, 9 to 55 later. *)
Definition qcow_offset (file : list N) (e : N) : N :=
  if qcow_version file =? 1 then e mod 2 ^ 63 else e mod 2 ^ 56 / 512 * 512.
Definition qcow_l1_entry (file : list N) (x : N) : N :=
  field_be file (qcow_l1_offset file + 8 * (x / qcow_l1_range file)) 8.
Definition qcow_l2_entry (file : list N) (x : N) : N :=
  field_be file (qcow_offset file (qcow_l1_entry file x) + 8 * (x mod qcow_l1_range file / qcow_cluster_size file)) 8.
(** Bit 0 of an entry of version 3 says that the cluster reads as zeros. Compressed clusters
    are left out. *)
Definition qcow_zero (file : list N) (e : N) : bool := if qcow_version file =? 3 then N.testbit e 0 else false.
Definition qcow_byte (file : list N) (backing : N -> N) (x : N) : N :=
  let unmapped := if qcow_has_backing file then backing x else 0 in
  if qcow_offset file (qcow_l1_entry file x) =? 0 then unmapped
  else if qcow_zero file (qcow_l2_entry file x) then 0
  else if qcow_offset file (qcow_l2_entry file x) =? 0 then unmapped
  else file_byte file (qcow_offset file (qcow_l2_entry file x) + x mod qcow_cluster_size file).
(** A backing file shows zeros past its end. *)
Fixpoint qcow_disk (files : list (list N)) (x : N) : N :=
  match files with
  | [] => 0
  | file :: files => if x <? qcow_media_size file then qcow_byte file (qcow_disk files) x else 0
  end.

(** ** The files of an image: each names the next one *)
Inductive qcow_chain (resolver : list N -> option (list N)) : list N -> list (list N) -> Prop :=
| qcow_last name file : resolver name = Some file -> qcow_header_ok file -> qcow_has_backing file = false ->
    qcow_chain resolver name [file]
| qcow_more name file files : resolver name = Some file -> qcow_header_ok file -> qcow_has_backing file = true ->
    qcow_chain resolver (qcow_name file) files -> qcow_chain resolver name (file :: files).

(** ** Complete files *)
(** An entry without flags: in version 1 that of compression is the highest bit; later only
    the highest, which says that there is one reference, may be set. *)
Definition qcow_entry_plain (file : list N) (e : N) : Prop :=
  if qcow_version file =? 1 then e < 2 ^ 63 else e mod 2 ^ 63 < 2 ^ 56 /\ e mod 512 = 0.
(** The tables and the data of the clusters, up to the end of the media, are in the file. *)
Definition qcow_complete (file : list N) : Prop :=
  qcow_l2_bits file < 32 /\
  forall x, x < qcow_media_size file ->
    x / qcow_l1_range file < qcow_l1_entries file /\
    qcow_l1_offset file + 8 * (x / qcow_l1_range file) + 8 <= len file /\
    qcow_entry_plain file (qcow_l1_entry file x) /\
    (qcow_offset file (qcow_l1_entry file x) <> 0 ->
       qcow_offset file (qcow_l1_entry file x) + 8 * (x mod qcow_l1_range file / qcow_cluster_size file) + 8 <= len file /\
       qcow_entry_plain file (qcow_l2_entry file x) /\
       (qcow_offset file (qcow_l2_entry file x) <> 0 ->
          qcow_offset file (qcow_l2_entry file x) + x mod qcow_cluster_size file < len file)).
(** All level 2 tables are there. *)
Definition qcow_l2_tables (file : list N) : Prop :=
  forall x, x < qcow_media_size file -> qcow_offset file (qcow_l1_entry file x) <> 0.
Fixpoint qcow_sizes (files : list (list N)) : Prop :=
  match files with
  | file :: ((file' :: _) as rest) => qcow_media_size file <= qcow_media_size file' /\ qcow_sizes rest
  | _ => True
  end.
