(** * What the header structures of storage media images and partition tables hold *)
From Verif Require Import Base Uuid_model Checksums_spec Streams_spec Part_spec Part_model Ext_model Sparse_model Vhd_model Qcow_model Udif_model Ewf_model Headers_spec.

(** ** QCOW *)
Definition qcow_magic (data : list N) : bool := has data 0 [0x51; 0x46; 0x49; 0xfb].
Definition qcow_v1_ok (data : list N) : bool :=
  (48 <=? len data) && qcow_magic data && (field_be data 4 4 =? 1) && (byte data 32 <=? 63) && (byte data 33 <=? 63).
Definition qcow_v1_of (data : list N) : qcow_header :=
  {| qh_version := 1; qh_size := 48; qh_l1_entries := 0; qh_l1_offset := field_be data 40 8; qh_l2_bits := byte data 33;
     qh_cluster_bits := byte data 32; qh_media_size := field_be data 24 8; qh_encryption := field_be data 36 4;
     qh_backing_offset := field_be data 8 8; qh_backing_size := field_be data 16 4 |}.
Definition qcow_bits_ok (data : list N) : bool := (9 <=? field_be data 20 4) && (field_be data 20 4 <=? 63).
Definition qcow_v2_ok (data : list N) : bool :=
  (72 <=? len data) && qcow_magic data && (field_be data 4 4 =? 2) && qcow_bits_ok data.
Definition qcow_v23_of (version size : N) (data : list N) : qcow_header :=
  {| qh_version := version; qh_size := size; qh_l1_entries := field_be data 36 4; qh_l1_offset := field_be data 40 8;
     qh_l2_bits := field_be data 20 4 - 3; qh_cluster_bits := field_be data 20 4; qh_media_size := field_be data 24 8;
     qh_encryption := field_be data 32 4; qh_backing_offset := field_be data 8 8; qh_backing_size := field_be data 16 4 |}.
(** No features but the first of each set. *)
Definition qcow_v3_ok (data : list N) : bool :=
  (104 <=? len data) && qcow_magic data && (field_be data 4 4 =? 3) && (field_be data 72 8 <=? 1) && (field_be data 80 8 <=? 1) &&
  qcow_bits_ok data && one_of [104; 112] (field_be data 100 4).
Definition qcow_v3_of (data : list N) : qcow_header := qcow_v23_of 3 (field_be data 100 4) data.

(** ** VHD *)
Definition vhd_footer_ok (data : list N) : bool :=
  (len data =? 512) && has data 0 [0x63; 0x6f; 0x6e; 0x65; 0x63; 0x74; 0x69; 0x78] && (field_be data 12 4 =? 0x10000) &&
  ((field_be data 60 4 =? 2) && (field_be data 16 8 =? 2 ^ 64 - 1) ||
   one_of [3; 4] (field_be data 60 4) && (512 <=? field_be data 16 8)).
Definition vhd_footer_of (data : list N) : N * N * N * list N :=
  (field_be data 16 8, field_be data 40 8, field_be data 60 4, bytes_at data 68 16).
Fixpoint pairs_be (l : list N) : list N :=
  match l with a :: b :: l => (256 * a + b) :: pairs_be l | _ => [] end.
Definition vhd_header_ok (data : list N) : bool :=
  (len data =? 1024) && has data 0 [0x63; 0x78; 0x73; 0x70; 0x61; 0x72; 0x73; 0x65] && (field_be data 24 4 =? 0x10000) &&
  (field_be data 8 8 =? 2 ^ 64 - 1) && (1 <=? field_be data 32 4).
Definition vhd_header_of (data : list N) : vhd_dynamic_header :=
  {| vh_table_offset := field_be data 16 8; vh_number_of_blocks := field_be data 28 4; vh_block_size := field_be data 32 4;
     vh_parent_identifier := bytes_at data 40 16; vh_parent_name := up_to_zero (pairs_be (bytes_at data 64 512)) |}.

(** ** UDIF and sparse images *)
Definition udif_footer_ok (data : list N) : bool :=
  (len data =? 512) && has data 0 [0x6b; 0x6f; 0x6c; 0x79] && (field_be data 4 4 =? 4).
Definition udif_footer_of (data : list N) : N * N * N * N :=
  (field_be data 24 8, field_be data 32 8, field_be data 216 8, field_be data 224 8).
Definition udif_entry_of (data : list N) : udif_entry :=
  {| ue_type := field_be data 0 4; ue_start := field_be data 8 8; ue_sectors := field_be data 16 8;
     ue_offset := field_be data 24 8; ue_size := field_be data 32 8 |}.
Definition udif_table_header_ok (data : list N) : bool :=
  has data 0 [0x6d; 0x69; 0x73; 0x68] && (field_be data 4 4 =? 1).
Definition udif_table_header_of (data : list N) : N * N := (field_be data 8 8, field_be data 200 4).
(** A table and all of its entries are in the data; what follows them does not matter. *)
Definition udif_table_ok (data : list N) : bool :=
  udif_table_header_ok data && (204 + 40 * field_be data 200 4 <=? len data).
Definition udif_table_of (data : list N) : N * list udif_entry :=
  (field_be data 8 8, map udif_entry_of (pieces data 204 40 (field_be data 200 4))).
Definition sparse_header_ok (data : list N) : bool :=
  (len data =? 64) && has data 0 [0x73; 0x70; 0x72; 0x73] && (1 <=? field_be data 8 4).
Definition sparse_header_of (data : list N) : N * N := (field_be data 8 4, field_be data 16 4).

(** ** EWF *)
(** The last 4 of [n + 4] bytes are the Adler-32 checksum of the others. *)
Definition ewf_sum (data : list N) (o n : N) : bool := field data (o + n) 4 =? adler32 1 (bytes_at data o n).
Definition ewf_file_header_ok (data : list N) : bool :=
  (13 <=? len data) && has data 0 [0x45; 0x56; 0x46; 0x09; 0x0d; 0x0a; 0xff; 0x00] && has data 8 [1] && has data 11 [0; 0].
Definition ewf_section_ok (data : list N) : bool := (76 <=? len data) && ewf_sum data 0 72.
Definition ewf_section_of (data : list N) : ewf_section :=
  {| es_type := bytes_at data 0 16; es_next := field data 16 8; es_size := field data 24 8 |}.
Definition ewf_table_header_ok (data : list N) : bool := (24 <=? len data) && ewf_sum data 0 20.
Definition ewf_table_header_of (data : list N) : N * N := (field data 0 4, field data 8 8).
Definition ewf_table_ok (data : list N) : bool :=
  ewf_table_header_ok data && ewf_sum data 24 (4 * field data 0 4).
(** The entries and their checksum are in the data. *)
Definition ewf_table_fits (data : list N) : Prop := 24 + 4 * field data 0 4 + 4 <= len data.
Definition ewf_table_of (data : list N) : N * list N :=
  (field data 8 8, map (fun i => field data (24 + 4 * i) 4) (seqN 0 (N.to_nat (field data 0 4)))).
Definition ewf_volume_of (identifier : list N) (data : list N) : ewf_volume :=
  {| ev_chunks := field data 4 4; ev_sectors_per_chunk := field data 8 4; ev_bytes_per_sector := field data 12 4;
     ev_sectors := field data 16 4; ev_identifier := identifier |}.

(** ** Partition tables *)
Definition mbr_entry_of (data : list N) : mbr_entry :=
  {| me_index := 0; me_flags := byte data 0; me_type := byte data 4; me_start := field data 8 4; me_sectors := field data 12 4 |}.
Definition boot_record_ok (data : list N) : bool := (len data =? 512) && has data 510 [0x55; 0xaa].
Definition boot_record_of (data : list N) : N * list mbr_entry :=
  (field data 440 4, map mbr_entry_of (pieces data 446 16 4)).
Definition gpt_header_ok (data : list N) : bool :=
  (len data =? 92) && has data 0 [0x45; 0x46; 0x49; 0x20; 0x50; 0x41; 0x52; 0x54] && (field data 8 4 =? 0x10000) &&
  (field data 12 4 =? 92) &&
  ((field data 16 4 =? 0) || (field data 16 4 =? crc32 (bytes_at data 0 16 ++ [0; 0; 0; 0] ++ bytes_at data 20 72))).
Definition gpt_header_of (data : list N) : gpt_header :=
  {| gh_backup := field data 32 8; gh_area_start := field data 40 8; gh_area_end := field data 48 8; gh_disk := uuid_le data 56;
     gh_entries_start := field data 72 8; gh_number := field data 80 4; gh_entry_size := field data 84 4; gh_checksum := field data 88 4 |}.
Definition gpt_entry_of (index : N) (data : list N) : gpt_entry :=
  {| ge_index := index; ge_type := uuid_le data 0; ge_identifier := uuid_le data 16; ge_start := field data 32 8;
     ge_end := field data 40 8; ge_flags := field data 48 8; ge_name := text16 data 56 72 |}.
Definition apm_entry_ok (data : list N) : bool := (len data =? 512) && has data 0 [0x50; 0x4d].
Definition apm_entry_of (data : list N) : apm_entry :=
  {| ae_number := field_be data 4 4; ae_start := field_be data 8 4; ae_sectors := field_be data 12 4;
     ae_name := up_to_zero (bytes_at data 16 32); ae_type := up_to_zero (bytes_at data 48 32); ae_flags := field_be data 88 4 |}.

(** ** ext extents *)
Definition extents_header_ok (data : list N) : bool := (len data =? 12) && has data 0 [0x0a; 0xf3] && (field data 6 2 <=? 5).
Definition extents_header_of (data : list N) : N * N := (field data 2 2, field data 6 2).
Definition extent_index_of (data : list N) : N := field data 4 4 + 2 ^ 32 * field data 8 2.
Definition extent_descriptor_of (data : list N) : N * N * N :=
  (field data 0 4, field data 4 2, field data 8 4 + 2 ^ 32 * field data 6 2).
