(** * The readers of QCOW headers, on their own

    [qcow_header_read] of Qcow_model gives them 112 bytes; here they have any buffer. *)
From Verif Require Import Base Bytes_model Vhd_model Qcow_model.

(** qcow/file_header_v1.rs 44-81 [read_data] *)
Definition qcow_v1_read_data (data : list N) : res qcow_header :=
  check (48 <=? len data) ;;;
  signature <- slice data 0 4 ;;
  check (same_bytes signature qcow_signature) ;;;
  version <- slice data 4 8 ;;
  check (same_bytes version [0; 0; 0; 1]) ;;;
  qcow_header_v1 data.
(** qcow/file_header_v2.rs 46-81 [read_data]. Here and below the snapshots are left out, as in
    Qcow_model, and the header size and level 2 bits are those of file_header.rs 153-154 and 171. *)
Definition qcow_v2_read_data (data : list N) : res qcow_header :=
  check (72 <=? len data) ;;;
  signature <- slice data 0 4 ;;
  check (same_bytes signature qcow_signature) ;;;
  version <- slice data 4 8 ;;
  check (same_bytes version [0; 0; 0; 2]) ;;;
  qcow_header_v23 2 72 data.
(** qcow/file_header_v3.rs 53-114 [read_data] *)
Definition qcow_v3_read_data (data : list N) : res qcow_header :=
  check (104 <=? len data) ;;;
  signature <- slice data 0 4 ;;
  check (same_bytes signature qcow_signature) ;;;
  version <- slice data 4 8 ;;
  check (same_bytes version [0; 0; 0; 3]) ;;;
  incompatible_feature_flags <- u64_be data 72 ;;
  check (N.ldiff incompatible_feature_flags 1 =? 0) ;;;
  compatible_feature_flags <- u64_be data 80 ;;
  check (N.ldiff compatible_feature_flags 1 =? 0) ;;;
  header_size <- u32_be data 100 ;;
  compression_method <- idx data 104 ;;
  header <- qcow_header_v23 3 header_size data ;;
  check ((header_size =? 104) || (header_size =? 112)) ;;;
  Ok header.
