(** * Model of NTFS junction reparse data *)
From Verif Require Import Base Bytes_model Strings_model.
Open Scope N_scope. Open Scope list_scope.

(** keramics-formats/src/ntfs/junction_reparse_data.rs 30-36 [NtfsJunctionReparseData]: the
    elements of the substitute name and of the display name *)
Record junction := { jn_substitute : list N; jn_display : list N }.
(** junction_reparse_data.rs 40-45 [new] *)
Definition junction_new : junction := {| jn_substitute := []; jn_display := [] |}.

(** junction_reparse_data.rs 56-74 and 76-94: one of the two names; sums of 16-bit numbers
    do not overflow. [elements] is what the name already holds. *)
Definition junction_name_read (elements data : list N) (name_offset name_size : N)
  : res (list N) :=
  let data_offset := name_offset + 8 in
  check (data_offset <? len data) ;;;
  let data_end_offset := data_offset + name_size in
  check (data_end_offset <=? len data) ;;;
  name <- slice data data_offset data_end_offset ;;
  ucs2_read_data_le elements name.

(** junction_reparse_data.rs 48-97 [read_data]: what becomes of the value; when it fails the
    value is not used. *)
Definition junction_read_data (value : junction) (data : list N) : res junction :=
  check (8 <=? len data) ;;;
  substitute_name_offset <- u16_le data 0 ;;
  substitute_name_size <- u16_le data 2 ;;
  substitute <- junction_name_read (jn_substitute value) data substitute_name_offset substitute_name_size ;;
  display_name_offset <- u16_le data 4 ;;
  display_name_size <- u16_le data 6 ;;
  display <- junction_name_read (jn_display value) data display_name_offset display_name_size ;;
  Ok {| jn_substitute := substitute; jn_display := display |}.
