(** * keramics-types/src/macros.rs: reading integers from a byte array *)
From Verif Require Import Base.

(** [uN::from_be_bytes(<[u8; n]>::try_from(&array[element..element + n]).unwrap())]
    macros.rs:63-68 (u16), 79-84 (u32), 95-100 (u64). [element + n] is [usize]
    arithmetic. [from_be_bytes] is the big-endian value of the slice; [try_from]
    cannot fail since the slice has [n] bytes. *)
Definition bytes_to_uint_be (n : N) (array : list N) (element : N) : res N :=
  end_ <- add_chk two64 element n ;;
  s <- slice array element end_ ;;
  Ok (be_value s).
(** macros.rs:71-76 (u16), 87-92 (u32), 103-108 (u64) *)
Definition bytes_to_uint_le (n : N) (array : list N) (element : N) : res N :=
  end_ <- add_chk two64 element n ;;
  s <- slice array element end_ ;;
  Ok (le_value s).

(** Reinterpretation of an unsigned word of [n] bytes as a signed one. *)
Definition to_signed (n v : N) : Z :=
  if v <? 2 ^ (8 * n - 1) then Z.of_N v else (Z.of_N v - 2 ^ (8 * Z.of_N n))%Z.

(** [iN::from_be_bytes]: macros.rs:15-20 (i16), 31-36 (i32), 47-52 (i64) *)
Definition bytes_to_int_be (n : N) (array : list N) (element : N) : res Z :=
  v <- bytes_to_uint_be n array element ;; Ok (to_signed n v).
(** macros.rs:23-28 (i16), 39-44 (i32), 55-60 (i64) *)
Definition bytes_to_int_le (n : N) (array : list N) (element : N) : res Z :=
  v <- bytes_to_uint_le n array element ;; Ok (to_signed n v).

Definition u16_be := bytes_to_uint_be 2.
Definition u16_le := bytes_to_uint_le 2.
Definition u32_be := bytes_to_uint_be 4.
Definition u32_le := bytes_to_uint_le 4.
Definition u64_be := bytes_to_uint_be 8.
Definition u64_le := bytes_to_uint_le 8.
Definition i16_be := bytes_to_int_be 2.
Definition i16_le := bytes_to_int_le 2.
Definition i32_be := bytes_to_int_be 4.
Definition i32_le := bytes_to_int_le 4.
Definition i64_be := bytes_to_int_be 8.
Definition i64_le := bytes_to_int_le 8.
