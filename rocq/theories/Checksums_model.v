(** * keramics-checksums: Adler-32 and CRC-32 contexts *)
From Verif Require Import Base.

(** ** Adler-32 *)

(** keramics-checksums/src/adler32.rs:19-25 [Adler32Context] *)
Record adler_ctx := { ad_initial : N; ad_checksum : N }.

(** adler32.rs:29-34 [new] *)
Definition adler_new (initial_value : N) : adler_ctx :=
  {| ad_initial := initial_value; ad_checksum := initial_value |}.

(** adler32.rs:37-43 [finalize]: returns the checksum and the context after the call *)
Definition adler_finalize (c : adler_ctx) : N * adler_ctx :=
  (ad_checksum c, {| ad_initial := ad_initial c; ad_checksum := ad_initial c |}).

(** adler32.rs:47-61 [mod_65521]; [u32] arithmetic with overflow checks *)
Definition mod_65521_fold (value : N) : res N :=
  let value_32bit := N.shiftr value 16 in
  let value := N.land value 0xffff in
  shifted <- shl_chk 32 value_32bit 4 ;;
  term <- sub_chk shifted value_32bit ;;
  add_chk two32 value term.

Definition mod_65521 (value : N) : res N :=
  value <- mod_65521_fold value ;;
  value <- (if 65521 <? value then mod_65521_fold value else Ok value) ;;
  if 65521 <=? value then sub_chk value 65521 else Ok value.

(** adler32.rs:73-74 and 83-84: one byte, [wrapping_add] *)
Definition adler_step (w : N * N) (byte : N) : N * N :=
  let '(lower, upper) := w in
  let lower := add32 lower byte in
  (lower, add32 upper lower).

(** adler32.rs:78-79, 88-89 *)
Definition adler_reduce (w : N * N) : res (N * N) :=
  lower <- mod_65521 (fst w) ;;
  upper <- mod_65521 (snd w) ;;
  Ok (lower, upper).

(** adler32.rs:70-80: the outer [while data_offset + 5552 < data_size] loop;
    [data] is the data from [data_offset] on; returns the unread rest. Fuel is
    the length of the data. *)
Fixpoint adler_blocks (fuel : nat) (data : list N) (w : N * N) : res (list N * (N * N)) :=
  match fuel with
  | O => Ok (data, w)
  | S fuel' =>
      if 5552 <? len data then
        w <- adler_reduce (fold_left adler_step (firstn (N.to_nat 5552) data) w) ;;
        adler_blocks fuel' (skipn (N.to_nat 5552) data) w
      else Ok (data, w)
  end.

(** adler32.rs:64-92 [update] *)
Definition adler_update (c : adler_ctx) (data : list N) : res adler_ctx :=
  let lower := N.land (ad_checksum c) 0xffff in
  let upper := N.shiftr (ad_checksum c) 16 in
  '(rest, w) <- adler_blocks (length data) data (lower, upper) ;;
  w <- (match rest with
        | [] => Ok w
        | _ => adler_reduce (fold_left adler_step rest w)
        end) ;;
  hi <- shl_chk 32 (snd w) 16 ;;
  Ok {| ad_initial := ad_initial c; ad_checksum := N.lor hi (fst w) |}.

(** A caller's use of the context: several [update] calls. *)
Fixpoint adler_updates (c : adler_ctx) (chunks : list (list N)) : res adler_ctx :=
  match chunks with
  | [] => Ok c
  | d :: rest => c' <- adler_update c d ;; adler_updates c' rest
  end.

(** ** CRC-32, both bit orders *)

(** keramics-checksums/src/crc32.rs:19-34 and 92-107 *)
Record crc_ctx := {
  crc_polynomial : N;
  crc_initial : N;
  crc_checksum : N;
  crc_table : list N;
  crc_table_initialized : bool
}.

(** crc32.rs:38-46 and 110-119 [new] *)
Definition crc_new (polynomial initial_value : N) : crc_ctx :=
  {| crc_polynomial := polynomial;
     crc_initial := initial_value;
     crc_checksum := N.lxor initial_value 0xffffffff;
     crc_table := repeat 0 256;
     crc_table_initialized := false |}.

(** crc32.rs:66-72 and 139-145 [finalize] *)
Definition crc_finalize (c : crc_ctx) : N * crc_ctx :=
  (N.lxor (crc_checksum c) 0xffffffff,
   {| crc_polynomial := crc_polynomial c;
      crc_initial := crc_initial c;
      crc_checksum := N.lxor (crc_initial c) 0xffffffff;
      crc_table := crc_table c;
      crc_table_initialized := crc_table_initialized c |}).

(** crc32.rs:53-59: one round of the table generation; [<<] drops the top bit *)
Definition crc_round (polynomial checksum : N) : N :=
  if negb (N.land checksum 0x80000000 =? 0)
  then N.lxor polynomial (N.shiftl checksum 1 mod two32)
  else N.shiftl checksum 1 mod two32.

(** crc32.rs:49-63 [initialize_table] *)
Definition crc_make_table (polynomial : N) : list N :=
  map (fun table_index =>
         Nat.iter 8 (crc_round polynomial) (N.shiftl table_index 24 mod two32))
      (seqN 0 256).

(** crc32.rs:126-132 *)
Definition rcrc_round (polynomial checksum : N) : N :=
  if negb (N.land checksum 1 =? 0)
  then N.lxor polynomial (N.shiftr checksum 1)
  else N.shiftr checksum 1.

(** crc32.rs:122-136 *)
Definition rcrc_make_table (polynomial : N) : list N :=
  map (fun table_index => Nat.iter 8 (rcrc_round polynomial) table_index) (seqN 0 256).

(** crc32.rs:82-86 *)
Fixpoint crc_loop (table : list N) (checksum : N) (data : list N) : res N :=
  match data with
  | [] => Ok checksum
  | b :: rest =>
      let table_index := N.land (N.lxor (N.shiftr checksum 24) b) 0xff in
      t <- idx table table_index ;;
      crc_loop table (N.lxor t (N.shiftl checksum 8 mod two32)) rest
  end.

(** crc32.rs:155-159 *)
Fixpoint rcrc_loop (table : list N) (checksum : N) (data : list N) : res N :=
  match data with
  | [] => Ok checksum
  | b :: rest =>
      let table_index := N.land (N.lxor checksum b) 0xff in
      t <- idx table table_index ;;
      rcrc_loop table (N.lxor t (N.shiftr checksum 8)) rest
  end.

(** crc32.rs:75-88 and 148-161 [update], parametrised by the two functions above *)
Definition crc_update_with (mk : N -> list N)
    (loop : list N -> N -> list N -> res N) (c : crc_ctx) (data : list N) : res crc_ctx :=
  let table := if crc_table_initialized c then crc_table c else mk (crc_polynomial c) in
  checksum <- loop table (crc_checksum c) data ;;
  Ok {| crc_polynomial := crc_polynomial c;
        crc_initial := crc_initial c;
        crc_checksum := checksum;
        crc_table := table;
        crc_table_initialized := true |}.

Definition crc_update := crc_update_with crc_make_table crc_loop.
Definition rcrc_update := crc_update_with rcrc_make_table rcrc_loop.

Fixpoint crc_updates (upd : crc_ctx -> list N -> res crc_ctx) (c : crc_ctx)
    (chunks : list (list N)) : res crc_ctx :=
  match chunks with
  | [] => Ok c
  | d :: rest => c' <- upd c d ;; crc_updates upd c' rest
  end.
