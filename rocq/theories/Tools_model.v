(** * Model of the pieces that the command line tools share

    keramics-tools/src/bodyfile.rs, hasher.rs, hash_tool.rs, writer.rs and formatters.rs. *)
From Coq Require Import String Ascii ZArith.
From Verif Require Import Base Hash_model Formatters_model Datetime_model.
Open Scope N_scope.
Open Scope list_scope.

(** enums.rs 17-32 [DigestHashType] and the contexts for it, hasher.rs 42-48 and hash_tool.rs
    127-133 *)
Inductive digest_hash_type := Md5 | Sha1 | Sha224 | Sha256 | Sha512.
Definition digest_alg (t : digest_hash_type) : hash_alg :=
  match t with
  | Md5 => md5_alg
  | Sha1 => sha1_alg
  | Sha224 => sha224_alg
  | Sha256 => sha256_alg
  | Sha512 => sha512_alg
  end.

(** hasher.rs 31, hash_tool.rs 81, writer.rs 30, bodyfile.rs 27 *)
Definition read_buffer_size : N := 65536.

Section Reader.
Context {St : Type}.
(** [read(&mut data)] with a buffer of the given size: the bytes put at the front of the
    buffer, and the reader after the call *)
Variable read : St -> N -> res (list N) * St.

(** bodyfile.rs 31-43, hasher.rs 51-65, hash_tool.rs 137-149: [None] when the loop has not
    ended within the fuel. [&data[..read_count]] panics if the count exceeds the buffer. *)
Fixpoint digest_loop (a : hash_alg) (fuel : nat) (st : St) (context : hash_ctx) : option (res hash_ctx) :=
  match fuel with
  | O => None
  | S fuel =>
    match read st read_buffer_size with
    | (Ok data, st) =>
      if len data =? 0 then Some (Ok context)
      else if read_buffer_size <? len data then Some Panic
      else
        match hash_update a context data with
        | Ok context => digest_loop a fuel st context
        | Err => Some Err
        | Panic => Some Panic
        end
    | (Err, _) => Some Err
    | (Panic, _) => Some Panic
    end
  end.
Definition digest_text (a : hash_alg) (fuel : nat) (st : St) : option (res (list N)) :=
  match digest_loop a fuel st (hash_new a) with
  | Some r => Some (context <- r ;; '(digest, _) <- hash_finalize a context ;; Ok (format_as_string digest))
  | None => None
  end.
(** bodyfile.rs 26-54 [calculate_md5]; the lock is not modelled *)
Definition calculate_md5 := digest_text md5_alg.
(** hasher.rs 41-70 [calculate_hash_from_reader] and hash_tool.rs 123-160
    [calculate_hash_from_data_stream] *)
Definition calculate_hash (t : digest_hash_type) := digest_text (digest_alg t).

(** writer.rs 20-26 [DataStreamWriter]: the file keramics.bin in the target directory, if it
    is there, and the number of streams *)
Record writer := { w_file : option (list N); w_number : N }.
(** [write] of a file with some content: how many of the bytes were written *)
Variable write : list N -> list N -> res N.
(** writer.rs 60-90. The content of the file at the end, also in case of an error *)
Fixpoint write_loop (fuel : nat) (st : St) (content : list N) : option (res unit * list N) :=
  match fuel with
  | O => None
  | S fuel =>
    match read st read_buffer_size with
    | (Ok data, st) =>
      if len data =? 0 then Some (Ok tt, content)
      else if read_buffer_size <? len data then Some (Panic, content)
      else
        match write content data with
        | Ok count =>
          if count =? len data then write_loop fuel st (content ++ data)
          else Some (Err, content ++ firstn (N.to_nat count) data)
        | Err => Some (Err, content)
        | Panic => Some (Panic, content)
        end
    | (Err, _) => Some (Err, content)
    | (Panic, _) => Some (Panic, content)
    end
  end.
(** writer.rs 41-101 [write_data_stream]. [created] tells whether [File::create] succeeds; it
    empties the file. *)
Definition write_data_stream (created : bool) (fuel : nat) (w : writer) (st : St) : option (res unit * writer) :=
  if created then
    match write_loop fuel st [] with
    | Some (Ok _, content) =>
      match add_chk two64 (w_number w) 1 with
      | Ok n => Some (Ok tt, {| w_file := Some content; w_number := n |})
      | _ => Some (Panic, {| w_file := Some content; w_number := w_number w |})
      end
    | Some (r, content) => Some (r, {| w_file := Some content; w_number := w_number w |})
    | None => None
    end
  else Some (Err, w).
End Reader.

(** keramics-datetime/src/enums.rs 19-28 [DateTime]; the content of the variants that the
    bodyfile does not support is left out. *)
Inductive date_time :=
| DFatDate | DFatTimeDate | DFatTimeDate10Ms
| DFiletime (timestamp : N)
| DHfsTime
| DNotSet
| DPosixTime32 (timestamp : Z)
| DPosixTime64Ns (timestamp : Z) (fraction : N).

(** bodyfile.rs 57-86 [format_as_timestamp]. [format!("{}")] is [fmt 0]. *)
Definition format_as_timestamp (date_time : option date_time) : res (list N) :=
  match date_time with
  | Some (DFiletime timestamp) =>
    let number_of_seconds := timestamp / 10000000 in
    let fraction := timestamp mod 10000000 in
    '(number_of_seconds, fraction) <-
      (if (number_of_seconds <? 11644473600) && (0 <? fraction) then
         n <- add_chk two64 number_of_seconds 1 ;; f <- sub_chk 10000000 fraction ;; Ok (n, f)
       else Ok (number_of_seconds, fraction)) ;;
    let posix_time := (u64_as_i64 number_of_seconds - 11644473600)%Z in
    Ok (fmt 0 posix_time ++ [46] ++ fmt 7 (Z.of_N fraction))
  | Some DNotSet => Ok []
  | Some (DPosixTime32 timestamp) => Ok (fmt 0 timestamp)
  | Some (DPosixTime64Ns timestamp fraction) => Ok (fmt 0 timestamp ++ [46] ++ fmt 9 (Z.of_N fraction))
  | Some _ => Err
  | None => Ok []
  end.

(** formatters.rs 14 [UNITS] *)
Definition units : list (list N) := [[]; [75]; [77]; [71]; [84]; [80]; [69]; [90]; [89]].
(** formatters.rs 22-26, with fuel: [None] when the loop has not ended *)
Fixpoint bytesize_loop (fuel : nat) (value base factor next_factor units_index : N) : option (res (N * N)) :=
  match fuel with
  | O => None
  | S fuel =>
    if next_factor <=? value then
      match mul_chk two64 next_factor base with
      | Ok next => bytesize_loop fuel value base next_factor next (units_index + 1)
      | Err => Some Err
      | Panic => Some Panic
      end
    else Some (Ok (factor, units_index))
  end.
(** formatters.rs 17-36 [format_as_bytesize]. [quotient] is [format!("{:.1}")] of the quotient
    of the two numbers as f64, which is not modelled. *)
Definition format_as_bytesize (quotient : N -> N -> list N) (fuel : nat) (value base : N) : option (res (list N)) :=
  match bytesize_loop fuel value base 1 base 0 with
  | Some r => Some (
      '(factor, units_index) <- r ;;
      if 0 <? units_index then
        unit <- idx units units_index ;;
        Ok (quotient value factor ++ [32] ++ unit ++ (if base =? 1024 then [105; 66] else [66]))
      else Ok (number_text value ++ [32; 66]))
  | None => None
  end.
