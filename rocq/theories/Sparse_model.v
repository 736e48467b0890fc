(** * Model of the sparse image and sparse bundle readers of keramics-formats *)
From Verif Require Import Base Bytes_model Streams_model Streams_spec BlockTree_model Blocks_model.

(** The loop of [read_data_from_bands] (sparseimage/file.rs 206-250, sparsebundle/image.rs
    211-264). [band media_offset block_number relative count] is what is read of a band:
    the first finds it with the media offset, the second with the block number, which
    grows by one in each turn. After the first turn the relative offset is 0. *)
Fixpoint read_bands (fuel : nat) (media_size block_size : N) (band : N -> N -> N -> N -> res (list N))
    (media_offset block_number range_relative_offset range_remainder_size read_size : N) (out : list N)
  : res (list N) :=
  match fuel with
  | O => Panic
  | S fuel' =>
      if len out <? read_size then
        if media_size <=? media_offset then Ok out
        else
          let range_read_size := read_size - len out in
          let range_read_size :=
            if range_remainder_size <? range_read_size then range_remainder_size else range_read_size in
          data <- band media_offset block_number range_relative_offset range_read_size ;;
          match data with
          | [] => Ok out
          | _ =>
              media_offset <- add_chk two64 media_offset (len data) ;;
              read_bands fuel' media_size block_size band media_offset (block_number + 1) 0 block_size
                read_size (out ++ data)
          end
      else Ok out
  end.
(** sparseimage/file.rs 197-204, sparsebundle/image.rs 202-209 *)
Definition bands_rd (media_size block_size : N) (band : N -> N -> N -> N -> res (list N))
    (s : unit) (media_offset n : N) : unit * res (list N) :=
  (s,
   block_number <- div_chk media_offset block_size ;;
   let block_offset := block_number * block_size in
   let range_relative_offset := media_offset - block_offset in
   let range_remainder_size := block_size - range_relative_offset in
   read_bands (S (N.to_nat n)) media_size block_size band media_offset block_number
     range_relative_offset range_remainder_size n []).

(** ** Sparse image: sparseimage/file.rs *)

(** file_header.rs 52-75: sectors per band and number of sectors *)
Definition sparse_header_read (data : list N) : res (N * N) :=
  check (len data =? 64) ;;;
  signature <- slice data 0 4 ;;
  check (if list_eq_dec N.eq_dec signature [0x73; 0x70; 0x72; 0x73] then true else false) ;;;
  sectors_per_band <- u32_be data 8 ;;
  number_of_sectors <- u32_be data 16 ;;
  check (negb (sectors_per_band =? 0)) ;;;
  Ok (sectors_per_band, number_of_sectors).

(** file.rs 151-185: the loop over the band numbers, [n] from [array_index] on *)
Fixpoint sparse_insert (n : nat) (data : list N) (block_size : N) (array_index data_offset : N)
    (t : block_tree N) : res (block_tree N) :=
  match n with
  | O => Ok t
  | S n =>
      band_number <- u32_be data data_offset ;;
      data_offset <- add_chk two64 data_offset 4 ;;
      if band_number =? 0 then sparse_insert n data block_size (array_index + 1) data_offset t
      else
        let block_media_offset := (band_number - 1) * block_size in
        let band_data_offset := 4096 + array_index * block_size in
        match bt_insert t block_media_offset block_size band_data_offset with
        | (t, Ok _) => sparse_insert n data block_size (array_index + 1) data_offset t
        | (_, Err) => Err
        | (_, Panic) => Panic
        end
  end.

(** file.rs 26-47 *)
Record sparse_file := { si_tree : block_tree N; si_block_size : N; si_media_size : N }.
(** file.rs 64-194 [read_data_stream] of a new file *)
Definition sparse_open (file : list N) : res sparse_file :=
  data <- read_exact_at file 0 4096 ;;
  header <- slice data 0 64 ;;
  '(sectors_per_band, number_of_sectors) <- sparse_header_read header ;;
  number_of_bands <- div_ceil number_of_sectors sectors_per_band ;;
  check (negb ((4096 - 64) / 4 <? number_of_bands)) ;;;
  check (negb (0xffffffff / 512 <? sectors_per_band)) ;;;
  block_size <- mul_chk two32 sectors_per_band 512 ;;
  media_size <- mul_chk two64 number_of_sectors 512 ;;
  block_tree_size <- mul_chk two64 number_of_bands block_size ;;
  t <- sparse_insert (N.to_nat number_of_bands) data block_size 0 64
         (bt_new block_tree_size sectors_per_band 512) ;;
  Ok {| si_tree := t; si_block_size := block_size; si_media_size := media_size |}.

(** file.rs 217-240 *)
Definition sparse_band (file : list N) (f : sparse_file)
    (media_offset block_number range_relative_offset range_read_size : N) : res (list N) :=
  block_range <- bt_get (si_tree f) media_offset ;;
  match block_range with
  | Some data_offset =>
      offset <- add_chk two64 data_offset range_relative_offset ;;
      Ok (read_at file offset range_read_size)
  | None => Ok (repeat 0 (N.to_nat range_read_size))
  end.
Definition sparse_step (file : list N) (f : sparse_file) :=
  stream_step (si_media_size f) (bands_rd (si_media_size f) (si_block_size f) (sparse_band file f)).

(** ** Sparse bundle: sparsebundle/image.rs *)

(** image.rs 166-196: the values band-size and size of Info.plist. Not modelled: the file
    resolver and the plist parser, with the version and the bundle type. *)
Definition bundle_open (band_size size : Z) : res (N * N) :=
  check (negb ((band_size <=? 0)%Z || (0xffffffff <? band_size)%Z)) ;;;
  check (negb (size <=? 0)%Z) ;;;
  Ok (Z.to_N band_size, Z.to_N size).
(** image.rs 215-253: [bands] is the file with the name of the block number in hexadecimal
    digits in the directory bands *)
Definition bundle_band (bands : N -> option (list N))
    (media_offset block_number range_relative_offset range_read_size : N) : res (list N) :=
  file <- of_option (bands block_number) ;;
  Ok (read_at file range_relative_offset range_read_size).
Definition bundle_step (bands : N -> option (list N)) (block_size media_size : N) :=
  stream_step media_size (bands_rd media_size block_size (bundle_band bands)).
