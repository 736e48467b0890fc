(** * What a storage media image shows: one byte for each offset *)
From Verif Require Import Base Streams_spec.

(** The content of a disk of [size] bytes with [byte x] at offset [x]. *)
Definition disk_content (byte : N -> N) (size : N) : list N := map byte (seqN 0 (N.to_nat size)).
(** The byte of a file at an offset. *)
Definition file_byte (file : list N) (o : N) : N := nth (N.to_nat o) file 0.

(** ** Sparse image: the band array of the header block *)
Definition be32 (file : list N) (o : N) : N := be_value (bytes_at file o 4).
Definition sparse_sectors_per_band (file : list N) : N := be32 file 8.
Definition sparse_sectors (file : list N) : N := be32 file 16.
Definition sparse_number_of_bands (file : list N) : N :=
  (sparse_sectors file + sparse_sectors_per_band file - 1) / sparse_sectors_per_band file.
(** The band numbers, counted from 1: the [i]-th, from 0, is the band stored as the [i]-th
    block of data after the header block of 4096 bytes; 0 for a block that is not used. *)
Definition sparse_bands (file : list N) : list N :=
  map (fun i => be32 file (64 + 4 * i)) (seqN 0 (N.to_nat (sparse_number_of_bands file))).
Fixpoint index_of (n : N) (l : list N) : option N :=
  match l with
  | [] => None
  | x :: l => if x =? n then Some 0 else option_map (N.add 1) (index_of n l)
  end.
Definition sparse_byte (file : list N) (x : N) : N :=
  let block_size := sparse_sectors_per_band file * 512 in
  match index_of (x / block_size + 1) (sparse_bands file) with
  | Some i => file_byte file (4096 + i * block_size + x mod block_size)
  | None => 0
  end.
Definition sparse_header_ok (file : list N) : Prop :=
  4096 <= len file /\ bytes_at file 0 4 = [0x73; 0x70; 0x72; 0x73] /\
  0 < sparse_sectors_per_band file <= 0xffffffff / 512 /\ sparse_number_of_bands file <= 1008 /\
  Forall (fun n => n <= sparse_number_of_bands file) (sparse_bands file) /\
  NoDup (filter (fun n => negb (n =? 0)) (sparse_bands file)).
(** The bands are in the file, up to the end of the media. *)
Definition sparse_complete (file : list N) : Prop :=
  let block_size := sparse_sectors_per_band file * 512 in
  forall n i, index_of (n + 1) (sparse_bands file) = Some i ->
    4096 + i * block_size + N.min block_size (sparse_sectors file * 512 - n * block_size) <= len file.

(** ** Sparse bundle: one file for each band *)
Definition bundle_byte (bands : N -> option (list N)) (band_size x : N) : N :=
  match bands (x / band_size) with
  | Some file => file_byte file (x mod band_size)
  | None => 0
  end.
(** Every band is there and has all its bytes of the media. *)
Definition bundle_complete (bands : N -> option (list N)) (band_size size : N) : Prop :=
  forall n, n * band_size < size ->
    exists file, bands n = Some file /\ N.min band_size (size - n * band_size) <= len file.
