(** * What a compressed UDIF image was made from *)
From Verif Require Import Base Streams_spec Part_spec Udif_model Udif_spec.
From Verif Require Lz_spec Deflate_spec Bzip2_spec Lzfse_spec.

(** A zlib stream without preset dictionary. *)
Definition zlib_encodes (data chunk : list N) : Prop :=
  exists window flags body trailer blocks padding,
    data = [16 * window + 8; flags] ++ body ++ trailer /\ window <= 7 /\ flags < 256 /\ N.land flags 32 = 0 /\
    wf_bytes body /\ wf_bytes trailer /\ len trailer = 4 /\ (length padding < 8)%nat /\
    Deflate_spec.bits_of body = Deflate_spec.blocks_bits blocks ++ padding /\
    Deflate_spec.blocks_valid 0 [] blocks /\ Forall Deflate_spec.has_distance_code blocks /\
    Deflate_spec.blocks_meaning blocks = chunk.

(** [data] is what a compressor of type [method] made of [chunk]: any tokens, codes and
    blocks, within what C10, C12 and C56 show. *)
Definition udif_encodes (method : N) (data chunk : list N) : Prop :=
  (method = 0x80000004 /\ exists tokens, Forall Lz_spec.adc_valid tokens /\ Lz_spec.adc_meaning [] tokens = Some chunk /\
     data = Lz_spec.adc_encode tokens) \/
  (method = 0x80000005 /\ zlib_encodes data chunk) \/
  (method = 0x80000006 /\ exists level block, Bzip2_spec.stream_of 19 100000 level [(chunk, block)] data) \/
  (method = 0x80000007 /\ Lzfse_spec.lzfse_stream Lzfse_spec.block_with_data [] data chunk).

(** The range [e] of the image [file] holds the bytes [chunk] of the disk. *)
Definition udif_holds (file : list N) (e : udif_entry) (chunk : list N) : Prop :=
  len chunk = 512 * ue_sectors e /\
  (udif_is_zero e = true -> chunk = repeat 0 (length chunk)) /\
  (udif_is_raw e = true -> ue_offset e + 512 * ue_sectors e <= len file /\ chunk = bytes_at file (ue_offset e) (512 * ue_sectors e)) /\
  (udif_is_compressed e = true -> ue_size e < two32 /\ ue_offset e + ue_size e <= len file /\
     udif_encodes (ue_type e) (bytes_at file (ue_offset e) (ue_size e)) chunk).
