(** * DEFLATE and zlib: keramics-compression/src/deflate.rs, zlib.rs

    The destination is a buffer of fixed length, overwritten in place. Byte offsets are
    unbounded numbers: a Rust slice has fewer than 2^63 elements. When an error is
    returned the partly overwritten buffer is not modelled. Debug output is not
    modelled. *)
From Verif Require Import Base Lz_model Huffman_model Checksums_model.

(** ** [DeflateBitstream]: deflate.rs 62-208. The bytes [data] are a parameter, the
    state is the offset, the bits buffer and the number of bits in it. *)
Record bitstream := mk_bits { data_offset : N; bits : N; number_of_bits : N }.

(** [read_data]: deflate.rs 128-137 *)
Fixpoint bs_read_data (fuel : nat) (data : list N) (n : N) (s : bitstream) : res bitstream :=
  match fuel with
  | O => Panic
  | S fuel' =>
      if number_of_bits s <? n then
        '(o, b) <-
          (if data_offset s <? len data then
             byte <- idx data (data_offset s) ;;
             v <- shl_chk 32 byte (number_of_bits s) ;;
             Ok (data_offset s + 1, N.lor (bits s) v)
           else Ok (data_offset s, bits s)) ;;
        bs_read_data fuel' data n (mk_bits o b (number_of_bits s + 8))
      else Ok s
  end.

(** [get_value]: deflate.rs 153-184. [read_size] is at most 24, so the mask
    [!(0xffffffff << read_size)] is that many ones. Two rounds are enough for 32 bits. *)
Fixpoint get_value_loop (fuel : nat) (data : list N) (n bit_offset bit_value : N) (s : bitstream)
    : res (N * bitstream) :=
  match fuel with
  | O => Panic
  | S fuel' =>
      if bit_offset <? n then
        let read_size := if 24 <? n - bit_offset then 24 else n - bit_offset in
        s <- (if number_of_bits s <? read_size then bs_read_data 4 data read_size s else Ok s) ;;
        let value := N.land (bits s) (N.ones read_size) in
        left <- sub_chk (number_of_bits s) read_size ;;
        let s := mk_bits (data_offset s) (N.shiftr (bits s) read_size) left in
        value <- (if 0 <? bit_offset then shl_chk 32 value bit_offset else Ok value) ;;
        get_value_loop fuel' data n (bit_offset + read_size) (N.lor bit_value value) s
      else Ok (bit_value, s)
  end.
Definition get_value (data : list N) (n : N) (s : bitstream) : res (N * bitstream) :=
  get_value_loop 3 data n 0 0 s.

(** [skip_bits]: deflate.rs 187-207; the same without a value *)
Fixpoint skip_bits_loop (fuel : nat) (data : list N) (n bit_offset : N) (s : bitstream) : res bitstream :=
  match fuel with
  | O => Panic
  | S fuel' =>
      if bit_offset <? n then
        let read_size := if 24 <? n - bit_offset then 24 else n - bit_offset in
        s <- (if number_of_bits s <? read_size then bs_read_data 4 data read_size s else Ok s) ;;
        left <- sub_chk (number_of_bits s) read_size ;;
        skip_bits_loop fuel' data n (bit_offset + read_size)
          (mk_bits (data_offset s) (N.shiftr (bits s) read_size) left)
      else Ok s
  end.
Definition skip_bits (data : list N) (n : N) (s : bitstream) : res bitstream :=
  skip_bits_loop 3 data n 0 s.

(** [copy_bytes]: deflate.rs 94-124 *)
Definition copy_bytes (data : list N) (read_size : N) (buf : list N) (offset : N) (s : bitstream)
    : res (list N * bitstream) :=
  let data_end := data_offset s + read_size in
  check (data_end <=? len data) ;;;
  check (offset + read_size <=? len buf) ;;;
  bytes <- slice data (data_offset s) data_end ;;
  buf <- write_at buf offset bytes ;;
  Ok (buf, mk_bits data_end 0 0).

(** [unread_data]: deflate.rs 141-148 *)
Fixpoint unread_data (fuel : nat) (s : bitstream) : res bitstream :=
  match fuel with
  | O => Panic
  | S fuel' =>
      if 8 <? number_of_bits s then
        o <- sub_chk (data_offset s) 1 ;;
        unread_data fuel' (mk_bits o (N.shiftr (bits s) 8) (number_of_bits s - 8))
      else Ok s
  end.

(** ** Tables: deflate.rs 34-59 *)
Definition code_sizes_sequence : list N :=
  [16; 17; 18; 0; 8; 7; 9; 6; 10; 5; 11; 4; 12; 3; 13; 2; 14; 1; 15].
Definition literal_codes_base : list N :=
  [3; 4; 5; 6; 7; 8; 9; 10; 11; 13; 15; 17; 19; 23; 27; 31; 35; 43; 51; 59; 67; 83; 99; 115; 131;
   163; 195; 227; 258].
Definition literal_codes_extra : list N :=
  [0; 0; 0; 0; 0; 0; 0; 0; 1; 1; 1; 1; 2; 2; 2; 2; 3; 3; 3; 3; 4; 4; 4; 4; 5; 5; 5; 5; 0].
Definition distance_codes_base : list N :=
  [1; 2; 3; 4; 5; 7; 9; 13; 17; 25; 33; 49; 65; 97; 129; 193; 257; 385; 513; 769; 1025; 1537;
   2049; 3073; 4097; 6145; 8193; 12289; 16385; 24577].
Definition distance_codes_extra : list N :=
  [0; 0; 0; 0; 1; 1; 2; 2; 3; 3; 4; 4; 5; 5; 6; 6; 7; 7; 8; 8; 9; 9; 10; 10; 11; 11; 12; 12; 13; 13].

(** ** Dynamic trees: deflate.rs 281-406 *)
(** deflate.rs 333-338: read a code size of three bits for each index of the sequence *)
Fixpoint read_code_sizes (data : list N) (sequence_indexes : list N) (code_sizes : list N) (s : bitstream)
    : res (list N * bitstream) :=
  match sequence_indexes with
  | [] => Ok (code_sizes, s)
  | i :: r =>
      '(code_size, s) <- get_value data 3 s ;;
      k <- idx code_sizes_sequence i ;;
      code_sizes <- upd code_sizes k code_size ;;
      read_code_sizes data r code_sizes s
  end.
(** deflate.rs 339-343: the remaining ones are zero *)
Fixpoint clear_code_sizes (sequence_indexes : list N) (code_sizes : list N) : res (list N) :=
  match sequence_indexes with
  | [] => Ok code_sizes
  | i :: r =>
      k <- idx code_sizes_sequence i ;;
      code_sizes <- upd code_sizes k 0 ;;
      clear_code_sizes r code_sizes
  end.
(** deflate.rs 390-395 *)
Fixpoint repeat_code_size (times : nat) (code_sizes : list N) (index code_size : N) : res (list N) :=
  match times with
  | O => Ok code_sizes
  | S n =>
      code_sizes <- upd code_sizes index code_size ;;
      repeat_code_size n code_sizes (index + 1) code_size
  end.
(** deflate.rs 350-396. Every round writes at least one code size. *)
Fixpoint decode_code_sizes (fuel : nat) (data : list N) (tree : huffman_tree) (number_of_codes : N)
    (code_sizes : list N) (index : N) (s : bitstream) : res (list N * bitstream) :=
  match fuel with
  | O => Panic
  | S fuel' =>
      if index <? number_of_codes then
        '(symbol, s) <- decode_symbol (get_value data 1) tree s ;;
        if symbol <? 16 then
          code_sizes <- upd code_sizes index symbol ;;
          decode_code_sizes fuel' data tree number_of_codes code_sizes (index + 1) s
        else
          check (negb ((index =? 0) && (symbol =? 16))) ;;;
          check (symbol <=? 18) ;;;
          code_size <-
            (if symbol =? 16 then i <- sub_chk index 1 ;; idx code_sizes i else Ok 0) ;;
          '(times, s) <-
            (if symbol =? 16 then '(v, s) <- get_value data 2 s ;; Ok (v + 3, s)
             else if symbol =? 17 then '(v, s) <- get_value data 3 s ;; Ok (v + 3, s)
             else '(v, s) <- get_value data 7 s ;; Ok (v + 11, s)) ;;
          check (index + times <=? number_of_codes) ;;;
          code_sizes <- repeat_code_size (N.to_nat times) code_sizes index code_size ;;
          decode_code_sizes fuel' data tree number_of_codes code_sizes (index + times) s
      else Ok (code_sizes, s)
  end.

(** [build_dynamic_huffman_trees]: deflate.rs 281-406 *)
Definition build_dynamic (data : list N) (s : bitstream) : res (huffman_tree * huffman_tree * bitstream) :=
  '(value, s) <- get_value data 14 s ;;
  let number_of_literal_codes := N.land value 0x1f + 257 in
  check (number_of_literal_codes <=? 286) ;;;
  let value := N.shiftr value 5 in
  let number_of_distance_codes := N.land value 0x1f + 1 in
  check (number_of_distance_codes <=? 30) ;;;
  let value := N.shiftr value 5 in
  let number_of_code_sizes := value + 4 in
  '(code_sizes, s) <-
    read_code_sizes data (seqN 0 (N.to_nat number_of_code_sizes)) (repeat 0 316) s ;;
  code_sizes <- clear_code_sizes (seqN number_of_code_sizes (19 - N.to_nat number_of_code_sizes)) code_sizes ;;
  first19 <- slice code_sizes 0 19 ;;
  codes_tree <- huffman_build (huffman_new 19 15) first19 ;;
  let number_of_codes := number_of_literal_codes + number_of_distance_codes in
  '(code_sizes, s) <-
    decode_code_sizes (S (N.to_nat number_of_codes)) data codes_tree number_of_codes code_sizes 0 s ;;
  end_of_block <- idx code_sizes 256 ;;
  check (negb (end_of_block =? 0)) ;;;
  l <- slice code_sizes 0 number_of_literal_codes ;;
  literals <- huffman_build (huffman_new 288 15) l ;;
  d <- slice code_sizes number_of_literal_codes number_of_codes ;;
  distances <- huffman_build (huffman_new 30 15) d ;;
  Ok (literals, distances, s).

(** [build_fixed_huffman_trees]: deflate.rs 409-432. The code builds the trees once per
    context; they are the same every time. *)
Definition fixed_code_sizes : list N :=
  repeat 8 144 ++ repeat 9 112 ++ repeat 7 24 ++ repeat 8 8 ++ repeat 5 30.
Definition build_fixed : res (huffman_tree * huffman_tree) :=
  l <- slice fixed_code_sizes 0 288 ;;
  literals <- huffman_build (huffman_new 288 15) l ;;
  d <- slice fixed_code_sizes 288 318 ;;
  distances <- huffman_build (huffman_new 30 15) d ;;
  Ok (literals, distances).

(** [decompress_huffmann_encoded_block]: deflate.rs 531-633. Every round but the last
    writes at least one byte, so the free space in the buffer bounds their number. *)
Fixpoint huffman_block (fuel : nat) (data : list N) (literals distances : huffman_tree)
    (buf : list N) (offset : N) (s : bitstream) : res (list N * N * bitstream) :=
  match fuel with
  | O => Panic
  | S fuel' =>
      '(symbol, s) <- decode_symbol (get_value data 1) literals s ;;
      if symbol =? 256 then Ok (buf, offset, s)
      else if symbol <? 256 then
        check (offset <? len buf) ;;;
        buf <- upd buf offset symbol ;;
        huffman_block fuel' data literals distances buf (offset + 1) s
      else if symbol <? 286 then
        let symbol := symbol - 257 in
        n <- idx literal_codes_extra symbol ;;
        '(extra, s) <- get_value data n s ;;
        base <- idx literal_codes_base symbol ;;
        let compression_size := base + extra in
        '(symbol, s) <- decode_symbol (get_value data 1) distances s ;;
        n <- idx distance_codes_extra symbol ;;
        '(extra, s) <- get_value data n s ;;
        base <- idx distance_codes_base symbol ;;
        let compression_offset := base + extra in
        check (compression_offset <=? offset) ;;;
        room <- sub_chk (len buf) offset ;;
        check (compression_size <=? room) ;;;
        source <- sub_chk offset compression_offset ;;
        buf <- copy_loop (N.to_nat compression_size) buf offset source ;;
        huffman_block fuel' data literals distances buf (offset + compression_size) s
      else Err
  end.
Definition block_fuel (buf : list N) (offset : N) : nat := S (length buf - N.to_nat offset).

(** The content of one block, deflate.rs 464-518 *)
Definition block_content (data : list N) (block_type : N) (buf : list N) (offset : N) (s : bitstream)
    : res (list N * N * bitstream) :=
  if block_type =? 0 then
    let skip := N.land (number_of_bits s) 0x07 in
    s <- (if 0 <? skip then skip_bits data skip s else Ok s) ;;
    '(value, s) <- get_value data 32 s ;;
    let block_size := N.land value 0xffff in
    let block_size_copy := N.lxor (N.shiftr value 16) 0xffff in
    check (block_size =? block_size_copy) ;;;
    if 0 <? block_size then
      '(buf, s) <- copy_bytes data block_size buf offset s ;;
      Ok (buf, offset + block_size, s)
    else Ok (buf, offset, s)
  else if block_type =? 1 then
    '(literals, distances) <- build_fixed ;;
    huffman_block (block_fuel buf offset) data literals distances buf offset s
  else if block_type =? 2 then
    '(literals, distances, s) <- build_dynamic data s ;;
    huffman_block (block_fuel buf offset) data literals distances buf offset s
  else Err.

(** One round of [decompress_bitstream], deflate.rs 455-523: the buffer, the offset, the
    stream and whether this was the last block. *)
Definition deflate_block (data : list N) (buf : list N) (offset : N) (s : bitstream)
    : res (list N * N * bitstream * bool) :=
  '(value, s) <- get_value data 3 s ;;
  let last_block_flag := N.land value 1 in
  let block_type := N.shiftr value 1 in
  '(buf, offset, s) <- block_content data block_type buf offset s ;;
  Ok (buf, offset, s, negb (last_block_flag =? 0)).

(** [decompress_bitstream]: deflate.rs 446-528. Every block uses up some of
    the bits. *)
Fixpoint deflate_loop (fuel : nat) (data : list N) (buf : list N) (offset : N) (s : bitstream)
    : res (list N * N * bitstream) :=
  match fuel with
  | O => Panic
  | S fuel' =>
      if data_offset s <? len data then
        '(buf, offset, s, last) <- deflate_block data buf offset s ;;
        if (last : bool) then Ok (buf, offset, s) else deflate_loop fuel' data buf offset s
      else Ok (buf, offset, s)
  end.
Definition decompress_bitstream (data : list N) (start : N) (buf : list N) : res (list N * N * bitstream) :=
  deflate_loop (S (8 * length data)) data buf 0 (mk_bits start 0 0).

(** [DeflateContext::decompress]: deflate.rs 435-443. The buffer and
    [uncompressed_data_size]. *)
Definition deflate_decompress (data buf : list N) : res (list N * N) :=
  '(buf, offset, _) <- decompress_bitstream data 0 buf ;; Ok (buf, offset).

(** ** zlib *)
(** [ZlibDataHeader::read_data]: zlib.rs 75-113; the header size. [1u32 << bits] with at
    most 23 bits. *)
Definition zlib_header (data : list N) : res N :=
  check (2 <=? len data) ;;;
  compression_data <- idx data 0 ;;
  check (N.land compression_data 0x0f =? 8) ;;;
  let window_size := N.shiftl 1 (N.shiftr compression_data 4 + 8) in
  check (window_size <=? 32768) ;;;
  flags <- idx data 1 ;;
  if negb (N.land flags 0x20 =? 0) then check (6 <=? len data) ;;; Ok 6 else Ok 2.

(** [ZlibContext::decompress]: zlib.rs 135-180 *)
Definition zlib_decompress (data buf : list N) : res (list N * N) :=
  header_size <- zlib_header data ;;
  '(buf, size, s) <- decompress_bitstream data header_size buf ;;
  s <- unread_data 5 s ;;
  remaining <- sub_chk (len data) (data_offset s) ;;
  (if 4 <? remaining then
     stored <- slice data (data_offset s) (data_offset s + 4) ;;
     adler <- adler_update (adler_new 1) buf ;;
     check (be_value stored =? fst (adler_finalize adler))
   else Ok tt) ;;;
  Ok (buf, size).
