(** * LZX: keramics-compression/src/lzx.rs

    The destination is a buffer of fixed length, overwritten in place. Byte offsets are
    unbounded numbers: a Rust slice has fewer than 2^63 elements. When an error is
    returned the partly overwritten buffer is not modelled. Debug output is not
    modelled. *)
From Verif Require Import Base Lz_model Huffman_model Bytes_model.

(** ** [LzxBitstream]: lzx.rs 42-181. The bytes [data] are a parameter, the state is the
    offset, the bits buffer and the number of bits in it. *)
Record lzx_stream := mk_lzx { x_offset : N; x_bits : N; x_count : N }.

(** [read_data]: lzx.rs 107-121 *)
Fixpoint x_read_data (fuel : nat) (data : list N) (n : N) (s : lzx_stream) : res lzx_stream :=
  match fuel with
  | O => Panic
  | S fuel' =>
      if x_count s <? n then
        bits <- shl_chk 32 (x_bits s) 16 ;;
        left <- sub_chk (len data) (x_offset s) ;;
        '(o, b) <-
          (if 2 <=? left then
             word <- u16_le_at data (x_offset s) ;;
             Ok (x_offset s + 2, N.lor bits word)
           else Ok (x_offset s, bits)) ;;
        x_read_data fuel' data n (mk_lzx o b (x_count s + 16))
      else Ok s
  end.

(** The bits left in the buffer after [read_size] of them were taken, lzx.rs 138-148 *)
Definition x_take (read_size : N) (s : lzx_stream) : res (N * lzx_stream) :=
  let value := x_bits s in
  count <- sub_chk (x_count s) read_size ;;
  if count =? 0 then Ok (value, mk_lzx (x_offset s) 0 count)
  else
    shift <- sub_chk 32 count ;;
    mask <- shr_chk 32 0xffffffff shift ;;
    value <- shr_chk 32 value count ;;
    Ok (value, mk_lzx (x_offset s) (N.land (x_bits s) mask) count).

(** [get_value]: lzx.rs 124-156. Two rounds are enough for 32 bits. *)
Fixpoint x_get_loop (fuel : nat) (data : list N) (n bit_offset bit_value : N) (s : lzx_stream)
    : res (N * lzx_stream) :=
  match fuel with
  | O => Panic
  | S fuel' =>
      if bit_offset <? n then
        let read_size := if 16 <? n - bit_offset then 16 else n - bit_offset in
        s <- (if x_count s <? read_size then x_read_data 2 data read_size s else Ok s) ;;
        '(value, s) <- x_take read_size s ;;
        bit_value <- (if 0 <? bit_offset then shl_chk 32 bit_value read_size else Ok bit_value) ;;
        x_get_loop fuel' data n (bit_offset + read_size) (N.lor bit_value value) s
      else Ok (bit_value, s)
  end.
Definition x_get_value (data : list N) (n : N) (s : lzx_stream) : res (N * lzx_stream) :=
  x_get_loop 3 data n 0 0 s.

(** [copy_bytes]: lzx.rs 75-104 *)
Definition x_copy_bytes (data : list N) (read_size : N) (buf : list N) (offset : N) (s : lzx_stream)
    : res (list N * lzx_stream) :=
  let data_end := x_offset s + read_size in
  check (data_end <=? len data) ;;;
  check (offset + read_size <=? len buf) ;;;
  bytes <- slice data (x_offset s) data_end ;;
  buf <- write_at buf offset bytes ;;
  Ok (buf, mk_lzx data_end 0 0).

(** ** Tables: lzx.rs 28-40. A distance slot is at most 29, see [lzx_huffman_block]. *)
Definition offset_base : list Z :=
  [-2; -1; 0; 1; 2; 4; 6; 10; 14; 22; 30; 46; 62; 94; 126; 190; 254; 382; 510; 766; 1022; 1534;
   2046; 3070; 4094; 6142; 8190; 12286; 16382; 24574; 32766; 49150; 65534; 98302; 131070; 196606;
   262142; 393214; 524286; 655358; 786430; 917502; 1048574; 1179646; 1310718; 1441790; 1572862;
   1703934; 1835006; 1966078]%Z.
Definition footer_bits : list N :=
  [0; 0; 0; 0; 1; 1; 2; 2; 3; 3; 4; 4; 5; 5; 6; 6; 7; 7; 8; 8; 9; 9; 10; 10; 11; 11; 12; 12; 13;
   13; 14; 14; 15; 15; 16; 16; 17; 17; 17; 17; 17; 17; 17; 17; 17; 17; 17; 17; 17; 17].

(** ** Code sizes *)
(** [n] values of [bits] bits: lzx.rs 247-250 and 529-532 *)
Fixpoint read_values (n : nat) (data : list N) (bits : N) (s : lzx_stream) : res (list N * lzx_stream) :=
  match n with
  | O => Ok ([], s)
  | S n' =>
      '(v, s) <- x_get_value data bits s ;;
      '(r, s) <- read_values n' data bits s ;;
      Ok (v :: r, s)
  end.

(** lzx.rs 565-568 and 606-609: [i32] arithmetic on values of a byte *)
Definition delta_size (before symbol : N) : N :=
  if symbol <=? before then before - symbol else before + 17 - symbol.

(** lzx.rs 619-628 *)
Fixpoint repeat_size (times : nat) (code_sizes : list N) (index code_size : N) : res (list N) :=
  match times with
  | O => Ok code_sizes
  | S n =>
      code_sizes <- upd code_sizes index code_size ;;
      repeat_size n code_sizes (index + 1) code_size
  end.

(** lzx.rs 550-630. Every round writes at least one code size. *)
Fixpoint decode_sizes (fuel : nat) (data : list N) (tree : huffman_tree) (number : N)
    (code_sizes : list N) (index : N) (s : lzx_stream) : res (list N * lzx_stream) :=
  match fuel with
  | O => Panic
  | S fuel' =>
      if index <? number then
        '(symbol, s) <- decode_symbol (x_get_value data 1) tree s ;;
        if symbol <? 17 then
          before <- idx code_sizes index ;;
          code_sizes <- upd code_sizes index (delta_size before symbol) ;;
          decode_sizes fuel' data tree number code_sizes (index + 1) s
        else
          '(times, s) <-
            (if symbol =? 17 then '(v, s) <- x_get_value data 4 s ;; Ok (v + 4, s)
             else if symbol =? 18 then '(v, s) <- x_get_value data 5 s ;; Ok (v + 20, s)
             else if symbol =? 19 then '(v, s) <- x_get_value data 1 s ;; Ok (v + 4, s)
             else Err) ;;
          '(code_size, s) <-
            (if negb (symbol =? 19) then Ok (0, s)
             else
               '(symbol, s) <- decode_symbol (x_get_value data 1) tree s ;;
               check (symbol <=? 17) ;;;
               before <- idx code_sizes index ;;
               Ok (delta_size before symbol, s)) ;;
          room <- sub_chk number index ;;
          let times := if room <? times then room else times in
          code_sizes <- repeat_size (N.to_nat times) code_sizes index code_size ;;
          decode_sizes fuel' data tree number code_sizes (index + times) s
      else Ok (code_sizes, s)
  end.

(** [read_code_sizes]: lzx.rs 520-635 *)
Definition lzx_code_sizes (data : list N) (code_sizes : list N) (number : N) (s : lzx_stream)
    : res (list N * lzx_stream) :=
  '(pre_code_sizes, s) <- read_values 20 data 4 s ;;
  tree <- huffman_build (huffman_new 20 15) pre_code_sizes ;;
  decode_sizes (S (N.to_nat number)) data tree number code_sizes 0 s.

(** ** [decompress_huffmann_encoded_block]: lzx.rs 392-518. *)
(** lzx.rs 433-473: the distance, the distances used last and the stream *)
Definition lzx_distance (data : list N) (aligned : option huffman_tree) (slot : N) (recent : list N)
    (s : lzx_stream) : res (N * list N * lzx_stream) :=
  if slot <? 3 then
    distance <- idx recent slot ;;
    first <- idx recent 0 ;;
    recent <- upd recent slot first ;;
    recent <- upd recent 0 distance ;;
    Ok (distance, recent, s)
  else
    number_of_bits <- idx footer_bits slot ;;
    number_of_bits <-
      (match aligned with
       | Some _ => if 8 <=? slot then sub_chk number_of_bits 3 else Ok number_of_bits
       | None => Ok number_of_bits
       end) ;;
    '(distance, s) <- x_get_value data number_of_bits s ;;
    '(distance, s) <-
      (match aligned with
       | Some tree =>
           if 8 <=? slot then
             '(aligned_offset, s) <- decode_symbol (x_get_value data 1) tree s ;;
             d <- shl_chk 32 distance 3 ;;
             Ok (N.lor d aligned_offset, s)
           else Ok (distance, s)
       | None => Ok (distance, s)
       end) ;;
    base <- idx offset_base slot ;;
    let sum := (to_signed 4 distance + base)%Z in
    assert ((-2 ^ 31 <=? sum) && (sum <? 2 ^ 31))%Z ;;;
    let distance := Z.to_N (sum mod 2 ^ 32) in
    second <- idx recent 1 ;;
    recent <- upd recent 2 second ;;
    first <- idx recent 0 ;;
    recent <- upd recent 1 first ;;
    recent <- upd recent 0 distance ;;
    Ok (distance, recent, s).

(** Every round writes at least one byte, so the free space in the buffer bounds their
    number. *)
Fixpoint lzx_huffman_block (fuel : nat) (data : list N) (literals matches : huffman_tree)
    (aligned : option huffman_tree) (end_offset : N) (buf recent : list N) (offset : N) (s : lzx_stream)
    : res (list N * list N * N * lzx_stream) :=
  match fuel with
  | O => Panic
  | S fuel' =>
      if offset <? end_offset then
        '(symbol, s) <- decode_symbol (x_get_value data 1) literals s ;;
        if symbol <? 256 then
          check (offset <? len buf) ;;;
          buf <- upd buf offset symbol ;;
          lzx_huffman_block fuel' data literals matches aligned end_offset buf recent (offset + 1) s
        else
          let match_size := symbol mod 8 in
          '(match_size, s) <-
            (if match_size =? 7 then
               '(more, s) <- decode_symbol (x_get_value data 1) matches s ;;
               Ok (match_size + more, s)
             else Ok (match_size, s)) ;;
          let match_size := match_size + 2 in
          let slot := (symbol - 256) / 8 in
          '(distance, recent, s) <- lzx_distance data aligned slot recent s ;;
          check (distance <=? offset) ;;;
          room <- sub_chk (len buf) offset ;;
          check (match_size <=? room) ;;;
          source <- sub_chk offset distance ;;
          buf <- copy_loop (N.to_nat match_size) buf offset source ;;
          lzx_huffman_block fuel' data literals matches aligned end_offset buf recent
            (offset + match_size) s
      else Ok (buf, recent, offset, s)
  end.
Definition lzx_fuel (buf : list N) (offset : N) : nat := S (S (length buf - N.to_nat offset)).

(** ** Blocks *)
(** What is kept between blocks, lzx.rs 206-215. The code sizes of aligned offsets are all
    read before they are used. *)
Record lzx_state := mk_lzx_state {
  lx_buffer : list N;
  lx_offset : N;
  lx_recent : list N;
  lx_literals : list N;     (* code sizes of 256 literals and 240 matches *)
  lx_matches : list N;      (* code sizes of 249 match sizes *)
  lx_stream : lzx_stream }.

(** lzx.rs 245-295 *)
Definition lzx_coded_block (data : list N) (block_type block_size : N) (x : lzx_state) (s : lzx_stream)
    : res lzx_state :=
  '(aligned, s) <-
    (if block_type =? 2 then
       '(code_sizes, s) <- read_values 8 data 3 s ;;
       tree <- huffman_build (huffman_new 256 16) code_sizes ;;
       Ok (Some tree, s)
     else Ok (None, s)) ;;
  first <- slice (lx_literals x) 0 256 ;;
  '(first, s) <- lzx_code_sizes data first 256 s ;;
  second <- slice (lx_literals x) 256 496 ;;
  '(second, s) <- lzx_code_sizes data second 240 s ;;
  let code_sizes := first ++ second in
  literals <- huffman_build (huffman_new 496 16) code_sizes ;;
  '(match_sizes, s) <- lzx_code_sizes data (lx_matches x) 249 s ;;
  matches <- huffman_build (huffman_new 249 16) match_sizes ;;
  '(buf, recent, offset, s) <-
    lzx_huffman_block (lzx_fuel (lx_buffer x) (lx_offset x)) data literals matches aligned
      (lx_offset x + block_size) (lx_buffer x) (lx_recent x) (lx_offset x) s ;;
  Ok (mk_lzx_state buf offset recent code_sizes match_sizes s).

(** [bytes_to_u32_le!(data, offset)] *)
Definition u32_le_at (data : list N) (offset : N) : res N :=
  b <- slice data offset (offset + 4) ;; Ok (le_value b).

(** lzx.rs 296-339. The distances are read from the bytes after the ones the bits buffer was
    filled from, which [copy_bytes] then empties. *)
Definition lzx_uncompressed_block (data : list N) (block_size : N) (x : lzx_state) (s : lzx_stream)
    : res lzx_state :=
  left <- sub_chk (len data) (x_offset s) ;;
  check (12 <=? left) ;;;
  let o := x_offset s in
  r0 <- u32_le_at data o ;;
  r1 <- u32_le_at data (o + 4) ;;
  r2 <- u32_le_at data (o + 8) ;;
  check (negb (r0 =? 0)) ;;;
  check (negb (r1 =? 0)) ;;;
  check (negb (r2 =? 0)) ;;;
  let s := mk_lzx (o + 12) (x_bits s) (x_count s) in
  left <- sub_chk (len data) (x_offset s) ;;
  let size := N.min block_size left in
  '(buf, s) <- x_copy_bytes data size (lx_buffer x) (lx_offset x) s ;;
  Ok (mk_lzx_state buf (lx_offset x + size) [r0; r1; r2] (lx_literals x) (lx_matches x) s).

(** One block, lzx.rs 221-346 *)
Definition lzx_block (data : list N) (x : lzx_state) : res lzx_state :=
  '(block_type, s) <- x_get_value data 3 (lx_stream x) ;;
  '(flag, s) <- x_get_value data 1 s ;;
  '(block_size, s) <- (if flag =? 0 then x_get_value data 16 s else Ok (32768, s)) ;;
  if (block_type =? 1) || (block_type =? 2) then lzx_coded_block data block_type block_size x s
  else if block_type =? 3 then lzx_uncompressed_block data block_size x s
  else Err.

(** lzx.rs 217-347. Every block uses up some of the bits. *)
Fixpoint lzx_blocks (fuel : nat) (data : list N) (x : lzx_state) : res lzx_state :=
  match fuel with
  | O => Panic
  | S fuel' =>
      if x_offset (lx_stream x) <? len data then
        if len (lx_buffer x) <=? lx_offset x then Ok x
        else x <- lzx_block data x ;; lzx_blocks fuel' data x
      else Ok x
  end.

(** ** [decompress_adjust_call_instructions]: lzx.rs 355-390 *)
Definition i32_chk (v : Z) : res Z :=
  if ((-2 ^ 31 <=? v) && (v <? 2 ^ 31))%Z then Ok v else Panic.
Fixpoint adjust_loop (fuel : nat) (buf : list N) (size offset : N) : res (list N) :=
  match fuel with
  | O => Panic
  | S fuel' =>
      limit <- sub_chk size 6 ;;
      if offset <? limit then
        b <- idx buf offset ;;
        if negb (b =? 0xe8) then adjust_loop fuel' buf size (offset + 1)
        else
          let address_offset := offset + 1 in
          v <- u32_le_at buf address_offset ;;
          let absolute := to_signed 4 v in
          lowest <- i32_chk (- Z.of_N offset) ;;
          buf <-
            (if ((lowest <=? absolute) && (absolute <? 12000000))%Z then
               relative <- i32_chk (if (0 <=? absolute)%Z then (absolute - Z.of_N offset)%Z
                                    else (absolute + 12000000)%Z) ;;
               write_at buf address_offset (le_bytes 4 (Z.to_N (relative mod 2 ^ 32)))
             else Ok buf) ;;
          adjust_loop fuel' buf size (address_offset + 4)
      else Ok buf
  end.
Definition adjust_calls (buf : list N) (size : N) : res (list N) :=
  check (negb ((size <? 6) || (2 ^ 31 - 1 <? size))) ;;;
  adjust_loop (S (N.to_nat size)) buf size 0.

(** [LzxContext::decompress]: lzx.rs 200-353. The buffer and [uncompressed_data_size]. *)
Definition lzx_decompress (data buf : list N) : res (list N * N) :=
  x <- lzx_blocks (S (8 * length data)) data
    (mk_lzx_state buf 0 [1; 1; 1] (repeat 0 496) (repeat 0 249) (mk_lzx 0 0 0)) ;;
  buf <- adjust_calls (lx_buffer x) (lx_offset x) ;;
  Ok (buf, lx_offset x).
