(** * LZFSE: keramics-compression/src/lzfse.rs

    The destination is a buffer of fixed length, overwritten in place. Byte offsets are
    unbounded numbers: a Rust slice has fewer than 2^63 elements. When an error is
    returned the partly overwritten buffer is not modelled. Debug output is not
    modelled, nor is [skip_bits] (170-195), which nothing but a test calls. *)
From Verif Require Import Base Lz_model Bytes_model.

(** [bytes_to_u32_le!] and the like, without a check of the sum of the offset and [n] *)
Definition le_at (n : N) (data : list N) (offset : N) : res N :=
  s <- slice data offset (offset + n) ;; Ok (le_value s).

(** ** [LzfseBitstream]: lzfse.rs 87-167. The bytes [data] are a parameter, the state is the
    offset, the bits buffer and the number of bits in it. The bytes are read backwards. *)
Record fs_stream := mk_fs { fs_offset : N; fs_bits : N; fs_count : N }.

(** [read_data]: lzfse.rs 118-131. At most three bytes are read at a time. *)
Fixpoint fs_read_data (fuel : nat) (data : list N) (n : N) (s : fs_stream) : res fs_stream :=
  match fuel with
  | O => Panic
  | S fuel' =>
      if fs_count s <? n then
        bits <- shl_chk 32 (fs_bits s) 8 ;;
        '(o, bits) <-
          (if 0 <? fs_offset s then
             byte <- idx data (fs_offset s - 1) ;; Ok (fs_offset s - 1, N.lor bits byte)
           else Ok (fs_offset s, bits)) ;;
        fs_read_data fuel' data n (mk_fs o bits (fs_count s + 8))
      else Ok s
  end.

(** [get_value]: lzfse.rs 135-167. Two rounds are enough for 32 bits. *)
Fixpoint fs_value_loop (fuel : nat) (data : list N) (n bit_offset bit_value : N) (s : fs_stream)
    : res (N * fs_stream) :=
  match fuel with
  | O => Panic
  | S fuel' =>
      if bit_offset <? n then
        let read_size := if 24 <? n - bit_offset then 24 else n - bit_offset in
        s <- (if fs_count s <? read_size then fs_read_data 4 data read_size s else Ok s) ;;
        left <- sub_chk (fs_count s) read_size ;;
        '(bits, value) <-
          (if left =? 0 then Ok (0, fs_bits s)
           else
             shift <- sub_chk 32 left ;;
             mask <- shr_chk 32 0xffffffff shift ;;
             value <- shr_chk 32 (fs_bits s) left ;;
             Ok (N.land (fs_bits s) mask, value)) ;;
        bit_value <- (if 0 <? bit_offset then shl_chk 32 bit_value read_size else Ok bit_value) ;;
        fs_value_loop fuel' data n (bit_offset + read_size) (N.lor bit_value value)
          (mk_fs (fs_offset s) bits left)
      else Ok (bit_value, s)
  end.
Definition fs_value (data : list N) (n : N) (s : fs_stream) : res (N * fs_stream) :=
  fs_value_loop 3 data n 0 0 s.

(** ** Tables: lzfse.rs 50-85. The value 0xffff is never used. *)
Definition frequency_sizes : list N :=
  [2; 3; 2; 5; 2; 3; 2; 8; 2; 3; 2; 5; 2; 3; 2; 14; 2; 3; 2; 5; 2; 3; 2; 8; 2; 3; 2; 5; 2; 3; 2; 14].
Definition frequency_values : list N :=
  [0; 2; 1; 4; 0; 3; 1; 0xffff; 0; 2; 1; 5; 0; 3; 1; 0xffff; 0; 2; 1; 6; 0; 3; 1; 0xffff; 0; 2; 1;
   7; 0; 3; 1; 0xffff].
Definition d_bits_table : list N :=
  [0; 0; 0; 0; 1; 1; 1; 1; 2; 2; 2; 2; 3; 3; 3; 3; 4; 4; 4; 4; 5; 5; 5; 5; 6; 6; 6; 6; 7; 7; 7; 7;
   8; 8; 8; 8; 9; 9; 9; 9; 10; 10; 10; 10; 11; 11; 11; 11; 12; 12; 12; 12; 13; 13; 13; 13; 14; 14;
   14; 14; 15; 15; 15; 15].
Definition d_base_table : list N :=
  [0; 1; 2; 3; 4; 6; 8; 10; 12; 16; 20; 24; 28; 36; 44; 52; 60; 76; 92; 108; 124; 156; 188; 220;
   252; 316; 380; 444; 508; 636; 764; 892; 1020; 1276; 1532; 1788; 2044; 2556; 3068; 3580; 4092;
   5116; 6140; 7164; 8188; 10236; 12284; 14332; 16380; 20476; 24572; 28668; 32764; 40956; 49148;
   57340; 65532; 81916; 98300; 114684; 131068; 163836; 196604; 229372].
Definition l_bits_table : list N := [0; 0; 0; 0; 0; 0; 0; 0; 0; 0; 0; 0; 0; 0; 0; 0; 2; 3; 5; 8].
Definition l_base_table : list N :=
  [0; 1; 2; 3; 4; 5; 6; 7; 8; 9; 10; 11; 12; 13; 14; 15; 16; 20; 28; 60].
Definition m_bits_table : list N := [0; 0; 0; 0; 0; 0; 0; 0; 0; 0; 0; 0; 0; 0; 0; 0; 3; 5; 8; 11].
Definition m_base_table : list N :=
  [0; 1; 2; 3; 4; 5; 6; 7; 8; 9; 10; 11; 12; 13; 14; 15; 16; 24; 56; 312].

(** ** Decoder tables *)
(** [i16] addition *)
Definition add_i16 (a b : Z) : res Z :=
  if (-32768 <=? a + b)%Z && (a + b <=? 32767)%Z then Ok (a + b)%Z else Panic.
(** [leading_zeros] of a 16-bit integer that is not negative *)
Definition clz16 (v : N) : N := 16 - N.size v.

(** An entry for the states of one symbol: lzfse.rs 504-518 and 564-579, without the
    fields that depend on the symbol only. [f] is at most [states] here, so no
    intermediate result leaves the range of an [i16]. *)
Definition table_entry (states f bits base weight : N) : res (N * N) :=
  if weight <? base then
    delta <- sub_chk (N.shiftl (f + weight) bits) states ;; Ok (bits, delta)
  else
    less <- sub_chk bits 1 ;;
    Ok (less, N.shiftl (weight - base) less).
Fixpoint table_entries (n : nat) (states symbol f bits base weight : N) : res (list (N * N * N)) :=
  match n with
  | O => Ok []
  | S n' =>
      '(b, delta) <- table_entry states f bits base weight ;;
      r <- table_entries n' states symbol f bits base (weight + 1) ;;
      Ok ((symbol, b, delta) :: r)
  end.

(** [build_decoder_table]: lzfse.rs 469-521: the symbol, the number of bits and the delta of
    every state. A frequency is an [u16], the sum an [i16]. *)
Fixpoint build_table (states symbol : N) (frequencies : list N) (sum : Z) : res (list (N * N * N)) :=
  match frequencies with
  | [] => Ok []
  | f :: r =>
      if f =? 0 then build_table states (symbol + 1) r sum
      else
        sum <- add_i16 sum (to_signed 2 f) ;;
        check (sum <=? Z.of_N states)%Z ;;;
        bits <- sub_chk (clz16 f) (clz16 states) ;;
        double <- shr_chk 16 (2 * states) bits ;;
        base <- sub_chk double f ;;
        entries <- table_entries (N.to_nat f) states symbol f bits base 0 ;;
        rest <- build_table states (symbol + 1) r sum ;;
        Ok (entries ++ rest)
  end.

(** [build_value_decoder_table]: lzfse.rs 524-583. The same loop; an entry holds the total
    number of bits, the value bits, the delta and the value base. *)
Fixpoint value_entries (bits_table base_table : list N) (entries : list (N * N * N)) : res (list (N * N * N * N)) :=
  match entries with
  | [] => Ok []
  | (symbol, bits, delta) :: r =>
      value_bits <- idx bits_table symbol ;;
      value_base <- idx base_table symbol ;;
      rest <- value_entries bits_table base_table r ;;
      Ok ((bits + value_bits, value_bits, delta, value_base) :: rest)
  end.
Definition build_value_table (states : N) (frequencies bits_table base_table : list N) : res (list (N * N * N * N)) :=
  entries <- build_table states 0 frequencies 0 ;;
  value_entries bits_table base_table entries.

(** ** [LzfseDecoder]: lzfse.rs 379-445, without the tables *)
Record lzfse_decoder := mk_decoder {
  number_of_literals : N; number_of_lmd : N; literals_size : N; lmd_size : N;
  literal_states : list N; l_state : N; m_state : N; d_state : N;
  literal_bits : Z; lmd_bits : Z }.

(** ** Block headers *)
(** lzfse.rs 213-245 *)
Definition read_v1_header (data : list N) : res lzfse_decoder :=
  check (len data =? 42) ;;;
  literals <- le_at 4 data 4 ;;
  lmd <- le_at 4 data 8 ;;
  literals_size <- le_at 4 data 12 ;;
  lmd_size <- le_at 4 data 16 ;;
  literal_bits <- le_at 4 data 20 ;;
  a <- le_at 2 data 24 ;;
  b <- le_at 2 data 26 ;;
  c <- le_at 2 data 28 ;;
  d <- le_at 2 data 30 ;;
  lmd_bits <- le_at 4 data 32 ;;
  l <- le_at 2 data 36 ;;
  m <- le_at 2 data 38 ;;
  dd <- le_at 2 data 40 ;;
  Ok (mk_decoder literals lmd literals_size lmd_size [a; b; c; d] l m dd
        (to_signed 4 literal_bits) (to_signed 4 lmd_bits)).

(** [(value >> shift) & mask] for a mask of [n] bits *)
Definition bit_field (value shift n : N) : N := N.land (N.shiftr value shift) (N.ones n).

(** lzfse.rs 286-322: the header size and the decoder *)
Definition read_v2_header (data : list N) : res (N * lzfse_decoder) :=
  check (24 <=? len data) ;;;
  v1 <- le_at 8 data 0 ;;
  v2 <- le_at 8 data 8 ;;
  v3 <- le_at 8 data 16 ;;
  let header_size := bit_field v3 0 32 in
  check ((32 <=? header_size) && (header_size <=? 720)) ;;;
  Ok (header_size,
      mk_decoder (bit_field v1 0 20) (bit_field v1 40 20) (bit_field v1 20 20) (bit_field v2 40 20)
        [bit_field v2 0 10; bit_field v2 10 10; bit_field v2 20 10; bit_field v2 30 10]
        (bit_field v3 32 10) (bit_field v3 42 10) (bit_field v3 52 10)
        (Z.of_N (bit_field v1 60 3) - 7) (Z.of_N (bit_field v2 60 3) - 7)).

(** lzfse.rs 926-943: the table is read at offset 42 of the compressed data *)
Fixpoint read_v1_frequencies (n : nat) (c : list N) (offset : N) : res (list N) :=
  match n with
  | O => Ok []
  | S n' =>
      f <- le_at 2 c offset ;;
      r <- read_v1_frequencies n' c (offset + 2) ;;
      Ok (f :: r)
  end.
(** [read_block_v1_header]: lzfse.rs 879-950. The new offset is the one after the table. *)
Definition read_block_v1 (c : list N) (co : N) : res (N * lzfse_decoder * list N) :=
  left <- sub_chk (len c) co ;;
  check (762 <=? left) ;;;
  header <- slice c co (co + 42) ;;
  decoder <- read_v1_header header ;;
  frequencies <- read_v1_frequencies 360 c 42 ;;
  Ok (42 + 720, decoder, frequencies).

(** lzfse.rs 1010-1014: the offset, the value and the number of bits. Four bytes are enough. *)
Fixpoint fill_bits (fuel : nat) (c : list N) (offset end_ value count : N) : res (N * N * N) :=
  match fuel with
  | O => Panic
  | S fuel' =>
      if (count <=? 24) && (offset <? end_) then
        byte <- idx c offset ;;
        shifted <- shl_chk 32 byte count ;;
        fill_bits fuel' c (offset + 1) end_ (N.lor value shifted) (count + 8)
      else Ok (offset, value, count)
  end.
(** lzfse.rs 1009-1040: the offset and the frequencies *)
Fixpoint read_frequencies (n : nat) (c : list N) (offset end_ value count : N) : res (N * list N) :=
  match n with
  | O => Ok (offset, [])
  | S n' =>
      '(offset, value, count) <- fill_bits 6 c offset end_ value count ;;
      let index := N.land value 0x1f in
      size <- idx frequency_sizes index ;;
      f <- (if size =? 8 then Ok (bit_field value 4 4 + 8)
            else if size =? 14 then Ok (bit_field value 4 10 + 24)
            else idx frequency_values index) ;;
      value <- shr_chk 32 value size ;;
      count <- sub_chk count size ;;
      '(offset, r) <- read_frequencies n' c offset end_ value count ;;
      Ok (offset, f :: r)
  end.
(** [read_block_v2_header]: lzfse.rs 953-1048 *)
Definition read_block_v2 (c : list N) (co : N) (frequencies : list N) : res (N * lzfse_decoder * list N) :=
  let data_end := co + 24 in
  check (data_end <=? len c) ;;;
  header <- slice c co data_end ;;
  '(header_size, decoder) <- read_v2_header header ;;
  left <- sub_chk (len c) co ;;
  check (header_size <=? left) ;;;
  if 32 <? header_size then
    '(offset, frequencies) <- read_frequencies 360 c data_end (data_end + (header_size - 32)) 0 0 ;;
    Ok (offset, decoder, frequencies)
  else Ok (data_end, decoder, frequencies).

(** ** Literals *)
Definition maximum_literals : N := 40064.

(** lzfse.rs 1076-1112 for one literal: the symbol and the next state *)
Definition read_literal (data : list N) (table : list (N * N * N)) (state : N) (s : fs_stream)
    : res (N * N * fs_stream) :=
  check (state <=? 1024) ;;;
  '(symbol, bits, delta) <- of_option (nth_error table (N.to_nat state)) ;;
  '(value, s) <- fs_value data bits s ;;
  Ok (symbol, (delta + value) mod two16, s).

(** lzfse.rs 1076-1112: one literal for each of the states *)
Fixpoint read_group (data : list N) (table : list (N * N * N)) (states : list N) (index : N) (s : fs_stream)
    : res (list N * list N * fs_stream) :=
  match states with
  | [] => Ok ([], [], s)
  | state :: r =>
      '(symbol, next, s) <- read_literal data table state s ;;
      assert (index <? maximum_literals) ;;;
      '(symbols, nexts, s) <- read_group data table r (index + 1) s ;;
      Ok (symbol :: symbols, next :: nexts, s)
  end.
(** lzfse.rs 1075-1114, [n] rounds *)
Fixpoint read_groups (n : nat) (data : list N) (table : list (N * N * N)) (states : list N) (index : N)
    (s : fs_stream) : res (list N) :=
  match n with
  | O => Ok []
  | S n' =>
      '(symbols, states, s) <- read_group data table states index s ;;
      r <- read_groups n' data table states (index + 4) s ;;
      Ok (symbols ++ r)
  end.

(** [number_of_bits] of a field: lzfse.rs 1063-1071 and 1132-1137, 1148-1149 *)
Definition padding_of (bits : Z) : res N :=
  check ((-32 <=? bits) && (bits <=? 0))%Z ;;; Ok (Z.to_N (- bits)).

(** [read_literal_values]: lzfse.rs 1051-1120. The array of 40064 zeros is represented by
    the values that are written to it, from its start on. *)
Definition read_literals (data : list N) (table : list (N * N * N)) (decoder : lzfse_decoder) (offset : N)
    : res (list N) :=
  check (number_of_literals decoder <=? maximum_literals) ;;;
  padding <- padding_of (literal_bits decoder) ;;
  '(_, s) <- fs_value data padding (mk_fs offset 0 0) ;;
  read_groups (N.to_nat ((number_of_literals decoder + 3) / 4)) data table (literal_states decoder) 0 s.
Definition literal_at (literals : list N) (i : N) : res N :=
  if i <? maximum_literals then Ok (nth (N.to_nat i) literals 0) else Panic.

(** ** L, M and D values *)
(** lzfse.rs 1153-1177, 1185-1209 and 1217-1241: the value and the next state *)
Definition read_lmd_value (data : list N) (table : list (N * N * N * N)) (states state : N) (s : fs_stream)
    : res (N * N * fs_stream) :=
  check (state <=? states) ;;;
  '(bits, value_bits, delta, value_base) <- of_option (nth_error table (N.to_nat state)) ;;
  '(value, s) <- fs_value data bits s ;;
  Ok (value_base + N.land value (N.ones value_bits), delta + N.shiftr value value_bits, s).

(** lzfse.rs 1253-1258 *)
Fixpoint copy_literals (n : nat) (literals buf : list N) (index offset : N) : res (list N) :=
  match n with
  | O => Ok buf
  | S n' =>
      v <- literal_at literals index ;;
      buf <- upd buf offset v ;;
      copy_literals n' literals buf (index + 1) (offset + 1)
  end.

(** [m_value > remaining as i32] for an [m_value] that is not negative *)
Definition more_than_i32 (m remaining : N) : bool :=
  (to_signed 4 (remaining mod two32) <? Z.of_N m)%Z.

(** lzfse.rs 1151-1287, [n] rounds. [remaining] is the length of the buffer less
    [offset]. *)
Fixpoint lmd_loop (n : nat) (data : list N) (l_table m_table d_table : list (N * N * N * N)) (literals : list N)
    (l_state m_state d_state : N) (s : fs_stream) (distance index : N) (buf : list N) (offset : N)
    : res (list N * N) :=
  match n with
  | O => Ok (buf, offset)
  | S n' =>
      '(l, l_state, s) <- read_lmd_value data l_table 64 l_state s ;;
      '(m, m_state, s) <- read_lmd_value data m_table 64 m_state s ;;
      '(d, d_state, s) <- read_lmd_value data d_table 256 d_state s ;;
      let distance := if d =? 0 then distance else d in
      remaining <- sub_chk (len buf) offset ;;
      check (l <=? N.min (maximum_literals - 1) remaining) ;;;
      check (index + l <=? maximum_literals) ;;;
      buf <- copy_literals (N.to_nat l) literals buf index offset ;;
      let offset := offset + l in
      remaining <- sub_chk remaining l ;;
      check (negb (more_than_i32 m remaining)) ;;;
      check (distance <=? offset) ;;;
      source <- sub_chk offset distance ;;
      buf <- copy_loop (N.to_nat m) buf offset source ;;
      lmd_loop n' data l_table m_table d_table literals l_state m_state d_state s distance (index + l) buf
        (offset + m)
  end.
(** [read_lmd_values]: lzfse.rs 1123-1291 *)
Definition read_lmd (data : list N) (l_table m_table d_table : list (N * N * N * N)) (decoder : lzfse_decoder)
    (literals : list N) (data_offset : N) (buf : list N) (uo : N) : res (list N * N) :=
  padding <- padding_of (lmd_bits decoder) ;;
  '(_, s) <- fs_value data padding (mk_fs data_offset 0 0) ;;
  lmd_loop (N.to_nat (number_of_lmd decoder)) data l_table m_table d_table literals
    (l_state decoder) (m_state decoder) (d_state decoder) s 0 0 buf uo.

(** [decompress_block]: lzfse.rs 831-876 and the tables built before it, 755-788 *)
Definition decompress_block (c : list N) (co : N) (decoder : lzfse_decoder) (frequencies buf : list N) (uo : N)
    : res (N * list N * N) :=
  l <- slice frequencies 0 20 ;;
  l_table <- build_value_table 64 l l_bits_table l_base_table ;;
  m <- slice frequencies 20 40 ;;
  m_table <- build_value_table 64 m m_bits_table m_base_table ;;
  d <- slice frequencies 40 104 ;;
  d_table <- build_value_table 256 d d_bits_table d_base_table ;;
  u <- slice frequencies 104 360 ;;
  table <- build_table 1024 0 u 0 ;;
  left <- sub_chk (len c) co ;;
  check (literals_size decoder <=? left) ;;;
  let data_end := co + literals_size decoder in
  literals <- read_literals c table decoder data_end ;;
  left <- sub_chk (len c) data_end ;;
  check (lmd_size decoder <=? left) ;;;
  let data_end := data_end + lmd_size decoder in
  '(buf, uo) <- read_lmd c l_table m_table d_table decoder literals data_end buf uo ;;
  Ok (data_end, buf, uo).

(** ** [decompress]: lzfse.rs 586-828 *)
Definition marker_end : N := 0x24787662.
Definition marker_uncompressed : N := 0x2d787662.
Definition marker_v1 : N := 0x31787662.
Definition marker_v2 : N := 0x32787662.
Definition marker_lzvn : N := 0x6e787662.

(** The compressed offset, the destination and its offset, the frequencies. *)
Record lzfse_state := mk_lzfse { z_co : N; z_buf : list N; z_uo : N; z_frequencies : list N }.

(** One round of the loop, lzfse.rs 599-825; [inl] when the loop has ended *)
Definition lzfse_round (c : list N) (z : lzfse_state) : res (lzfse_state + lzfse_state) :=
  let co := z_co z in
  let uo := z_uo z in
  let buf := z_buf z in
  if negb (co <? len c) then Ok (inl z)
  else if len buf <=? uo then Ok (inl z)
  else
    check (4 <=? len c - co) ;;;
    marker <- le_at 4 c co ;;
    if marker =? marker_end then Ok (inl z)
    else
      check ((marker =? marker_uncompressed) || (marker =? marker_v1) || (marker =? marker_v2) ||
             (marker =? marker_lzvn)) ;;;
      let co := co + 4 in
      left <- sub_chk (len c) co ;;
      check (4 <=? left) ;;;
      size <- le_at 4 c co ;;
      let co := co + 4 in
      room <- sub_chk (len buf) uo ;;
      check (size <=? room) ;;;
      if marker =? marker_uncompressed then
        left <- sub_chk (len c) co ;;
        check (size <=? left) ;;;
        bytes <- slice c co (co + size) ;;
        buf <- write_at buf uo bytes ;;
        Ok (inr (mk_lzfse (co + size) buf (uo + size) (z_frequencies z)))
      else if marker =? marker_lzvn then
        left <- sub_chk (len c) co ;;
        check (4 <=? left) ;;;
        block_size <- le_at 4 c co ;;
        let co := co + 4 in
        left <- sub_chk (len c) co ;;
        check (block_size <=? left) ;;;
        block <- slice c co (co + block_size) ;;
        room <- slice buf uo (uo + size) ;;
        '(room, _) <- lzvn_decompress block room ;;
        buf <- write_at buf uo room ;;
        Ok (inr (mk_lzfse (co + block_size) buf (uo + size) (z_frequencies z)))
      else
        '(co, decoder, frequencies) <-
          (if marker =? marker_v1 then read_block_v1 c co else read_block_v2 c co (z_frequencies z)) ;;
        '(co, buf, uo) <- decompress_block c co decoder frequencies buf uo ;;
        Ok (inr (mk_lzfse co buf uo frequencies)).

(** The loop for at most [fuel] rounds: [Panic] when it has not ended then *)
Fixpoint lzfse_loop (fuel : nat) (c : list N) (z : lzfse_state) : res (list N * N) :=
  match fuel with
  | O => Panic
  | S fuel' =>
      r <- lzfse_round c z ;;
      match r with
      | inl z => Ok (z_buf z, z_uo z)
      | inr z => lzfse_loop fuel' c z
      end
  end.
Definition lzfse_start (buf : list N) : lzfse_state := mk_lzfse 0 buf 0 (repeat 0 360).

(** The bytes and [uncompressed_data_size] after at most [fuel] rounds of the loop *)
Definition lzfse_decompress (fuel : nat) (c buf : list N) : res (list N * N) :=
  lzfse_loop fuel c (lzfse_start buf).
