(** * bzip2: keramics-compression/src/bzip2.rs

    The destination is a buffer of fixed length, overwritten in place. Byte offsets are
    unbounded numbers: a Rust slice has fewer than 2^63 elements. When an error is
    returned the partly overwritten buffer is not modelled. Debug output is not modelled. *)
From Verif Require Import Base Lz_model Huffman_model Checksums_model.

(** ** [Bzip2Bitstream]: bzip2.rs 36-139. The bytes [data] are a parameter, the state is the
    offset, the bits buffer and the number of bits in it. *)
Record bz_stream := mk_bz { bz_offset : N; bz_bits : N; bz_count : N }.

(** [read_data]: bzip2.rs 68-79. At most three bytes are read at a time. *)
Fixpoint bz_read_data (fuel : nat) (data : list N) (n : N) (s : bz_stream) : res bz_stream :=
  match fuel with
  | O => Panic
  | S fuel' =>
      if bz_count s <? n then
        bits <- shl_chk 32 (bz_bits s) 8 ;;
        '(o, bits) <-
          (if bz_offset s <? len data then
             byte <- idx data (bz_offset s) ;; Ok (bz_offset s + 1, N.lor bits byte)
           else Ok (bz_offset s, bits)) ;;
        bz_read_data fuel' data n (mk_bz o bits (bz_count s + 8))
      else Ok s
  end.

(** [get_value]: bzip2.rs 84-115. Two rounds are enough for 32 bits. *)
Fixpoint bz_value_loop (fuel : nat) (data : list N) (n bit_offset bit_value : N) (s : bz_stream)
    : res (N * bz_stream) :=
  match fuel with
  | O => Panic
  | S fuel' =>
      if bit_offset <? n then
        let read_size := if 24 <? n - bit_offset then 24 else n - bit_offset in
        s <- (if bz_count s <? read_size then bz_read_data 4 data read_size s else Ok s) ;;
        left <- sub_chk (bz_count s) read_size ;;
        '(bits, value) <-
          (if left =? 0 then Ok (0, bz_bits s)
           else
             shift <- sub_chk 32 left ;;
             mask <- shr_chk 32 0xffffffff shift ;;
             value <- shr_chk 32 (bz_bits s) left ;;
             Ok (N.land (bz_bits s) mask, value)) ;;
        bit_value <- (if 0 <? bit_offset then shl_chk 32 bit_value read_size else Ok bit_value) ;;
        bz_value_loop fuel' data n (bit_offset + read_size) (N.lor bit_value value)
          (mk_bz (bz_offset s) bits left)
      else Ok (bit_value, s)
  end.
Definition bz_value (data : list N) (n : N) (s : bz_stream) : res (N * bz_stream) :=
  bz_value_loop 3 data n 0 0 s.

(** bzip2.rs 33 *)
Definition bzip2_block_size : N := 100000.

(** bzip2.rs 210-249 [read_from_bitstream]: signature, checksum, origin pointer. The
    randomized flag is never used. *)
Definition bz_header (data : list N) (s : bz_stream) : res (N * N * N * bz_stream) :=
  '(upper, s) <- bz_value data 24 s ;;
  '(lower, s) <- bz_value data 24 s ;;
  let signature := N.lor (N.shiftl upper 24) lower in
  if signature =? 0x177245385090 then
    '(checksum, s) <- bz_value data 32 s ;;
    Ok (signature, checksum, 0, s)
  else if signature =? 0x314159265359 then
    '(checksum, s) <- bz_value data 32 s ;;
    '(_, s) <- bz_value data 1 s ;;
    '(origin_pointer, s) <- bz_value data 24 s ;;
    Ok (signature, checksum, origin_pointer, s)
  else Err.

(** ** Symbol stack: bzip2.rs 628-683 *)
(** 654-667 *)
Fixpoint bz_level2 (n : nat) (value mask level1 level2 : N) (stack : list N) (symbol_index : N)
    : res (list N * N) :=
  match n with
  | O => Ok (stack, symbol_index)
  | S n =>
      '(stack, symbol_index) <-
        (if negb (N.land value mask =? 0) then
           check (negb (256 <? symbol_index)) ;;;
           stack <- upd stack symbol_index (16 * level1 + level2) ;;
           Ok (stack, symbol_index + 1)
         else Ok (stack, symbol_index)) ;;
      bz_level2 n value (N.shiftr mask 1) level1 (level2 + 1) stack symbol_index
  end.
(** 643-670 *)
Fixpoint bz_level1 (n : nat) (data : list N) (value mask level1 : N) (stack : list N) (symbol_index : N)
    (s : bz_stream) : res (list N * N * bz_stream) :=
  match n with
  | O => Ok (stack, symbol_index, s)
  | S n =>
      '(stack, symbol_index, s) <-
        (if negb (N.land value mask =? 0) then
           '(value, s) <- bz_value data 16 s ;;
           '(stack, symbol_index) <- bz_level2 16 value 0x8000 level1 0 stack symbol_index ;;
           Ok (stack, symbol_index, s)
         else Ok (stack, symbol_index, s)) ;;
      bz_level1 n data value (N.shiftr mask 1) (level1 + 1) stack symbol_index s
  end.
(** 628-683 [read_symbol_stack]: the stack and the number of symbols *)
Definition bz_symbol_stack (data : list N) (stack : list N) (s : bz_stream) : res (list N * N * bz_stream) :=
  '(value, s) <- bz_value data 16 s ;;
  '(stack, symbol_index, s) <- bz_level1 16 data value 0x8000 0 stack 0 s ;;
  Ok (stack, symbol_index + 2, s).

(** ** Selectors: bzip2.rs 573-625 *)
(** 586-592, for [n] values of [tree_index] *)
Fixpoint bz_unary (n : nat) (data : list N) (tree_index : N) (s : bz_stream) : res (N * bz_stream) :=
  match n with
  | O => Ok (tree_index, s)
  | S n =>
      '(value, s) <- bz_value data 1 s ;;
      if value =? 0 then Ok (tree_index, s) else bz_unary n data (tree_index + 1) s
  end.
(** 604-606 and 473-475: [for k in (0..i).rev() { stack[k + 1] = stack[k] }] *)
Fixpoint shift_up (i : nat) (stack : list N) : res (list N) :=
  match i with
  | O => Ok stack
  | S k =>
      v <- idx stack (N.of_nat k) ;;
      stack <- upd stack (N.of_nat k + 1) v ;;
      shift_up k stack
  end.
(** 600-607 and 471-476: the value at [i] and the stack with that value in front *)
Definition to_front (stack : list N) (i : N) : res (N * list N) :=
  v <- idx stack i ;;
  stack <- shift_up (N.to_nat i) stack ;;
  stack <- upd stack 0 v ;;
  Ok (v, stack).
(** 583-610: the values written to the array of selectors *)
Fixpoint bz_selectors_loop (n : nat) (data : list N) (number_of_trees : N) (stack : list N) (s : bz_stream)
    : res (list N * bz_stream) :=
  match n with
  | O => Ok ([], s)
  | S n =>
      '(tree_index, s) <- bz_unary (N.to_nat number_of_trees) data 0 s ;;
      check (negb (number_of_trees <=? tree_index)) ;;;
      '(selector, stack) <- to_front stack tree_index ;;
      '(selectors, s) <- bz_selectors_loop n data number_of_trees stack s ;;
      Ok (selector :: selectors, s)
  end.
(** [read_selectors]. Of the array of 32769 elements, zero at first, only the part written
    so far is kept: there are at most 32767 selectors. *)
Definition bz_selectors (data : list N) (number_of_selectors number_of_trees : N) (selectors : list N) (s : bz_stream)
    : res (list N * bz_stream) :=
  '(values, s) <- bz_selectors_loop (N.to_nat number_of_selectors) data number_of_trees [0; 1; 2; 3; 4; 5; 6] s ;;
  Ok (values ++ skipn (length values) selectors, s).
Definition selector_at (selectors : list N) (i : N) : res N :=
  if i <? len selectors then idx selectors i else if i <? 32769 then Ok 0 else Panic.

(** ** The inverse of the Burrows-Wheeler transform: bzip2.rs 686-757 *)
(** 702-705 *)
Fixpoint bz_distributions (block : list N) (distributions : list N) : res (list N) :=
  match block with
  | [] => Ok distributions
  | b :: block =>
      n <- idx distributions b ;;
      distributions <- upd distributions b (n + 1) ;;
      bz_distributions block distributions
  end.
(** 706-710 *)
Fixpoint bz_starts (byte_values : list N) (distributions : list N) (distribution_value : N) : res (list N) :=
  match byte_values with
  | [] => Ok distributions
  | b :: byte_values =>
      n <- idx distributions b ;;
      distributions <- upd distributions b distribution_value ;;
      bz_starts byte_values distributions (distribution_value + n)
  end.
(** 711-716 *)
Fixpoint bz_permutations (block : list N) (block_data_offset : N) (distributions permutations : list N)
    : res (list N) :=
  match block with
  | [] => Ok permutations
  | b :: block =>
      n <- idx distributions b ;;
      permutations <- upd permutations n block_data_offset ;;
      distributions <- upd distributions b (n + 1) ;;
      bz_permutations block (block_data_offset + 1) distributions permutations
  end.
(** Of the array of 100000 permutations, zero at first, only that many are kept as the block
    has bytes: no other is written. *)
Definition permutation_at (permutations : list N) (i : N) : res N :=
  if i <? len permutations then idx permutations i else if i <? bzip2_block_size then Ok 0 else Panic.
(** 722-751: one byte of the block *)
Definition bz_put (byte_value : N) (buf : list N) (offset last_byte_value number : N)
    : res (list N * N * N * N) :=
  if number =? 4 then
    room <- sub_chk (len buf) offset ;;
    check (negb (room <? byte_value)) ;;;
    buf <- write_at buf offset (repeat last_byte_value (N.to_nat byte_value)) ;;
    Ok (buf, offset + byte_value, 0, 0)
  else
    let number := if byte_value =? last_byte_value then number else 0 in
    check (negb (len buf <=? offset)) ;;;
    buf <- upd buf offset byte_value ;;
    Ok (buf, offset + 1, byte_value, number + 1).
(** 719-753 *)
Fixpoint bz_output (n : nat) (block permutations : list N) (permutation_value : N)
    (buf : list N) (offset last_byte_value number : N) : res (list N * N) :=
  match n with
  | O => Ok (buf, offset)
  | S n =>
      byte_value <- idx block permutation_value ;;
      '(buf, offset, last_byte_value, number) <- bz_put byte_value buf offset last_byte_value number ;;
      permutation_value <- permutation_at permutations permutation_value ;;
      bz_output n block permutations permutation_value buf offset last_byte_value number
  end.
(** [reverse_burrows_wheeler_transform]: the buffer and the offset in it *)
Definition bz_reverse_bwt (block : list N) (origin_pointer : N) (buf : list N) (offset : N) : res (list N * N) :=
  distributions <- bz_distributions block (repeat 0 256) ;;
  distributions <- bz_starts (seqN 0 256) distributions 0 ;;
  permutations <- bz_permutations block 0 distributions (repeat 0 (length block)) ;;
  permutation_value <- permutation_at permutations origin_pointer ;;
  bz_output (length block) block permutations permutation_value buf offset 0 0.

Section Bzip2.
  (** What the three arithmetic overflows below lead to: [Panic] in the code. *)
  Context (overflow : res unit).
  Definition unless_overflow (b : bool) : res unit := if b then Ok tt else overflow.

  (** ** Huffman trees: bzip2.rs 518-570 *)
  (** 529-540. A turn that does not end the loop reads a bit that is set, so that there are
      fewer than there are bits in the data and the bits buffer. *)
  Fixpoint bz_code_size (fuel : nat) (data : list N) (code_size : N) (s : bz_stream) : res (N * bz_stream) :=
    match fuel with
    | O => Panic
    | S fuel =>
        if code_size <? 20 then
          '(value, s) <- bz_value data 1 s ;;
          if value =? 0 then Ok (code_size, s)
          else
            '(value, s) <- bz_value data 1 s ;;
            if value =? 0 then bz_code_size fuel data (code_size + 1) s
            else
              unless_overflow (negb (code_size =? 0)) ;;;
              bz_code_size fuel data (code_size - 1) s
        else Ok (code_size, s)
    end.
  (** 528-550: the code sizes and the largest one *)
  Fixpoint bz_code_sizes (n : nat) (data : list N) (code_size largest : N) (s : bz_stream)
      : res (list N * N * bz_stream) :=
    match n with
    | O => Ok ([], largest, s)
    | S n =>
        '(code_size, s) <- bz_code_size (S (8 * length data + 8)) data code_size s ;;
        check (negb (20 <=? code_size)) ;;;
        '(code_sizes, largest, s) <- bz_code_sizes n data code_size (N.max code_size largest) s ;;
        Ok (code_size :: code_sizes, largest, s)
    end.
  (** 559-562 *)
  Fixpoint bz_check_value (largest : N) (code_sizes : list N) (check_value : N) : res N :=
    match code_sizes with
    | [] => Ok check_value
    | code_size :: code_sizes =>
        shift <- sub_chk largest code_size ;;
        v <- shl_chk 32 1 shift ;;
        unless_overflow (v <=? check_value) ;;;
        bz_check_value largest code_sizes (check_value - v)
    end.
  (** 354-356, 518-570 [read_huffman_tree] of a new tree *)
  Definition bz_tree (data : list N) (number_of_symbols : N) (s : bz_stream) : res (huffman_tree * bz_stream) :=
    '(code_size, s) <- bz_value data 5 s ;;
    '(code_sizes, largest, s) <- bz_code_sizes (N.to_nat number_of_symbols) data code_size code_size s ;;
    check (negb (32 <? largest)) ;;;
    check_value <- shl_chk 32 1 largest ;;
    check_value <- bz_check_value largest code_sizes check_value ;;
    check (check_value =? 0) ;;;
    tree <- huffman_build (huffman_new number_of_symbols 20) code_sizes ;;
    Ok (tree, s).
  (** 351-359 *)
  Fixpoint bz_trees (n : nat) (data : list N) (number_of_symbols : N) (s : bz_stream)
      : res (list huffman_tree * bz_stream) :=
    match n with
    | O => Ok ([], s)
    | S n =>
        '(tree, s) <- bz_tree data number_of_symbols s ;;
        '(trees, s) <- bz_trees n data number_of_symbols s ;;
        Ok (tree :: trees, s)
    end.

  (** ** Block data: bzip2.rs 395-515 *)
  (** The variables of the loop; the block data up to the current offset. *)
  Record block_state := {
    bl_stack : list N; bl_out : list N; bl_run_symbols : N; bl_run_value : N
  }.
  (** 426-451: the end of a run *)
  Definition bz_flush (symbol : N) (b : block_state) : res block_state :=
    if negb (bl_run_symbols b =? 0) && (1 <? symbol) then
      unless_overflow (bl_run_symbols b <? 64) ;;;
      run_length <- sub_chk (N.lor (2 ^ bl_run_symbols b) (bl_run_value b)) 1 ;;
      room <- sub_chk bzip2_block_size (len (bl_out b)) ;;
      check (negb (room <? run_length)) ;;;
      v <- idx (bl_stack b) 0 ;;
      Ok {| bl_stack := bl_stack b; bl_out := bl_out b ++ repeat v (N.to_nat run_length);
            bl_run_symbols := 0; bl_run_value := 0 |}
    else Ok b.
  (** 459-496: a symbol that is not the last *)
  Definition bz_symbol (end_of_block symbol : N) (b : block_state) : res block_state :=
    if (symbol =? 0) || (symbol =? 1) then
      unless_overflow (bl_run_symbols b <? 64) ;;;
      Ok {| bl_stack := bl_stack b; bl_out := bl_out b; bl_run_symbols := bl_run_symbols b + 1;
            bl_run_value := N.lor (bl_run_value b) (N.shiftl symbol (bl_run_symbols b) mod two64) |}
    else if symbol <? end_of_block then
      '(v, stack) <- to_front (bl_stack b) (symbol - 1) ;;
      check (negb (bzip2_block_size <=? len (bl_out b))) ;;;
      Ok {| bl_stack := stack; bl_out := bl_out b ++ [v]; bl_run_symbols := bl_run_symbols b;
            bl_run_value := bl_run_value b |}
    else Err.
  (** 416-510. After 50 symbols the next selector is used, and there is an error when they
      run out: the fuel is larger than that. *)
  Fixpoint bz_block_loop (fuel : nat) (data : list N) (trees : list huffman_tree) (selectors : list N)
      (number_of_selectors end_of_block : N) (symbol_index tree_index : N) (b : block_state) (s : bz_stream)
      : res (block_state * bz_stream) :=
    match fuel with
    | O => Panic
    | S fuel =>
        check (negb (len trees <=? tree_index)) ;;;
        tree <- idx trees tree_index ;;
        '(symbol, s) <- decode_symbol (bz_value data 1) tree s ;;
        b <- bz_flush symbol b ;;
        if symbol =? end_of_block then Ok (b, s)
        else
          b <- bz_symbol end_of_block symbol b ;;
          let symbol_index := symbol_index + 1 in
          tree_index <-
            (if symbol_index mod 50 =? 0 then
               let selector_index := symbol_index / 50 in
               check (negb (number_of_selectors <? selector_index)) ;;;
               selector_at selectors selector_index
             else Ok tree_index) ;;
          bz_block_loop fuel data trees selectors number_of_selectors end_of_block symbol_index tree_index b s
    end.
  (** [read_block_data]: the block data and the stack *)
  Definition bz_block_data (data : list N) (trees : list huffman_tree) (selectors : list N)
      (number_of_selectors : N) (stack : list N) (number_of_symbols : N) (s : bz_stream)
      : res (list N * list N * bz_stream) :=
    end_of_block <- sub_chk number_of_symbols 1 ;;
    tree_index <- selector_at selectors 0 ;;
    '(b, s) <- bz_block_loop (N.to_nat (50 * (number_of_selectors + 1) + 1)) data trees selectors
                 number_of_selectors end_of_block 0 tree_index
                 {| bl_stack := stack; bl_out := []; bl_run_symbols := 0; bl_run_value := 0 |} s ;;
    Ok (bl_out b, bl_stack b, s).

  (** ** Streams: bzip2.rs 305-392 *)
  (** 329-377: what follows the header of a block *)
  Definition bz_block (data : list N) (origin_pointer : N) (buf : list N) (offset : N) (selectors stack : list N)
      (s : bz_stream) : res (list N * N * list N * list N * bz_stream) :=
    '(stack, number_of_symbols, s) <- bz_symbol_stack data stack s ;;
    '(number_of_trees, s) <- bz_value data 3 s ;;
    '(number_of_selectors, s) <- bz_value data 15 s ;;
    '(selectors, s) <- bz_selectors data number_of_selectors number_of_trees selectors s ;;
    '(trees, s) <- bz_trees (N.to_nat number_of_trees) data number_of_symbols s ;;
    '(block, stack, s) <- bz_block_data data trees selectors number_of_selectors stack number_of_symbols s ;;
    '(buf, offset) <- bz_reverse_bwt block origin_pointer buf offset ;;
    Ok (buf, offset, selectors, stack, s).
  (** 316-378: the buffer, the offset in it and the last checksum read. A header has more
      than 8 bits, so that the offset in the data grows with each turn. *)
  Fixpoint bz_blocks (fuel : nat) (data : list N) (buf : list N) (offset : N) (selectors stack : list N)
      (checksum : N) (s : bz_stream) : res (list N * N * N) :=
    match fuel with
    | O => Panic
    | S fuel =>
        if bz_offset s <? len data then
          '(signature, checksum, origin_pointer, s) <- bz_header data s ;;
          if signature =? 0x177245385090 then Ok (buf, offset, checksum)
          else
            check (negb (bzip2_block_size <=? origin_pointer)) ;;;
            '(buf, offset, selectors, stack, s) <- bz_block data origin_pointer buf offset selectors stack s ;;
            bz_blocks fuel data buf offset selectors stack checksum s
        else Ok (buf, offset, checksum)
    end.
  (** 305-392 [decompress_bitstream]: the buffer and the uncompressed data size *)
  Definition bz_bitstream (data : list N) (buf : list N) (s : bz_stream) : res (list N * N) :=
    '(buf, offset, checksum) <- bz_blocks (S (length data)) data buf 0 [] (repeat 0 256) 0 s ;;
    output <- slice buf 0 offset ;;
    c <- crc_update (crc_new 0x04c11db7 0) output ;;
    let calculated_checksum := fst (crc_finalize c) in
    check (checksum =? calculated_checksum) ;;;
    Ok (buf, offset).
  (** 271-302 [decompress] with 161-181 [read_data] of the stream header *)
  Definition bzip2_decompress_with (data : list N) (buf : list N) : res (list N * N) :=
    check (negb (len data <? 14)) ;;;
    signature <- slice data 0 2 ;;
    check (if list_eq_dec N.eq_dec signature [0x42; 0x5a] then true else false) ;;;
    compression_level <- idx data 3 ;;
    check (negb ((compression_level <? 0x31) || (0x39 <? compression_level))) ;;;
    bz_bitstream data buf (mk_bz 4 0 0).
End Bzip2.
Definition bzip2_decompress : list N -> list N -> res (list N * N) := bzip2_decompress_with Panic.
