(** * Canonical Huffman trees: keramics-compression/src/huffman.rs

    Counts and codes are [isize] in the code. They are natural numbers here: a negative
    value of [left_value] returns an error at once, and where a difference is used as an
    index it is a checked subtraction. Codes have at most [largest_code_size] bits, which
    is 15, 16 or 20 for all users, so they do not overflow. A tree whose construction failed
    is not modelled. The debug output is not modelled. *)
From Verif Require Import Base.

(** [HuffmanTree]: huffman.rs 24-39 *)
Record huffman_tree := mk_tree {
  largest_code_size : N;
  symbols : list N;
  code_size_counts : list N }.

(** [HuffmanTree::new]: huffman.rs 43-52 *)
Definition huffman_new (number_of_symbols largest : N) : huffman_tree :=
  mk_tree largest (repeat 0 (N.to_nat number_of_symbols)) (repeat 0 (N.to_nat (largest + 1))).

(** huffman.rs 67-77: the frequencies of the code sizes *)
Fixpoint count_sizes (largest : N) (counts : list N) (code_sizes : list N) : res (list N) :=
  match code_sizes with
  | [] => Ok counts
  | code_size :: r =>
      check (code_size <=? largest) ;;;
      n <- idx counts code_size ;;
      counts <- upd counts code_size (n + 1) ;;
      count_sizes largest counts r
  end.

(** huffman.rs 82-92: [left_value], doubled and reduced for each [bit_index] *)
Fixpoint check_subscription (counts : list N) (bit_indexes : list N) (left_value : N) : res N :=
  match bit_indexes with
  | [] => Ok left_value
  | bit_index :: r =>
      n <- idx counts bit_index ;;
      check (n <=? 2 * left_value) ;;;
      check_subscription counts r (2 * left_value - n)
  end.

(** huffman.rs 104-113: where the symbols of each code size start *)
Fixpoint make_offsets (counts : list N) (bit_indexes : list N) (offsets : list N) : res (list N) :=
  match bit_indexes with
  | [] => Ok offsets
  | bit_index :: r =>
      o <- idx offsets bit_index ;;
      n <- idx counts bit_index ;;
      make_offsets counts r (offsets ++ [o + n])
  end.

(** huffman.rs 115-137: fill the symbols sorted by code size *)
Fixpoint fill_symbols (number_of_code_sizes symbol : N) (code_sizes : list N)
    (offsets syms : list N) : res (list N) :=
  match code_sizes with
  | [] => Ok syms
  | code_size :: r =>
      '(offsets, syms) <-
        (if 0 <? code_size then
           code_offset <- idx offsets code_size ;;
           check (code_offset <=? number_of_code_sizes) ;;;
           offsets <- upd offsets code_size (code_offset + 1) ;;
           syms <- upd syms code_offset symbol ;;
           Ok (offsets, syms)
         else Ok (offsets, syms)) ;;
      fill_symbols number_of_code_sizes (symbol + 1) r offsets syms
  end.

(** [HuffmanTree::build]: huffman.rs 55-142 *)
Definition huffman_build (t : huffman_tree) (code_sizes : list N) : res huffman_tree :=
  let n := len code_sizes in
  let largest := largest_code_size t in
  check (n <=? 65535) ;;;
  let zeros := repeat 0 (length (code_size_counts t)) in
  counts <- count_sizes largest zeros code_sizes ;;
  unused <- idx counts 0 ;;
  check (negb (unused =? n)) ;;;
  _left <- check_subscription counts (seqN 1 (N.to_nat largest)) 1 ;;
  offsets <- make_offsets counts (seqN 1 (N.to_nat (largest - 1))) [0; 0] ;;
  syms <- fill_symbols n 0 code_sizes offsets (symbols t) ;;
  Ok (mk_tree largest syms counts).

(** [HuffmanTree::decode_symbol]: huffman.rs 145-169. [get_bit] is [get_value(1)] of the
    bit stream, whose state is an [S]. *)
Fixpoint decode_loop {S} (get_bit : S -> res (N * S)) (t : huffman_tree) (bit_indexes : list N)
    (first_huffman_code huffman_code first_index : N) (s : S) : res (N * S) :=
  match bit_indexes with
  | [] => Err
  | bit_index :: r =>
      '(bit, s) <- get_bit s ;;
      let huffman_code := N.lor (N.shiftl huffman_code 1) bit in
      code_size_count <- idx (code_size_counts t) bit_index ;;
      if huffman_code <? first_huffman_code + code_size_count then
        d <- sub_chk huffman_code first_huffman_code ;;
        symbol <- idx (symbols t) (first_index + d) ;;
        Ok (symbol, s)
      else
        decode_loop get_bit t r (N.shiftl (first_huffman_code + code_size_count) 1) huffman_code
          (first_index + code_size_count) s
  end.
Definition decode_symbol {S} (get_bit : S -> res (N * S)) (t : huffman_tree) (s : S) : res (N * S) :=
  decode_loop get_bit t (seqN 1 (N.to_nat (largest_code_size t))) 0 0 0 s.
