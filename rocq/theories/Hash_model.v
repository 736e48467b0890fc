(** * keramics-hashes: MD5, SHA-1, SHA-224, SHA-256, SHA-512 *)
From Verif Require Import Base Hash_tables.

(** ** Word operations *)

(** [u32::rotate_left], [u64::rotate_right], ... on words of [w] bits *)
Definition rotl (w x s : N) : N :=
  N.lor (N.shiftl x s mod 2 ^ w) (N.shiftr x (w - s)).
Definition rotr (w x s : N) : N :=
  N.lor (N.shiftr x s) (N.shiftl x (w - s) mod 2 ^ w).
(** [!x] *)
Definition notw (w x : N) : N := N.lxor x (N.ones w).
(** [wrapping_add] *)
Definition addw (w a b : N) : N := (a + b) mod 2 ^ w.

(** Array access with an index that is in bounds by construction (all indices in
    the block transforms are compile-time constants or loop counters). *)
Definition at_ (l : list N) (i : nat) : N := nth i l 0.

(** The words of a block, [n] bytes each: md5.rs:92-99, sha1.rs:62-69,
    sha256.rs:76-83, sha512.rs:91-98 *)
Fixpoint words (value : list N -> N) (n : nat) (count : nat) (data : list N) : list N :=
  match count with
  | O => []
  | S c => value (firstn n data) :: words value n c (skipn n data)
  end.

(** The final addition: md5.rs:125-128, sha1.rs:109-112, sha256.rs:136-139 *)
Fixpoint add_each (w : N) (a b : list N) : list N :=
  match a, b with
  | x :: a', y :: b' => addw w x y :: add_each w a' b'
  | _, _ => []
  end.

(** ** Block transforms *)

(** keramics-hashes/src/md5.rs:104-123: loop body *)
Definition md5_round (vals : list N) (h : list N) (i : nat) : list N :=
  let h0 := at_ h 0 in let h1 := at_ h 1 in let h2 := at_ h 2 in let h3 := at_ h 3 in
  let f :=
    if (i <? 16)%nat then N.lor (N.land h1 h2) (N.land (notw 32 h1) h3)
    else if (i <? 32)%nat then N.lor (N.land h1 h3) (N.land h2 (notw 32 h3))
    else if (i <? 48)%nat then N.lxor (N.lxor h1 h2) h3
    else N.lxor h2 (N.lor h1 (notw 32 h3)) in
  let s := addw 32 (addw 32 (addw 32 f h0) (at_ vals (N.to_nat (at_ md5_index i)))) (at_ md5_sines i) in
  let block_hash := rotl 32 s (at_ md5_bit_shifts i) in
  [h3; addw 32 h1 block_hash; h1; h2].

(** md5.rs:86-130 [transform_block]; [data] is the 64 byte block *)
Definition md5_transform (hash : list N) (data : list N) : list N :=
  let vals := words le_value 4 16 data in
  add_each 32 (fold_left (md5_round vals) (seq 0 64) hash) hash.

(** keramics-hashes/src/sha1.rs:71-77: one more message word *)
Definition sha1_extend (vals : list N) (i : nat) : list N :=
  vals ++ [rotl 32 (N.lxor (N.lxor (N.lxor (at_ vals (i - 3)) (at_ vals (i - 8)))
                                   (at_ vals (i - 14))) (at_ vals (i - 16))) 1].

(** sha1.rs:82-107: loop body *)
Definition sha1_round (vals : list N) (h : list N) (i : nat) : list N :=
  let h0 := at_ h 0 in let h1 := at_ h 1 in let h2 := at_ h 2 in let h3 := at_ h 3 in
  let h4 := at_ h 4 in
  let f :=
    if (i <? 20)%nat then addw 32 0x5a827999 (N.lor (N.land h1 h2) (N.land (notw 32 h1) h3))
    else if (i <? 40)%nat then addw 32 0x6ed9eba1 (N.lxor (N.lxor h1 h2) h3)
    else if (i <? 60)%nat then addw 32 0x8f1bbcdc
         (N.lor (N.lor (N.land h1 h2) (N.land h1 h3)) (N.land h2 h3))
    else addw 32 0xca62c1d6 (N.lxor (N.lxor h1 h2) h3) in
  let block_hash := addw 32 (addw 32 (addw 32 f h4) (rotl 32 h0 5)) (at_ vals i) in
  [block_hash; h0; rotl 32 h1 30; h2; h3].

(** sha1.rs:56-114 [transform_block] *)
Definition sha1_transform (hash : list N) (data : list N) : list N :=
  let vals := fold_left sha1_extend (seq 16 64) (words be_value 4 16 data) in
  add_each 32 (fold_left (sha1_round vals) (seq 0 80) hash) hash.

(** The SHA-2 transforms differ in the word size, the rotation amounts, the number
    of rounds and the constants. *)
Record sha2_params := {
  s2_bits : N;                       (* word size in bits *)
  s2_e0 : N * N * N;                 (* schedule s0: rotate, rotate, shift *)
  s2_e1 : N * N * N;                 (* schedule s1: rotate, rotate, shift *)
  s2_r0 : N * N * N;                 (* round s0 rotations *)
  s2_r1 : N * N * N;                 (* round s1 rotations *)
  s2_rounds : nat;
  s2_k : list N
}.

(** sha256.rs:85-98, sha224.rs:85-98, sha512.rs:100-113 *)
Definition sha2_extend (p : sha2_params) (vals : list N) (i : nat) : list N :=
  let w := s2_bits p in
  let '(a, b, c) := s2_e0 p in
  let s0 := N.lxor (N.lxor (rotr w (at_ vals (i - 15)) a) (rotr w (at_ vals (i - 15)) b))
                   (N.shiftr (at_ vals (i - 15)) c) in
  let '(a, b, c) := s2_e1 p in
  let s1 := N.lxor (N.lxor (rotr w (at_ vals (i - 2)) a) (rotr w (at_ vals (i - 2)) b))
                   (N.shiftr (at_ vals (i - 2)) c) in
  vals ++ [addw w (addw w (addw w (at_ vals (i - 16)) s0) (at_ vals (i - 7))) s1].

(** sha256.rs:103-134, sha224.rs:103-134, sha512.rs:118-149 *)
Definition sha2_round (p : sha2_params) (vals : list N) (h : list N) (i : nat) : list N :=
  let w := s2_bits p in
  let h0 := at_ h 0 in let h1 := at_ h 1 in let h2 := at_ h 2 in let h3 := at_ h 3 in
  let h4 := at_ h 4 in let h5 := at_ h 5 in let h6 := at_ h 6 in let h7 := at_ h 7 in
  let '(a, b, c) := s2_r0 p in
  let s0 := N.lxor (N.lxor (rotr w h0 a) (rotr w h0 b)) (rotr w h0 c) in
  let '(a, b, c) := s2_r1 p in
  let s1 := N.lxor (N.lxor (rotr w h4 a) (rotr w h4 b)) (rotr w h4 c) in
  let t1 := addw w (addw w (addw w (addw w h7 s1)
              (N.lxor (N.land h4 h5) (N.land (notw w h4) h6)))
              (at_ (s2_k p) i)) (at_ vals i) in
  let t2 := addw w s0 (N.lxor (N.lxor (N.land h0 h1) (N.land h0 h2)) (N.land h1 h2)) in
  [addw w t1 t2; h0; h1; h2; addw w h3 t1; h4; h5; h6].

(** sha256.rs:70-141, sha224.rs:70-141, sha512.rs:85-156 [transform_block] *)
Definition sha2_transform (p : sha2_params) (hash : list N) (data : list N) : list N :=
  let vals := fold_left (sha2_extend p) (seq 16 (s2_rounds p - 16))
                (words be_value (N.to_nat (s2_bits p / 8)) 16 data) in
  add_each (s2_bits p) (fold_left (sha2_round p vals) (seq 0 (s2_rounds p)) hash) hash.

(** sha224.rs, sha256.rs, sha512.rs: the amounts in the lines cited above *)
Definition sha224_params : sha2_params :=
  {| s2_bits := 32; s2_e0 := (7, 18, 3); s2_e1 := (17, 19, 10);
     s2_r0 := (2, 13, 22); s2_r1 := (6, 11, 25); s2_rounds := 64; s2_k := sha224_k |}.
Definition sha256_params : sha2_params :=
  {| s2_bits := 32; s2_e0 := (7, 18, 3); s2_e1 := (17, 19, 10);
     s2_r0 := (2, 13, 22); s2_r1 := (6, 11, 25); s2_rounds := 64; s2_k := sha256_k |}.
Definition sha512_params : sha2_params :=
  {| s2_bits := 64; s2_e0 := (1, 8, 7); s2_e1 := (19, 61, 6);
     s2_r0 := (28, 34, 39); s2_r1 := (14, 18, 41); s2_rounds := 80; s2_k := sha512_k |}.

(** ** Contexts

    The five context types have the same [update] and [finalize] up to the
    parameters below. *)
Record hash_alg := {
  ha_block_size : N;                       (* ..._BLOCK_SIZE *)
  ha_limit : N;                            (* 56 or 112 in finalize *)
  ha_initial : list N;
  ha_transform : list N -> list N -> list N;
  ha_length_bytes : N -> list N;           (* bit_size.to_le_bytes / to_be_bytes *)
  ha_output : list N -> list N             (* hash values to digest bytes *)
}.

(** md5.rs:154-159; sha1.rs:138-143; sha224.rs:165-170 (omits the last value);
    sha256.rs:165-170; sha512.rs:180-185 *)
Definition md5_alg : hash_alg :=
  {| ha_block_size := 64; ha_limit := 56; ha_initial := md5_initial;
     ha_transform := md5_transform; ha_length_bytes := le_bytes 8;
     ha_output := fun h => concat (map (le_bytes 4) h) |}.
Definition sha1_alg : hash_alg :=
  {| ha_block_size := 64; ha_limit := 56; ha_initial := sha1_initial;
     ha_transform := sha1_transform; ha_length_bytes := be_bytes 8;
     ha_output := fun h => concat (map (be_bytes 4) h) |}.
Definition sha224_alg : hash_alg :=
  {| ha_block_size := 64; ha_limit := 56; ha_initial := sha224_initial;
     ha_transform := sha2_transform sha224_params; ha_length_bytes := be_bytes 8;
     ha_output := fun h => concat (map (be_bytes 4) (firstn 7 h)) |}.
Definition sha256_alg : hash_alg :=
  {| ha_block_size := 64; ha_limit := 56; ha_initial := sha256_initial;
     ha_transform := sha2_transform sha256_params; ha_length_bytes := be_bytes 8;
     ha_output := fun h => concat (map (be_bytes 4) h) |}.
Definition sha512_alg : hash_alg :=
  {| ha_block_size := 128; ha_limit := 112; ha_initial := sha512_initial;
     ha_transform := sha2_transform sha512_params; ha_length_bytes := be_bytes 8;
     ha_output := fun h => concat (map (be_bytes 8) h) |}.

(** md5.rs:59-71 [Md5Context] and the other context structures *)
Record hash_ctx := {
  hc_values : list N;
  hc_bytes_hashed : N;
  hc_block_offset : N;
  hc_block : list N
}.

Section Context.
  Variable a : hash_alg.
  Let bs := ha_block_size a.

  (** md5.rs:75-82 [new] *)
  Definition hash_new : hash_ctx :=
    {| hc_values := ha_initial a; hc_bytes_hashed := 0; hc_block_offset := 0;
       hc_block := repeat 0 (N.to_nat (2 * bs)) |}.

  (** [transform_block(&self.hash_values, data, offset)] reads one block *)
  Definition transform_at (values : list N) (data : list N) (offset : N) : res (list N) :=
    block <- slice data offset (offset + bs) ;;
    Ok (ha_transform a values block).

  (** md5.rs:175-183: copy bytes until the block is full or the data is used up *)
  Fixpoint hash_fill (block : list N) (offset : N) (data : list N) : res (list N * N * list N) :=
    match data with
    | [] => Ok (block, offset, [])
    | b :: rest =>
        if offset <? bs then
          block <- upd block offset b ;;
          hash_fill block (offset + 1) rest
        else Ok (block, offset, data)
    end.

  (** md5.rs:193-200: whole blocks straight from the data; the loop condition
      [data_offset + BLOCK_SIZE < data_size] is strict. Fuel: length of the data. *)
  Fixpoint hash_blocks (fuel : nat) (values : list N) (count : N) (data : list N)
    : res (list N * N * list N) :=
    match fuel with
    | O => Ok (values, count, data)
    | S fuel' =>
        if bs <? len data then
          values <- transform_at values data 0 ;;
          count <- add_chk two64 count bs ;;
          hash_blocks fuel' values count (skipn (N.to_nat bs) data)
        else Ok (values, count, data)
    end.

  (** md5.rs:201-206: copy the rest into the block *)
  Fixpoint hash_store (block : list N) (offset : N) (data : list N) : res (list N * N) :=
    match data with
    | [] => Ok (block, offset)
    | b :: rest =>
        block <- upd block offset b ;;
        hash_store block (offset + 1) rest
    end.

  (** md5.rs:170-207 [update] *)
  Definition hash_update (c : hash_ctx) (data : list N) : res hash_ctx :=
    '(values, count, block, offset, data) <-
      (if 0 <? hc_block_offset c then
         '(block, offset, data) <- hash_fill (hc_block c) (hc_block_offset c) data ;;
         if offset =? bs then
           values <- transform_at (hc_values c) block 0 ;;
           count <- add_chk two64 (hc_bytes_hashed c) bs ;;
           Ok (values, count, block, 0, data)
         else Ok (hc_values c, hc_bytes_hashed c, block, offset, data)
       else Ok (hc_values c, hc_bytes_hashed c, hc_block c, hc_block_offset c, data)) ;;
    '(values, count, data) <- hash_blocks (length data) values count data ;;
    '(block, offset) <- hash_store block offset data ;;
    Ok {| hc_values := values; hc_bytes_hashed := count;
          hc_block_offset := offset; hc_block := block |}.

  (** [dest[from..to].copy_from_slice(src)] *)
  Definition copy_into (dest : list N) (from to : N) (src : list N) : res (list N) :=
    assert ((from <=? to) && (to <=? len dest) && (len src =? to - from)) ;;;
    Ok (firstn (N.to_nat from) dest ++ src ++ skipn (N.to_nat to) dest).

  (** md5.rs:148-153: the transforms of the one or two padded blocks *)
  Fixpoint hash_final_blocks (n : nat) (offset : N) (values : list N) (block : list N)
    : res (list N) :=
    match n with
    | O => Ok values
    | S n' =>
        values <- transform_at values block offset ;;
        hash_final_blocks n' (offset + bs) values block
    end.

  (** md5.rs:135-167 [finalize]: the digest and the context after the call *)
  Definition hash_finalize (c : hash_ctx) : res (list N * hash_ctx) :=
    total <- add_chk two64 (hc_bytes_hashed c) (hc_block_offset c) ;;
    bit_size <- mul_chk two64 total 8 ;;
    let nblocks := if ha_limit a <=? hc_block_offset c then 2 else 1 in
    let padding_size := bs * nblocks in
    let bit_size_block_offset := padding_size - 8 in
    block <- upd (hc_block c) (hc_block_offset c) 0x80 ;;
    block <- copy_into block (hc_block_offset c + 1) bit_size_block_offset
               (repeat 0 (N.to_nat (bit_size_block_offset - (hc_block_offset c + 1)))) ;;
    block <- copy_into block bit_size_block_offset padding_size (ha_length_bytes a bit_size) ;;
    values <- hash_final_blocks (N.to_nat nblocks) 0 (hc_values c) block ;;
    Ok (ha_output a values,
        {| hc_values := ha_initial a; hc_bytes_hashed := 0; hc_block_offset := 0;
           hc_block := repeat 0 (length block) |}).

  (** A caller: several updates, then finalize. *)
  Fixpoint hash_updates (c : hash_ctx) (chunks : list (list N)) : res hash_ctx :=
    match chunks with
    | [] => Ok c
    | d :: rest => c' <- hash_update c d ;; hash_updates c' rest
    end.

  Definition hash_run (c : hash_ctx) (chunks : list (list N)) : res (list N * hash_ctx) :=
    c' <- hash_updates c chunks ;; hash_finalize c'.
End Context.
