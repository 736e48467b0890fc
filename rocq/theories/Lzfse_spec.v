(** * LZFSE: what a compressor writes

    Written from the description of the format, not from the code. A stream is a sequence
    of blocks that ends with a marker. A block is stored as it is, compressed with LZVN,
    or compressed with LZ77 and finite state entropy coding (version 2 of the block
    header; version 1 is not described here). *)
From Verif Require Import Base Lz_spec Huffman_spec Bzip2_spec Deflate_spec.

(** ** Finite state entropy coding

    [frequencies] says how many of the [states] states belong to every symbol: the first
    ones to symbol 0, and so on. To put symbol [s] in front of what leads to state [x], an
    encoder drops so many low bits of [states + x] that what is left is at least the
    frequency of the symbol and less than twice the frequency; the dropped bits are written, what is left names
    one of the states of the symbol. *)
Definition total (l : list N) : N := fold_right N.add 0 l.
Definition fse_step (states : N) (frequencies : list N) (y s : N) (bits : list bool) (x : N) : Prop :=
  exists f k,
    nth_error frequencies (N.to_nat s) = Some f /\ x < states /\
    f <= (states + x) / 2 ^ N.of_nat k < 2 * f /\
    y = total (firstn (N.to_nat s) frequencies) + ((states + x) / 2 ^ N.of_nat k - f) /\
    bits = bits_msb k (states + x).

(** ** Literals

    Four states take turns. *)
Inductive literal_run (frequencies : list N) : list N -> list N -> list bool -> Prop :=
| literal_end states : literal_run frequencies states [] []
| literal_next y states s bits x literals r :
    fse_step 1024 frequencies y s bits x ->
    literal_run frequencies (states ++ [x]) literals r ->
    literal_run frequencies (y :: states) (s :: literals) (bits ++ r).

(** ** Numbers

    A number is a symbol and some extra bits. [extra] holds how many they are for every
    symbol; a symbol stands for as many numbers as they can tell apart, and the numbers of
    the symbols follow each other. *)
Definition base_value (extra : list N) (s : N) : N := total (map (fun e => 2 ^ e) (firstn (N.to_nat s) extra)).
Definition number_step (states : N) (frequencies extra : list N) (y v : N) (bits : list bool) (x : N) : Prop :=
  exists s sb e n,
    fse_step states frequencies y s sb x /\ nth_error extra (N.to_nat s) = Some e /\ n < 2 ^ e /\
    v = base_value extra s + n /\ bits = sb ++ bits_msb (N.to_nat e) n.

Definition l_extra : list N := repeat 0 16 ++ [2; 3; 5; 8].
Definition m_extra : list N := repeat 0 16 ++ [3; 5; 8; 11].
Definition d_extra : list N := map (fun i => i / 4) (seqN 0 64).

(** A triple: how many literals, how many bytes of a match, how far back it starts. *)
Inductive triple_run (fl fm fd : list N) : N -> N -> N -> list (N * N * N) -> list bool -> Prop :=
| triple_end yl ym yd : triple_run fl fm fd yl ym yd [] []
| triple_next yl ym yd l m d bl bm bd xl xm xd ts r :
    number_step 64 fl l_extra yl l bl xl ->
    number_step 64 fm m_extra ym m bm xm ->
    number_step 256 fd d_extra yd d bd xd ->
    triple_run fl fm fd xl xm xd ts r ->
    triple_run fl fm fd yl ym yd ((l, m, d) :: ts) (bl ++ bm ++ bd ++ r).

(** What the triples mean. A distance of zero is the one before. *)
Fixpoint triples_meaning (out : list N) (distance : N) (literals : list N) (ts : list (N * N * N)) : option (list N) :=
  match ts with
  | [] => Some out
  | (l, m, d) :: r =>
      let distance := if d =? 0 then distance else d in
      let out := out ++ firstn (N.to_nat l) literals in
      if (l <=? N.of_nat (length literals)) && (distance <=? N.of_nat (length out)) && ((1 <=? distance) || (m =? 0))
      then triples_meaning (lz_copy out distance (N.to_nat m)) distance (skipn (N.to_nat l) literals) r
      else None
  end.

(** ** The table of frequencies

    Lowest bit first. *)
Definition frequency_bits (f : N) : list bool :=
  if f <? 2 then [false; f =? 1]
  else if f <? 4 then [true; false; f =? 3]
  else if f <? 8 then [true; true; false] ++ bits_lsb 2 (f - 4)
  else if f <? 24 then [true; true; true; false] ++ bits_lsb 4 (f - 8)
  else [true; true; true; true] ++ bits_lsb 10 (f - 24).

(** ** Blocks *)
Record fse_block := {
  b_l : list N; b_m : list N; b_d : list N; b_u : list N;     (* the frequencies *)
  b_table : list N;                                           (* the table that holds them *)
  b_literals : list N; b_triples : list (N * N * N);
  b_states : list N;                                          (* of the literals *)
  b_l_state : N; b_m_state : N; b_d_state : N;
  b_literal_padding : N; b_triple_padding : N;                (* unused bits of the last byte *)
  b_literal_data : list N; b_triple_data : list N }.

(** The bits of the data are those of its bytes from the last to the first, highest bit
    first. *)
Definition backwards (data : list N) : list bool := bytes_bits (rev data).

Definition fse_block_valid (b : fse_block) : Prop :=
  (length (b_l b) = 20%nat /\ length (b_m b) = 20%nat /\ length (b_d b) = 64%nat /\ length (b_u b) = 256%nat) /\
  (total (b_l b) <= 64 /\ total (b_m b) <= 64 /\ total (b_d b) <= 256 /\ total (b_u b) <= 1024) /\
  wf_bytes (b_table b) /\
  (exists rest, bits_of (b_table b) = flat_map frequency_bits (b_l b ++ b_m b ++ b_d b ++ b_u b) ++ rest /\
     (length rest < 8)%nat) /\
  len (b_literals b) <= 40000 /\ N.of_nat (length (b_literals b)) mod 4 = 0 /\ len (b_triples b) < 2 ^ 20 /\
  (length (b_states b) = 4%nat /\ Forall (fun y => y < 1024) (b_states b) /\
   b_l_state b < 64 /\ b_m_state b < 64 /\ b_d_state b < 256) /\
  (b_literal_padding b <= 7 /\ b_triple_padding b <= 7) /\
  (wf_bytes (b_literal_data b) /\ wf_bytes (b_triple_data b) /\
   len (b_literal_data b) < 2 ^ 20 /\ len (b_triple_data b) < 2 ^ 20) /\
  (exists padding w rest, backwards (b_literal_data b) = padding ++ w ++ rest /\
     N.of_nat (length padding) = b_literal_padding b /\ literal_run (b_u b) (b_states b) (b_literals b) w) /\
  (exists padding w rest, backwards (b_triple_data b) = padding ++ w ++ rest /\
     N.of_nat (length padding) = b_triple_padding b /\
     triple_run (b_l b) (b_m b) (b_d b) (b_l_state b) (b_m_state b) (b_d_state b) (b_triples b) w).

Inductive lzfse_block :=
| Stored (bytes : list N)
| Lzvn (tokens : list lzvn_token)
| Fse (b : fse_block).

Definition block_valid (b : lzfse_block) : Prop :=
  match b with
  | Stored bytes => wf_bytes bytes
  | Lzvn tokens => Forall lzvn_valid tokens /\ len (lzvn_encode tokens) < 2 ^ 32
  | Fse b => fse_block_valid b
  end.

(** What a block adds to the output. The matches of a block with triples may start in the
    blocks before it. *)
Definition block_meaning (out : list N) (b : lzfse_block) : option (list N) :=
  match b with
  | Stored bytes => Some (out ++ bytes)
  | Lzvn tokens => match lzvn_meaning [] 0 tokens with Some l => Some (out ++ l) | None => None end
  | Fse b => triples_meaning out 0 (b_literals b) (b_triples b)
  end.

(** The fields of a block header of version 2, lowest bits first. *)
Definition fse_fields (b : fse_block) : list N :=
  let s i := nth i (b_states b) 0 in
  le_bytes 8 (len (b_literals b) + 2 ^ 20 * len (b_literal_data b) + 2 ^ 40 * len (b_triples b) +
              2 ^ 60 * (7 - b_literal_padding b)) ++
  le_bytes 8 (s 0%nat + 2 ^ 10 * s 1%nat + 2 ^ 20 * s 2%nat + 2 ^ 30 * s 3%nat + 2 ^ 40 * len (b_triple_data b) +
              2 ^ 60 * (7 - b_triple_padding b)) ++
  le_bytes 8 (32 + len (b_table b) + 2 ^ 32 * b_l_state b + 2 ^ 42 * b_m_state b + 2 ^ 52 * b_d_state b).

(** "bvx-", "bvxn", "bvx2" and "bvx$" *)
Definition block_bytes (size : N) (b : lzfse_block) : list N :=
  match b with
  | Stored bytes => [0x62; 0x76; 0x78; 0x2d] ++ le_bytes 4 size ++ bytes
  | Lzvn tokens =>
      [0x62; 0x76; 0x78; 0x6e] ++ le_bytes 4 size ++ le_bytes 4 (len (lzvn_encode tokens)) ++ lzvn_encode tokens
  | Fse b =>
      [0x62; 0x76; 0x78; 0x32] ++ le_bytes 4 size ++ fse_fields b ++ b_table b ++ b_literal_data b ++ b_triple_data b
  end.

(** [lzfse_stream allowed out bytes content]: after [out], [bytes] completes it to [content], with
    blocks that are [allowed]. *)
Inductive lzfse_stream (allowed : lzfse_block -> Prop) : list N -> list N -> list N -> Prop :=
| stream_end out : lzfse_stream allowed out [0x62; 0x76; 0x78; 0x24] out
| stream_block out b after bytes content :
    block_valid b -> allowed b -> block_meaning out b = Some after -> len after - len out < 2 ^ 32 ->
    lzfse_stream allowed after bytes content ->
    lzfse_stream allowed out (block_bytes (len after - len out) b ++ bytes) content.
Definition any_block (b : lzfse_block) : Prop := True.
(** The literals and the triples of the block take eight bytes or more. *)
Definition block_with_data (b : lzfse_block) : Prop :=
  match b with Fse b => 8 <= len (b_literal_data b) + len (b_triple_data b) | _ => True end.

(** ** Data that is not a stream *)
(** The four bytes "bvx" and [x] at position [i]. *)
Definition marker_at (data : list N) (i : nat) (x : N) : Prop := firstn 4 (skipn i data) = [0x62; 0x76; 0x78; x].
(** Wherever a block of version 2 may start: when its header claims to have a table, the table has 360
    frequencies in it. *)
Definition tables_complete (data : list N) : Prop :=
  forall i h, marker_at data i 0x32 -> h = le_value (firstn 8 (skipn (i + 24) data)) mod 2 ^ 32 ->
  32 < h -> N.of_nat i + 8 + h <= len data ->
  exists frequencies rest, length frequencies = 360%nat /\ Forall (fun f => f < 1048) frequencies /\
    bits_of (firstn (N.to_nat (h - 32)) (skipn (i + 32) data)) = flat_map frequency_bits frequencies ++ rest.
