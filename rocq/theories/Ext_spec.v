(** * ext: the blocks of a file

    A file is described by the list of its blocks: their numbers in the volume, 0 for a
    hole. *)
From Verif Require Import Base Streams_spec Ext_model.

(** What ranges describe. *)
Definition range_blocks (r : ext_range) : list N :=
  if er_sparse r then repeat 0 (N.to_nat (er_count r)) else seqN (er_physical r) (N.to_nat (er_count r)).
Definition described (ranges : list ext_range) : list N := flat_map range_blocks ranges.
(** Ranges that follow each other without a gap from block [first] on, none of them empty. *)
Fixpoint contiguous (first : N) (ranges : list ext_range) : Prop :=
  match ranges with
  | [] => True
  | r :: ranges => er_logical r = first /\ 0 < er_count r /\ contiguous (first + er_count r) ranges
  end.

(** ** The block map of ext2 and ext3 *)
(** A block, or any bytes, as numbers of four bytes. *)
Fixpoint words (data : list N) : list N :=
  match data with
  | a :: b :: c :: d :: rest => le_value [a; b; c; d] :: words rest
  | _ => []
  end.
Definition block_at (volume : list N) (block_size b : N) : list N := bytes_at volume (b * block_size) block_size.
(** The blocks reached from block number [b] through [depth] levels of indirection. *)
Fixpoint tree_blocks (volume : list N) (block_size : N) (depth : nat) (b : N) : list N :=
  match depth with
  | O => [b]
  | S depth' =>
      if b =? 0 then repeat 0 (N.to_nat ((block_size / 4) ^ N.of_nat depth))
      else flat_map (tree_blocks volume block_size depth') (words (block_at volume block_size b))
  end.
(** The first [n] blocks: twelve direct ones, then those behind one, two and three levels
    of indirection, then holes. *)
Definition mapped_blocks (volume : list N) (block_size n : N) (data_reference : list N) : list N :=
  let w := words data_reference in
  let tree := tree_blocks volume block_size in
  firstn (N.to_nat n)
    (firstn 12 w ++ tree 1%nat (nth 12 w 0) ++ tree 2%nat (nth 13 w 0) ++ tree 3%nat (nth 14 w 0) ++
     repeat 0 (N.to_nat n)).
(** The blocks that hold block numbers lie in the volume. *)
Fixpoint tree_inside (volume : list N) (block_size : N) (depth : nat) (b : N) : Prop :=
  match depth with
  | O => True
  | S depth' =>
      b = 0 \/ (b * block_size + block_size <= len volume /\
                Forall (tree_inside volume block_size depth') (words (block_at volume block_size b)))
  end.

(** ** Extents of ext4 *)
(** [count] blocks from logical block [logical] on are at [physical]; an extent that was
    allocated but not written reads as zeros. *)
Record extent := { x_logical : N; x_count : N; x_physical : N; x_written : bool }.
Definition extent_ok (x : extent) : Prop :=
  x_logical x < two32 /\ x_physical x < 2 ^ 48 /\
  1 <= x_count x <= (if x_written x then 32768 else 32767) /\ (x_written x = true -> 0 < x_physical x).
(** logical block number, number of blocks (plus 32768 if not written), physical block
    number: upper 16 bits, lower 32 bits *)
Definition encode_extent (x : extent) : list N :=
  le_bytes 4 (x_logical x) ++
  le_bytes 2 (if x_written x then x_count x else x_count x + 32768) ++
  le_bytes 2 (x_physical x / two32) ++ le_bytes 4 (x_physical x mod two32).
(** first logical block number (not used), physical block number: lower 32 bits, upper 16
    bits; two unused bytes *)
Definition encode_index (logical physical u0 u1 : N) : list N :=
  le_bytes 4 logical ++ le_bytes 4 (physical mod two32) ++ le_bytes 2 (physical / two32) ++ [u0; u1].
Definition encode_header (entries maximum depth : N) (generation : list N) : list N :=
  [0x0a; 0xf3] ++ le_bytes 2 entries ++ le_bytes 2 maximum ++ le_bytes 2 depth ++ generation.

(** [extents_node volume block_size depth data extents]: the node [data] is the root of a
    tree of [depth] levels of indexes with the extents, in order. *)
Inductive extents_node (volume : list N) (block_size : N) : N -> list N -> list extent -> Prop :=
| leaf_node extents maximum generation rest :
    Forall extent_ok extents -> len extents < two16 -> len generation = 4 ->
    extents_node volume block_size 0
      (encode_header (len extents) maximum 0 generation ++ flat_map encode_extent extents ++ rest) extents
| index_node depth indexes extents maximum generation rest :
    1 <= depth <= 5 -> indexed volume block_size depth indexes extents -> len indexes < two16 ->
    len generation = 4 ->
    extents_node volume block_size depth
      (encode_header (len indexes) maximum depth generation ++ concat indexes ++ rest) extents
with indexed (volume : list N) (block_size : N) : N -> list (list N) -> list extent -> Prop :=
| no_index depth : indexed volume block_size depth [] []
| some_index depth logical physical u0 u1 sub extents indexes extents' :
    sub < depth -> physical < 2 ^ 48 -> physical * block_size + block_size <= len volume ->
    extents_node volume block_size sub (block_at volume block_size physical) extents ->
    indexed volume block_size depth indexes extents' ->
    indexed volume block_size depth (encode_index logical physical u0 u1 :: indexes) (extents ++ extents').

(** The blocks of sorted extents, holes between them, from logical block [first] on. *)
Fixpoint sorted_extents (first : N) (extents : list extent) : Prop :=
  match extents with
  | [] => True
  | x :: extents => first <= x_logical x /\ sorted_extents (x_logical x + x_count x) extents
  end.
Fixpoint extent_blocks (first : N) (extents : list extent) : list N :=
  match extents with
  | [] => []
  | x :: extents =>
      repeat 0 (N.to_nat (x_logical x - first)) ++
      (if x_written x then seqN (x_physical x) (N.to_nat (x_count x)) else repeat 0 (N.to_nat (x_count x))) ++
      extent_blocks (x_logical x + x_count x) extents
  end.

(** ** Content *)
Definition block_content (volume : list N) (block_size b : N) : list N :=
  if b =? 0 then repeat 0 (N.to_nat block_size) else block_at volume block_size b.
Definition blocks_content (volume : list N) (block_size : N) (blocks : list N) (size : N) : list N :=
  bytes_at (flat_map (block_content volume block_size) blocks) 0 size.
