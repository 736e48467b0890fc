(** * What a file of the Windows overlay filter holds *)
From Verif Require Import Base Lzx_spec.
From Verif Require P_C55.

(** The file is cut in chunks of [unit_size] bytes, the last one may be shorter. [l] has each
    chunk with what is stored of it. *)
Fixpoint wof_cut (unit_size : N) (l : list (list N * list N)) : Prop :=
  match l with
  | [] => False
  | [(chunk, _)] => 0 < len chunk <= unit_size
  | (chunk, _) :: l => len chunk = unit_size /\ wof_cut unit_size l
  end.
(** A chunk is stored as it is, or compressed to less than its size. *)
Definition wof_stored (encodes : list N -> list N -> Prop) (e : list N * list N) : Prop :=
  let '(chunk, stored) := e in stored = chunk \/ (0 < len stored < len chunk /\ encodes stored chunk).
(** Where the chunks end, counted from [offset]. *)
Fixpoint wof_ends (offset : N) (l : list (list N * list N)) : list N :=
  match l with [] => [] | (_, stored) :: l => (offset + len stored) :: wof_ends (offset + len stored) l end.
(** The table: where the chunks but the last end, counted from the end of the table, in numbers
    of [width] bytes. *)
Definition wof_table (width : nat) (l : list (list N * list N)) : list N := flat_map (le_bytes width) (removelast (wof_ends 0 l)).
(** The stream: the table and what is stored of the chunks. *)
Definition wof_bytes (l : list (list N * list N)) (stream : list N) : Prop :=
  exists width, stream = wof_table width l ++ flat_map snd l /\
    (width = 4%nat /\ len stream < 2 ^ 32 \/ width = 8%nat /\ 2 ^ 32 <= len stream < 2 ^ 63).

(** [stored] is what a compressor with the method and the unit size made of [chunk]. LZX: any
    blocks within what C55 shows. LZXPRESS Huffman: what [xpress], the decompressor, restores. *)
Definition wof_encodes (xpress : list N -> list N -> res (list N * N)) (method unit_size : N) (stored chunk : list N) : Prop :=
  (method = 1 /\ exists blocks rest, P_C55.lzx_encodes stored blocks rest chunk /\ blocks_taken 0 first_context blocks /\
     wf_bytes chunk /\ 6 <= len chunk /\
     (len chunk = unit_size \/
      ((length rest < 16)%nat /\ N.even (len stored) = true /\
       forall before short padding q l, blocks = before ++ [(short, Uncompressed padding q l)] -> N.odd (len l) = false))) \/
  ((method = 0 \/ method = 2 \/ method = 3) /\
     exists rest n, xpress stored (repeat 0 (N.to_nat unit_size)) = Ok (chunk ++ rest, n)).
(** The methods and their unit sizes. *)
Definition wof_method (method unit_size : N) : Prop :=
  method = 0 /\ unit_size = 4096 \/ method = 1 /\ unit_size = 32768 \/
  method = 2 /\ unit_size = 8192 \/ method = 3 /\ unit_size = 16384.
