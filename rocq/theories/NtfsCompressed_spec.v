(** * The content of a compressed attribute *)
From Verif Require Import Base Streams_model Streams_spec Lz_model Ntfs_model Ntfs_spec.

(** Is a cluster of the attribute allocated? *)
Fixpoint allocated (runs : list run) (i : N) : bool :=
  match runs with
  | [] => false
  | r :: runs => if i <? run_count r then match r with Allocated _ _ => true | Hole _ => false end else allocated runs (i - run_count r)
  end.
(** In a unit of [u] clusters the allocated clusters come first. *)
Definition units_ok (runs : list run) (u : N) : Prop :=
  forall i, (i + 1) mod u <> 0 -> allocated runs (i + 1) = true -> allocated runs i = true.
(** A unit that is allocated in part is compressed. *)
Definition unit_compressed (runs : list run) (u j : N) : bool := allocated runs (j * u) && negb (allocated runs (j * u + u - 1)).

(** The bytes of a unit, that are compressed or not, and its content. *)
Definition unit_data (volume : list N) (cluster_size : N) (runs : list run) (u j : N) : list N :=
  bytes_at (flat_map (run_content volume cluster_size) runs) (j * (u * cluster_size)) (u * cluster_size).
Definition unit_content (volume : list N) (cluster_size : N) (runs : list run) (u j : N) : list N :=
  let data := unit_data volume cluster_size runs u j in
  if unit_compressed runs u j then
    match lznt1_decompress data (repeat 0 (N.to_nat (u * cluster_size))) with Ok (content, _) => content | _ => [] end
  else data.
Definition compressed_content (volume : list N) (cluster_size : N) (runs : list run) (u size : N) : list N :=
  bytes_at (flat_map (unit_content volume cluster_size runs u) (seqN 0 (N.to_nat (clusters runs / u)))) 0 size.
(** All compressed units can be decompressed. *)
Definition units_decompress (volume : list N) (cluster_size : N) (runs : list run) (u : N) : Prop :=
  forall j, j < clusters runs / u -> unit_compressed runs u j = true ->
  exists content n, lznt1_decompress (unit_data volume cluster_size runs u j) (repeat 0 (N.to_nat (u * cluster_size))) = Ok (content, n).

(** Histories whose reads start at a multiple of the size of a unit, or stay within a unit,
    or start in a unit that is allocated completely. *)
Definition read_ok (cluster_size : N) (runs : list run) (u o n : N) : Prop :=
  let unit_size := u * cluster_size in
  o mod unit_size = 0 \/ o mod unit_size + n <= unit_size \/ allocated runs (o / unit_size * u + u - 1) = true.
Fixpoint reads_ok (P : N -> N -> Prop) (size : N) (c : list N) (p : N) (ops : list stream_op) : Prop :=
  match ops with
  | [] => True
  | op :: t =>
      (match op with Read n => p < size -> P p (N.min n (size - p)) | Seek _ => True end) /\
      reads_ok P size c (fst (file_step size c p op)) t
  end.
