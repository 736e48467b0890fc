(** * NTFS: runs and their encoding, protected records, file content *)
From Verif Require Import Base Streams_spec Ntfs_model.

(** ** Runs *)
(** A run of [count] clusters: allocated from [cluster] on, or a hole. *)
Inductive run := Allocated (count cluster : N) | Hole (count : N).

(** [z] in two's complement, [n] bytes, least significant first *)
Definition signed_le_bytes (n : nat) (z : Z) : list N :=
  le_bytes n (Z.to_N (z mod 2 ^ (8 * Z.of_nat n))).

(** [encoded previous runs bytes]: the bytes encode the runs, [previous] being the cluster
    of the last allocated run. Each run is a byte with the sizes of its two numbers, the
    count, and for an allocated run the signed distance from the previous cluster. The
    sizes are any that the numbers fit. Clusters are below 2^63. *)
Inductive encoded : N -> list run -> list N -> Prop :=
| encoded_nil previous : encoded previous [] []
| encoded_allocated previous count cluster (ls os : nat) runs bytes :
    (1 <= ls <= 8)%nat -> (1 <= os <= 8)%nat -> count < 256 ^ N.of_nat ls -> cluster < two63 ->
    (- 2 ^ (8 * Z.of_nat os - 1) <= Z.of_N cluster - Z.of_N previous < 2 ^ (8 * Z.of_nat os - 1))%Z ->
    encoded cluster runs bytes ->
    encoded previous (Allocated count cluster :: runs)
      ([16 * N.of_nat os + N.of_nat ls] ++ le_bytes ls count ++
       signed_le_bytes os (Z.of_N cluster - Z.of_N previous) ++ bytes)
| encoded_hole previous count (ls : nat) runs bytes :
    (1 <= ls <= 8)%nat -> count < 256 ^ N.of_nat ls -> encoded previous runs bytes ->
    encoded previous (Hole count :: runs) ([N.of_nat ls] ++ le_bytes ls count ++ bytes).

(** How the model represents a run. *)
Definition as_data_run (r : run) : data_run :=
  match r with
  | Allocated count cluster =>
      {| block_number := cluster; number_of_blocks := count; run_kind := InFile |}
  | Hole count => {| block_number := 0; number_of_blocks := count; run_kind := Sparse |}
  end.

(** ** Protected records

    The update sequence array at [offset] has a placeholder and one value for each of the
    [sectors] sectors of 512 bytes. Protecting a record saves the last two bytes of each
    sector in the array and puts the placeholder in their place. [p0], [p1] are the bytes
    of the placeholder. *)
Definition sector_end (sectors i : N) : bool := (i / 512 <? sectors) && (510 <=? i mod 512).
Definition protected (record : list N) (offset sectors p0 p1 : N) (i : N) : N :=
  if i =? offset then p0
  else if i =? offset + 1 then p1
  else if (offset + 2 <=? i) && (i <? offset + 2 + 2 * sectors) then
    nth (N.to_nat (512 * ((i - offset - 2) / 2) + 510 + (i - offset - 2) mod 2)) record 0
  else if sector_end sectors i then (if i mod 512 =? 510 then p0 else p1)
  else nth (N.to_nat i) record 0.

(** ** Content *)
Definition run_count (r : run) : N := match r with Allocated n _ | Hole n => n end.
(** The clusters of the runs one after the other. *)
Definition run_content (volume : list N) (cluster_size : N) (r : run) : list N :=
  match r with
  | Allocated count cluster => bytes_at volume (cluster * cluster_size) (count * cluster_size)
  | Hole count => repeat 0 (N.to_nat (count * cluster_size))
  end.
(** The first [valid] bytes of the clusters, zeros from there to [size]. *)
Definition attribute_content (volume : list N) (cluster_size : N) (runs : list run) (size valid : N)
  : list N :=
  padded (bytes_at (flat_map (run_content volume cluster_size) runs) 0 valid) size.

Definition clusters (runs : list run) : N := fold_right (fun r acc => run_count r + acc) 0 runs.
(** The runs cut into groups: each group knows the number of its first cluster, and of its
    last unless that is not known. *)
Inductive grouped : N -> list run -> list cluster_group -> Prop :=
| grouped_nil vcn : grouped vcn [] []
| grouped_cons vcn runs runs' last groups :
    last = two64 - 1 \/ last + 1 = vcn + clusters runs ->
    grouped (vcn + clusters runs) runs' groups ->
    grouped vcn (runs ++ runs')
      ({| first_vcn := vcn; last_vcn := last; data_runs := map as_data_run runs |} :: groups).
