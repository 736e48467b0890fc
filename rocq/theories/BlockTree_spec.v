(** * What the block tree is expected to be: a map over leaf-sized slots *)
From Verif Require Import Base.

Section Spec.
  Context {V : Type}.

  (** slot number -> value *)
  Definition slot_map := N -> option V.
  Definition slot_set (m : slot_map) (u : N) (v : V) : slot_map :=
    fun x => if x =? u then Some v else m x.

  (** Fill [n] slots from [u]: slot by slot, stopping at the first occupied one. *)
  Fixpoint fill (n : nat) (u : N) (v : V) (m : slot_map) : slot_map * bool :=
    match n with
    | O => (m, true)
    | S n' =>
        match m u with
        | Some _ => (m, false)
        | None => fill n' (u + 1) v (slot_set m u v)
        end
    end.

  (** An insert of [size] bytes at [offset], for data of [data_size] bytes and slots of
      [slot] bytes: rejected when out of range or not aligned to slots. *)
  Definition spec_insert (data_size slot : N) (m : slot_map) (offset size : N) (v : V)
    : slot_map * bool :=
    if (offset + size <=? data_size) && (offset mod slot =? 0) && (size mod slot =? 0)
    then fill (N.to_nat (size / slot)) (offset / slot) v m
    else (m, false).

  Fixpoint spec_inserts (data_size slot : N) (m : slot_map) (h : list (N * N * V))
    : slot_map * list bool :=
    match h with
    | [] => (m, [])
    | (o, s, v) :: rest =>
        let '(m, b) := spec_insert data_size slot m o s v in
        let '(m, bs) := spec_inserts data_size slot m rest in
        (m, b :: bs)
    end.

  Definition nothing : slot_map := fun _ => None.

  (** One value per block: the first value offered for a block number below [k]. *)
  Definition offered (k : N) (h : list (N * V)) (i : N) : option V :=
    if i <? k then
      match find (fun e => fst e =? i) h with Some e => Some (snd e) | None => None end
    else None.
  Fixpoint block_results (k : N) (before : list (N * V)) (h : list (N * V)) : list bool :=
    match h with
    | [] => []
    | (i, v) :: rest =>
        ((i <? k) && negb (existsb (fun e => fst e =? i) before)) :: block_results k (before ++ [(i, v)]) rest
    end.
  (** The inserts of whole blocks. *)
  Definition block_inserts (block_size : N) (h : list (N * V)) : list (N * N * V) :=
    map (fun e => (fst e * block_size, block_size, snd e)) h.

  (** A range [offset, offset + size) covers [x]. *)
  Definition covers (e : N * N * V) (x : N) : Prop :=
    let '(o, s, _) := e in o <= x < o + s.
End Spec.
Arguments slot_map : clear implicits.

(** ** The geometries the theorems range over *)

(** Flat: the root holds one value per slot. This is the case with at most one
    element per node (the code passes 0 for NTFS, FAT and ext streams), and with
    no more slots than elements per node. *)
Definition flat_geometry {V} (data_size elements_per_node slot : N) (h : list (N * N * V)) : Prop :=
  0 < slot /\ data_size < two64 /\ elements_per_node * slot < two64 /\
  (elements_per_node <= 1 \/ data_size / slot <= elements_per_node) /\
  Forall (fun '(o, s, _) => 0 < s /\ o + s < two64) h.

(** Levelled: every insert is made of whole units of [slot * elements_per_node ^ r]
    bytes, fewer than [elements_per_node] of them, that lie in one group of
    [elements_per_node] units. *)
Definition unit_size (elements_per_node slot r : N) : N := slot * elements_per_node ^ r.
Definition levelled_geometry {V} (data_size elements_per_node slot r : N) (h : list (N * N * V)) : Prop :=
  let e := unit_size elements_per_node slot r in
  let group := e * elements_per_node in
  0 < slot /\ 2 <= elements_per_node /\ data_size < two64 /\ elements_per_node * slot < two64 /\
  Forall (fun '(o, s, _) => o + s < two64 /\ o mod e = 0 /\ s mod e = 0 /\ 0 < s /\ s < group /\
            o / group = (o + s - 1) / group) h.

(** How a result is reported. *)
Definition accepted (b : bool) : res unit := if b then Ok tt else Err.
