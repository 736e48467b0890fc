(** * C23: the LRU cache *)
From Verif Require Import Base Lru_model Lru_spec Lru_proofs.

(** After any history of inserts the cache holds at most its capacity, one entry
    per key, and no insert panics. *)
Theorem C23_bounded :
  forall (V : Type) cap (h : list (N * V)), 0 < cap ->
  exists c, lru_inserts (lru_new cap) h = Ok c /\ len (lru_values c) <= cap /\
    NoDup (map fst (lru_values c)).
Proof. exact (@lru_bounded_ok). Qed.
Print Assumptions C23_bounded.

(** A key that is found has the value most recently inserted for it. *)
Theorem C23_coherent :
  forall (V : Type) cap (h : list (N * V)) c k v, 0 < cap ->
  lru_inserts (lru_new cap) h = Ok c -> lru_get c k = Some v -> latest h k = Some v.
Proof. exact (@lru_coherent_ok). Qed.
Print Assumptions C23_coherent.

(** A just inserted key is found, whatever came before. *)
Theorem C23_get_after_insert :
  forall (V : Type) cap (h : list (N * V)) k v, 0 < cap ->
  exists c, lru_inserts (lru_new cap) (h ++ [(k, v)]) = Ok c /\ lru_get c k = Some v.
Proof. exact (@lru_get_after_insert_ok). Qed.
Print Assumptions C23_get_after_insert.

(** Used the way the readers use it, inserting on a miss only, the cache behaves
    as a first-in first-out queue of its capacity. Missing for the full property:
    eviction of the least recently used entry, which is false (below). *)
Theorem C23_eviction_partial :
  forall (V : Type) cap (h : list (N * V)), 0 < cap ->
  exists c, lru_fills (lru_new cap) h = Ok c /\
    forall k, lru_get c k = find_entry (fold_left (fifo_fill cap) h []) k.
Proof. exact (@lru_fifo_ok). Qed.
Print Assumptions C23_eviction_partial.

(** The cache is not least-recently-used: insert 1, insert 2, look up 1, insert 3
    evicts 1 although 2 was used less recently. *)
Theorem C23_least_recently_used_refuted :
  exists c, lru_inserts (lru_new 2) [(1, 10); (2, 20)] = Ok c /\ lru_get c 1 = Some 10 /\
  exists c', lru_insert c 3 30 = Ok c' /\ lru_get c' 1 = None /\ lru_get c' 2 = Some 20 /\
    find_entry (fold_left (ideal_lru_step 2)
      [OpInsert 1 10; OpInsert 2 20; OpGet 1; OpInsert 3 30] []) 1 = Some 10.
Proof. eexists; split; [reflexivity|]; split; [reflexivity|]; eexists; vm_compute; auto. Qed.
Print Assumptions C23_least_recently_used_refuted.

(** Inserting a key twice makes the cache lose it early: capacity 2, two distinct
    keys, and the newest value of key 1 is gone. *)
Theorem C23_reinsert_loses_entry_refuted :
  exists c, lru_inserts (lru_new 2) [(1, 10); (1, 11); (2, 20)] = Ok c /\
    lru_get c 1 = None /\
    find_entry (fold_left (ideal_lru_step 2)
      [OpInsert 1 10; OpInsert 1 11; OpInsert 2 20] []) 1 = Some 11.
Proof. eexists; vm_compute; auto. Qed.
Print Assumptions C23_reinsert_loses_entry_refuted.

(** A cache of capacity 0 panics on the first insert. *)
Theorem C23_capacity_zero_panics :
  forall (V : Type) k (v : V), lru_insert (lru_new 0) k v = Panic.
Proof. reflexivity. Qed.
Print Assumptions C23_capacity_zero_panics.

Example C23_example :
  0 < 2 /\
  (c <- lru_fills (lru_new 2) [(1, 10); (2, 20); (1, 11); (3, 30)] ;;
   Ok (map (lru_get c) [1; 2; 3])) = Ok [None; Some 20; Some 30] /\
  fold_left (fifo_fill 2) [(1, 10); (2, 20); (1, 11); (3, 30)] [] = [(2, 20); (3, 30)].
Proof. vm_compute. auto. Qed.
