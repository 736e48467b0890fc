(** * keramics-formats/src/lru_cache.rs *)
From Verif Require Import Base.

Section Lru.
  Context {V : Type}.

  (** [HashMap<K, LruCacheEntry<V>>] as an association list with one entry per key.
      Keys are [N] (the code instantiates [K] with [u64] and [u16]). *)
  Definition hmap := list (N * V).
  Fixpoint hm_get (m : hmap) (k : N) : option V :=
    match m with
    | [] => None
    | (k', v) :: t => if k =? k' then Some v else hm_get t k
    end.
  Definition hm_remove (m : hmap) (k : N) : hmap :=
    filter (fun e => negb (fst e =? k)) m.
  Definition hm_insert (m : hmap) (k : N) (v : V) : hmap := (k, v) :: hm_remove m k.

  (** lru_cache.rs:31-40 [LruCache]; [usage] front first *)
  Record lru := { lru_size : N; lru_values : hmap; lru_usage : list N }.

  (** lru_cache.rs:44-50 [new] *)
  Definition lru_new (number_of_entries : N) : lru :=
    {| lru_size := number_of_entries; lru_values := []; lru_usage := [] |}.

  (** lru_cache.rs:53-55 [contains] *)
  Definition lru_contains (c : lru) (k : N) : bool :=
    match hm_get (lru_values c) k with Some _ => true | None => false end.

  (** lru_cache.rs:58-63 [get] and 66-71 [get_mut]: the usage is not touched *)
  Definition lru_get (c : lru) (k : N) : option V := hm_get (lru_values c) k.

  (** lru_cache.rs:74-82 [insert]; [pop_front().unwrap()] panics on an empty queue *)
  Definition lru_insert (c : lru) (k : N) (v : V) : res lru :=
    '(values, usage) <-
      (if len (lru_usage c) =? lru_size c then
         match lru_usage c with
         | [] => Panic
         | lru_key :: rest => Ok (hm_remove (lru_values c) lru_key, rest)
         end
       else Ok (lru_values c, lru_usage c)) ;;
    Ok {| lru_size := lru_size c; lru_values := hm_insert values k v; lru_usage := usage ++ [k] |}.

  (** Histories of calls. *)
  Fixpoint lru_inserts (c : lru) (h : list (N * V)) : res lru :=
    match h with
    | [] => Ok c
    | (k, v) :: t => c' <- lru_insert c k v ;; lru_inserts c' t
    end.

  (** The way the readers use the cache (for example udif/file.rs and
      ewf/image.rs): a value is inserted only when the key is not cached. *)
  Definition lru_fill (c : lru) (k : N) (v : V) : res lru :=
    if lru_contains c k then Ok c else lru_insert c k v.
  Fixpoint lru_fills (c : lru) (h : list (N * V)) : res lru :=
    match h with
    | [] => Ok c
    | (k, v) :: t => c' <- lru_fill c k v ;; lru_fills c' t
    end.
End Lru.
Arguments lru : clear implicits.
Arguments hmap : clear implicits.
