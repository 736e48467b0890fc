(** * What a cache is expected to do *)
From Verif Require Import Base.

Section Spec.
  Context {V : Type}.

  (** The value most recently inserted for a key in a history (oldest first). *)
  Definition latest (h : list (N * V)) (k : N) : option V :=
    fold_left (fun acc e => if fst e =? k then Some (snd e) else acc) h None.

  (** A true least-recently-used cache: entries ordered from least to most
      recently used; both lookups that hit and inserts count as use. *)
  Inductive cache_op := OpGet (k : N) | OpInsert (k : N) (v : V).
  Definition find_entry (q : list (N * V)) (k : N) : option V :=
    match find (fun e => fst e =? k) q with Some e => Some (snd e) | None => None end.
  Definition without (q : list (N * V)) (k : N) : list (N * V) :=
    filter (fun e => negb (fst e =? k)) q.
  Definition ideal_lru_step (cap : N) (q : list (N * V)) (o : cache_op) : list (N * V) :=
    match o with
    | OpGet k =>
        match find_entry q k with Some v => without q k ++ [(k, v)] | None => q end
    | OpInsert k v =>
        let q := without q k in
        (if len q =? cap then tl q else q) ++ [(k, v)]
    end.

  (** A first-in first-out cache filled on misses only. *)
  Definition fifo_fill (cap : N) (q : list (N * V)) (e : N * V) : list (N * V) :=
    match find_entry q (fst e) with
    | Some _ => q
    | None => (if len q =? cap then tl q else q) ++ [e]
    end.
End Spec.
Arguments cache_op : clear implicits.
