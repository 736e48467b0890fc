(** * Specification of a search through all file entries

    A file system as a tree: an entry and, in order, what is beneath it, each either a
    readable tree or something that cannot be read. *)
From Verif Require Import Base Finder_model.

Inductive tree (E : Type) : Type := Tree (entry : E) (subs : forest E)
with forest (E : Type) : Type :=
| Empty
| Broken (rest : forest E)
| Beneath (t : tree E) (rest : forest E).
Arguments Tree {E}. Arguments Empty {E}. Arguments Broken {E}. Arguments Beneath {E}.

Fixpoint forest_size {E} (f : forest E) : N :=
  match f with Empty => 0 | Broken f => 1 + forest_size f | Beneath _ f => 1 + forest_size f end.
Definition tree_entry {E} (t : tree E) : E := match t with Tree e _ => e end.

Section Spec.
Context {E : Type}.
Variable name : E -> option (list N).
Variable number : E -> res N.
Variable sub : E -> N -> res E.

(** The entry answers as the tree says: as many sub entries as there are, of which every one
    from index [i] on is the root of its tree, or cannot be read, or cannot be listed. *)
Fixpoint answers (t : tree E) : Prop :=
  match t with
  | Tree e subs => number e = Ok (forest_size subs) /\ forest_size subs < two64 /\ answers_from e 0 subs
  end
with answers_from (e : E) (i : N) (f : forest E) : Prop :=
  match f with
  | Empty => True
  | Broken f => (sub e i = Err \/ exists x, sub e i = Ok x /\ number x = Err) /\ answers_from e (i + 1) f
  | Beneath t f => sub e i = Ok (tree_entry t) /\ answers t /\ answers_from e (i + 1) f
  end.

(** The search: what is beneath an entry first, in order, then the entry with its path;
    one failure in the place of each part that cannot be read. *)
Fixpoint search (path : list (option (list N))) (t : tree E) : list (finding E) :=
  match t with
  | Tree e subs => search_all (path ++ [name e]) subs ++ [Found e (path ++ [name e])]
  end
with search_all (path : list (option (list N))) (f : forest E) : list (finding E) :=
  match f with
  | Empty => []
  | Broken f => Failed :: search_all path f
  | Beneath t f => search path t ++ search_all path f
  end.

(** [t] is one of the trees beneath an entry. *)
Inductive in_forest : tree E -> forest E -> Prop :=
| in_first t f : in_forest t (Beneath t f)
| in_after_broken t f : in_forest t f -> in_forest t (Broken f)
| in_later t u f : in_forest t f -> in_forest t (Beneath u f).

(** [e] is in the tree, the names from the root to it being [path]. *)
Inductive in_tree : tree E -> list (option (list N)) -> E -> Prop :=
| in_root e subs : in_tree (Tree e subs) [name e] e
| in_sub e subs t path x : in_forest t subs -> in_tree t path x -> in_tree (Tree e subs) (name e :: path) x.

(** Number of entries of a tree *)
Fixpoint entries (t : tree E) : nat :=
  match t with Tree _ subs => S (entries_all subs) end
with entries_all (f : forest E) : nat :=
  match f with Empty => O | Broken f => entries_all f | Beneath t f => (entries t + entries_all f)%nat end.
End Spec.
