(** * What a signature scan should report

    A signature is a pattern and the place it has in the data: at an offset from the start,
    at an offset from the end, or anywhere. *)
From Verif Require Import Base Sigscan_model.
Open Scope N_scope.

(** The pattern stands in the data at offset [o]. *)
Definition occurs (p : list N) (data : list N) (o : N) : Prop := exists before after, data = before ++ p ++ after /\ len before = o.
(** The signature is present in the data, with its pattern at offset [o]. *)
Definition present (data : list N) (s : signature) (o : N) : Prop :=
  match s_type s with
  | BoundToStart => o = s_offset s
  | BoundToEnd => o + s_offset s = len data
  | Unbound => True
  end /\ occurs (pattern s) data o.
(** No two signatures of one kind have the same pattern. *)
Definition distinct_patterns (l : list signature) : Prop :=
  forall s s', In s l -> In s' l -> s_type s = s_type s' -> pattern s = pattern s' -> s = s'.
(** All the signatures are at a fixed place. *)
Definition bound (s : signature) : Prop := s_type s <> Unbound.
(** The end of the data has room for every signature bound to it. *)
Definition room (l : list signature) (o size : N) : Prop :=
  forall s, In s l -> s_type s = BoundToEnd -> o + s_offset s + len (pattern s) <= size.
