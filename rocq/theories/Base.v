(** * Common vocabulary of the model

    Outcomes of Rust functions, machine words as [N], buffers as [list N]. *)
From Coq Require Export List NArith ZArith Bool Lia.
From Coq Require Export ZifyBool ZifyNat ZifyN.
Export ListNotations.
Ltac Zify.zify_post_hook ::= Z.div_mod_to_equations.

#[global] Open Scope N_scope.

(** Outcome of a Rust call: a value, a returned [Err], or a panic (index out of
    bounds, arithmetic overflow, division by zero, [unwrap] of [None],
    [todo!()]). *)
Inductive res (A : Type) : Type :=
| Ok (a : A)
| Err
| Panic.
Arguments Ok {A} a.
Arguments Err {A}.
Arguments Panic {A}.

Definition bind {A B} (m : res A) (k : A -> res B) : res B :=
  match m with
  | Ok a => k a
  | Err => Err
  | Panic => Panic
  end.

Notation "x <- m ;; k" := (bind m (fun x => k))
  (at level 61, m at next level, right associativity).
Notation "' p <- m ;; k" := (bind m (fun p => k))
  (at level 61, p pattern, m at next level, right associativity).
Notation "m ;;; k" := (bind m (fun _ => k))
  (at level 61, right associativity).

(** [check b] returns an error when the condition [b] fails: models
    [if !b { return Err(..) }]. *)
Definition check (b : bool) : res unit := if b then Ok tt else Err.
(** [assert b] panics when [b] fails: bounds checks done by the language. *)
Definition assert (b : bool) : res unit := if b then Ok tt else Panic.

Definition of_option {A} (o : option A) : res A :=
  match o with Some a => Ok a | None => Err end.
Definition unwrap {A} (o : option A) : res A :=
  match o with Some a => Ok a | None => Panic end.

Definition is_panic {A} (r : res A) : bool :=
  match r with Panic => true | _ => false end.
Definition is_ok {A} (r : res A) : bool :=
  match r with Ok _ => true | _ => false end.

(** ** Machine words *)
Definition two8 : N := 256.
Definition two16 : N := 65536.
Definition two32 : N := 4294967296.
Definition two63 : N := 9223372036854775808.
Definition two64 : N := 18446744073709551616.

(** Checked arithmetic: the word of width given by its modulus [m]. *)
Definition add_chk (m a b : N) : res N := if a + b <? m then Ok (a + b) else Panic.
Definition mul_chk (m a b : N) : res N := if a * b <? m then Ok (a * b) else Panic.
Definition sub_chk (a b : N) : res N := if b <=? a then Ok (a - b) else Panic.
Definition div_chk (a b : N) : res N := if b =? 0 then Panic else Ok (a / b).
Definition mod_chk (a b : N) : res N := if b =? 0 then Panic else Ok (a mod b).
(** [a << s] on a word of [bits] bits: panics when [s >= bits], drops high bits. *)
Definition shl_chk (bits a s : N) : res N :=
  if s <? bits then Ok (N.shiftl a s mod 2 ^ bits) else Panic.
Definition shr_chk (bits a s : N) : res N :=
  if s <? bits then Ok (N.shiftr a s) else Panic.

(** Wrapping 32-bit arithmetic. *)
Definition w32 (a : N) : N := a mod two32.
Definition add32 (a b : N) : N := w32 (a + b).
Definition w64 (a : N) : N := a mod two64.
Definition add64 (a b : N) : N := w64 (a + b).

(** ** Bytes and buffers *)
Definition byte_ok (b : N) : Prop := b < 256.
Definition wf_bytes (l : list N) : Prop := Forall byte_ok l.
Definition wf_bytesb (l : list N) : bool := forallb (fun b => b <? 256) l.

Definition len {A} (l : list A) : N := N.of_nat (length l).

(** [l[i]] *)
Definition idx {A} (l : list A) (i : N) : res A :=
  match nth_error l (N.to_nat i) with Some a => Ok a | None => Panic end.

(** [&l[a..b]]: panics when [a > b] or [b > l.len()]. *)
Definition slice {A} (l : list A) (a b : N) : res (list A) :=
  if (a <=? b) && (b <=? len l)
  then Ok (firstn (N.to_nat (b - a)) (skipn (N.to_nat a) l))
  else Panic.

(** [l[i] = v] *)
Fixpoint set_nth {A} (l : list A) (i : nat) (v : A) : list A :=
  match l, i with
  | [], _ => []
  | _ :: t, O => v :: t
  | h :: t, S j => h :: set_nth t j v
  end.
Definition upd {A} (l : list A) (i : N) (v : A) : res (list A) :=
  if i <? len l then Ok (set_nth l (N.to_nat i) v) else Panic.

(** Value of a little-endian and big-endian byte string. *)
Fixpoint le_value (l : list N) : N :=
  match l with [] => 0 | b :: t => b + 256 * le_value t end.
Definition be_value (l : list N) : N := fold_left (fun acc b => acc * 256 + b) l 0.

(** Standard encodings: [n] bytes of [v]. *)
Fixpoint le_bytes (n : nat) (v : N) : list N :=
  match n with O => [] | S m => v mod 256 :: le_bytes m (v / 256) end.
Definition be_bytes (n : nat) (v : N) : list N := rev (le_bytes n v).

Fixpoint seqN (start : N) (n : nat) : list N :=
  match n with O => [] | S m => start :: seqN (start + 1) m end.
