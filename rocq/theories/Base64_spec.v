(** * RFC 4648 section 4 *)
From Coq Require Import String Ascii.
From Verif Require Import Base Uuid_spec.
Open Scope string_scope.
Open Scope list_scope.

Definition alphabet : list N := text "ABCDEFGHIJKLMNOPQRSTUVWXYZabcdefghijklmnopqrstuvwxyz0123456789+/".
Definition equals_sign : N := 0x3d.
(** horizontal and vertical tab, line feed, carriage return, space *)
Definition white_space (c : N) : Prop := In c [0x09; 0x0a; 0x0b; 0x0d; 0x20].

(** The character of a 6-bit value *)
Definition char_of (v : N) : N := nth (N.to_nat v) alphabet 0.

(** Encoding: groups of 24 bits, the last one padded *)
Fixpoint encode (l : list N) : list N :=
  match l with
  | a :: b :: c :: rest =>
      let v := (a * 256 + b) * 256 + c in
      [char_of (v / 262144); char_of (v / 4096 mod 64); char_of (v / 64 mod 64); char_of (v mod 64)] ++ encode rest
  | [a; b] =>
      let v := (a * 256 + b) * 256 in
      [char_of (v / 262144); char_of (v / 4096 mod 64); char_of (v / 64 mod 64); equals_sign]
  | [a] =>
      let v := a * 65536 in
      [char_of (v / 262144); char_of (v / 4096 mod 64); equals_sign; equals_sign]
  | [] => []
  end.

(** [with_white_space a b]: [b] is [a] with white space inserted anywhere *)
Inductive with_white_space : list N -> list N -> Prop :=
| ws_nil : with_white_space [] []
| ws_char c a b : with_white_space a b -> with_white_space (c :: a) (c :: b)
| ws_skip c a b : white_space c -> with_white_space a b -> with_white_space a (c :: b).

(** Meaning of a sequence of 6-bit values: as a bit string (first value first), of which
    the complete groups of 8 bits are taken. *)
Definition base64_number (v : list N) : N := fold_left (fun acc x => acc * 64 + x) v 0.
Definition octets (v : list N) : list N :=
  let n := 6 * len v in
  be_bytes (N.to_nat (n / 8)) (base64_number v / 2 ^ (n mod 8)).

(** What is decoded: alphabet characters up to the end or to the first equals sign. *)
Definition decodes (e out : list N) : Prop :=
  exists v tail, Forall (fun x => x < 64) v /\ e = map char_of v ++ tail /\ out = octets v /\
    (tail = [] \/ exists t, tail = equals_sign :: t).
Definition decodes_ws (e out : list N) : Prop :=
  exists v body tail, Forall (fun x => x < 64) v /\ with_white_space (map char_of v) body /\
    e = body ++ tail /\ out = octets v /\ (tail = [] \/ exists t, tail = equals_sign :: t).
(** ... and the equals signs complete a group of four characters. *)
Definition decodes_padded (e out : list N) : Prop :=
  exists v tail, Forall (fun x => x < 64) v /\ e = map char_of v ++ tail /\ out = octets v /\
    (tail = [] \/ exists t, tail = equals_sign :: t /\
       exists t', tail = repeat equals_sign (N.to_nat ((4 - len v mod 4) mod 4)) ++ t').
