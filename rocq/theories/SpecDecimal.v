(** Independent specification of decimal integer numerals. *)
From Verif Require Import Machine.

Definition is_digit (c : ascii) : Prop := 48 <= code c <= 57.
Definition digit_value (c : ascii) : Z := code c - 48.

(** Positional value of a digit string, most significant digit first. *)
Definition numeral_value (l : bytes) : Z :=
  fold_left (fun a c => 10 * a + digit_value c) l 0.

(** [l] is the usual way to write the natural number [n] in base ten. *)
Definition canonical_natural (l : bytes) (n : Z) : Prop :=
  l <> [] /\ Forall is_digit l /\ numeral_value l = n /\
  (forall r, l = "0"%char :: r -> r = []).

(** [l] is the usual way to write the integer [z] in base ten. *)
Definition canonical_integer (l : bytes) (z : Z) : Prop :=
  (0 <= z /\ canonical_natural l z) \/
  (z < 0 /\ exists r, l = "-"%char :: r /\ canonical_natural r (- z)).
