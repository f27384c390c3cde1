(** Rounding a number that is close to the middle of two values. *)
From Coq Require Import Reals.
From Flocq Require Import Core.
From Verif Require Import SpecIeee.

(** The middle [c] of two values of the format is rounded to the one on the other side of it than
    the number [x], as to their magnitudes. *)
Definition other_side (p q : Z) (c x : R) : Prop :=
  ((Rabs x < Rabs c /\ Rabs c < Rabs (nearest p q c)) \/ (Rabs c < Rabs x /\ Rabs (nearest p q c) < Rabs c))%R.
