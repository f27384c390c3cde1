(** Independent specification of amounts: decimals with few places. *)
From Coq Require Import Reals.
From Flocq Require Import Core.
From Verif Require Import Machine SpecDecimal SpecNumber.
Open Scope Z_scope.

(** [x] is a nonzero decimal of at most 15 digits with at most three places. *)
Definition amount (x : R) : Prop :=
  exists D k, 0 < Z.abs D < 10 ^ 15 /\ 0 <= k <= 3 /\ x = (IZR D / IZR (10 ^ k))%R.

(** [s] is written in the ordinary way: a sign if negative, a natural number without needless
    zeros, a point, and at least one further digit, without needless zeros. *)
Definition ordinary (s : bytes) (neg : bool) (i f : bytes) : Prop :=
  s = (if neg then ["-"%char] else []) ++ i ++ "."%char :: f /\
  canonical_natural i (numeral_value i) /\ Forall is_digit f /\
  (f = ["0"%char] \/ exists g d, f = g ++ [d] /\ d <> "0"%char).
