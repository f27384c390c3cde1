(** Independent statements about how much work formatting a number is: what a run of the
    code leaves behind when every turn of a loop is written down. *)
From Coq Require Import List ZArith Reals.
From Flocq Require Import Core.
From Verif Require Import Machine SpecIeee.
Import ListNotations.
Open Scope Z_scope.

(** The loops of diyfp.cpp and dtoa.cpp by what a turn does: shift a significand by one bit,
    generate a digit, round the last digit by one, write a zero. *)
Inductive turn := Shift | Digit | Round | Zero.

Definition turn_eqb (a b : turn) : bool :=
  match a, b with
  | Shift, Shift | Digit, Digit | Round, Round | Zero, Zero => true
  | _, _ => false
  end.

(** How many turns of a kind a run took. *)
Fixpoint times (a : turn) (t : list turn) : Z :=
  match t with
  | [] => 0
  | b :: t => (if turn_eqb a b then 1 else 0) + times a t
  end.

(** No run takes more turns than these, whatever is formatted. *)
Definition few_turns (t : list turn) : Prop :=
  times Shift t <= 104 /\ times Digit t <= 17 /\ times Round t <= 9 /\ times Zero t <= 20.

(** How far a double is below the normal numbers: the leading zero bits of the significand
    it has there.  [n = 0] for normal numbers. *)
Definition bits_below (u n : Z) : Prop :=
  (n = 0 /\ (bpow radix2 (-1022) <= Rabs (double_value u))%R) \/
  (0 < n <= 52 /\ (bpow radix2 (-1022 - n) <= Rabs (double_value u) < bpow radix2 (-1022 - n + 1))%R).
