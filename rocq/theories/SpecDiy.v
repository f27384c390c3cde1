(** The number that a significand and a binary exponent stand for. *)
From Coq Require Import Reals.
From Flocq Require Import Core.
From Verif Require Import Machine SpecIeee.
Open Scope Z_scope.

Definition binary_value (f e : Z) : R := (IZR f * bpow radix2 e)%R.
Definition is_word (f : Z) : Prop := 0 <= f < 2 ^ 64.
(** A significand of 64 bits whose first bit is set *)
Definition is_normal (f : Z) : Prop := 2 ^ 63 <= f < 2 ^ 64.
