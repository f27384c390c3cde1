(** How many decimals can be printed without reading outside of the table POWER10. *)
From Coq Require Import Reals.
From Flocq Require Import Core.
From Verif Require Import Machine SpecNumber.
Open Scope Z_scope.

(** The least [g] of the form 8 i + 4 for which ten to the [g] times the power of two at or
    below [x] is at least 4. *)
Definition decimal_scale (x : R) (g : Z) : Prop :=
  g mod 8 = 4 /\
  exists b, (bpow radix2 b <= x < bpow radix2 (b + 1))%R /\
            (bpow radix10 (g - 8) * bpow radix2 b < 4 <= bpow radix10 g * bpow radix2 b)%R.
