(** Independent specification of scaling by powers of ten in double precision. *)
From Coq Require Import Reals Floats.SpecFloat.
From Flocq Require Import Core IEEE754.BinarySingleNaN.
From Verif Require Import Machine SpecIeee.
Open Scope Z_scope.

(** [z] is [x] up to a relative error of 2^-50 (eight units of roundoff) and an absolute one of
    the smallest double; an infinity when [x] is beyond the largest double, up to the same
    relative error. *)
Definition within (z : spec_float) (neg : bool) (x : R) : Prop :=
  SpecFloat.valid_binary 53 1024 z = true /\
  ((is_finite_SF z = true /\ (Rabs (SF2R radix2 z - x) <= bpow radix2 (-50) * Rabs x + bpow radix2 (-1074))%R) \/
   (z = S754_infinity neg /\ ((1 - bpow radix2 (-50)) * bpow radix2 1024 <= Rabs x)%R)).

(** [r] says whether [x] is less than half a unit in the last place away from [b] (negative),
    exactly half a unit (zero), or more (positive). *)
Definition half_unit_sign (b x : R) (r : Z) : Prop :=
  let h := (ulp radix2 (binary_format 53 1024) b / 2)%R in
  (r < 0 <-> (Rabs (x - b) < h)%R) /\ (r = 0 <-> (Rabs (x - b) = h)%R) /\ (0 < r <-> (h < Rabs (x - b))%R).
