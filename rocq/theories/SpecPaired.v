(** Independent specification of reading numbers where long double is a pair of doubles. *)
From Coq Require Import Reals Floats.SpecFloat.
From Flocq Require Import Core IEEE754.BinarySingleNaN.
From Verif Require Import Machine SpecNumber SpecIeee SpecRead.
Open Scope Z_scope.

(** The nearest number with 106 bits, none of them below 2^-1074, which is as small as the doubles of
    a pair can be. *)
Definition pair_nearest (x : R) : R := round radix2 (FLT_exp (-1074) 106) ZnearestE x.

(** [hi] and [lo] are the pair for [x] with the sign [neg]: the high part is the number of 106 bits
    rounded to double, possibly to an infinity, and the low part is the rest of it. *)
Definition paired (hi lo : spec_float) (neg : bool) (x : R) : Prop :=
  rounded 53 1024 hi neg (pair_nearest x) /\
  SpecFloat.valid_binary 53 1024 lo = true /\ is_finite_SF lo = true /\
  (is_finite_SF hi = true -> (SF2R radix2 hi + SF2R radix2 lo)%R = pair_nearest x).

(** The pair of what was read. *)
Definition pair_read_as (v : denoted) (hi lo : spec_float) : Prop :=
  match v with
  | DDecimal neg D K => paired hi lo neg (signed neg (IZR D * bpow radix10 K))
  | DHex neg M E => paired hi lo neg (signed neg (IZR M * bpow radix2 E))
  | DInfinity neg => hi = S754_infinity neg
  | DNan => hi = S754_nan
  | DNothing => hi = S754_zero false /\ lo = S754_zero false
  end.
