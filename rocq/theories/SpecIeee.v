(** Independent specification of IEEE-754 numbers, through Flocq: the value of a bit
    pattern, and correct rounding. *)
From Coq Require Import Reals.
From Flocq Require Import Core IEEE754.Binary IEEE754.Bits.
From Verif Require Import Machine.
Open Scope Z_scope.

(** Bit patterns of binary64. *)
Definition bits64 (u : Z) : Prop := 0 <= u < 2 ^ 64.
Definition double_nan (u : Z) : Prop := is_nan 53 1024 (b64_of_bits u) = true.
Definition double_finite (u : Z) : Prop := is_finite 53 1024 (b64_of_bits u) = true.
Definition double_value (u : Z) : R := B2R 53 1024 (b64_of_bits u).
Definition double_sign (u : Z) : bool := Bsign 53 1024 (b64_of_bits u).
(** The infinity of sign [s]. *)
Definition double_infinity (u : Z) (s : bool) : Prop := b64_of_bits u = B754_infinity 53 1024 s.

(** Bit patterns of binary32. *)
Definition bits32 (u : Z) : Prop := 0 <= u < 2 ^ 32.
Definition float_finite (u : Z) : Prop := is_finite 24 128 (b32_of_bits u) = true.
Definition float_value (u : Z) : R := B2R 24 128 (b32_of_bits u).

(** The numbers of a binary format with unbounded exponent range above, and rounding to
    the nearest of them, ties to even. *)
Definition binary_format (prec emax : Z) : Z -> Z := FLT_exp (3 - emax - prec) prec.
Definition nearest (prec emax : Z) (v : R) : R := round radix2 (binary_format prec emax) ZnearestE v.

(** [v] is closer to [x] than to any other number of the format. *)
Definition strictly_nearest (prec emax : Z) (x v : R) : Prop :=
  generic_format radix2 (binary_format prec emax) x /\
  forall y, generic_format radix2 (binary_format prec emax) y -> y <> x ->
            (Rabs (v - x) < Rabs (v - y))%R.

(** The midpoints between [x > 0] and its neighbours in binary64, except that the lower one
    is taken closer at the smallest normal number (the spacing below it does not halve). *)
Definition lower_end (x : R) : R :=
  (if Req_bool x (bpow radix2 (-1022)) then x - ulp radix2 (binary_format 53 1024) x / 4
   else (x + pred radix2 (binary_format 53 1024) x) / 2)%R.
Definition upper_end (x : R) : R := ((x + succ radix2 (binary_format 53 1024) x) / 2)%R.

(** More about binary32. *)
Definition float_nan (u : Z) : Prop := is_nan 24 128 (b32_of_bits u) = true.
Definition float_sign (u : Z) : bool := Bsign 24 128 (b32_of_bits u).
Definition float_infinity (u : Z) (s : bool) : Prop := b32_of_bits u = B754_infinity 24 128 s.
