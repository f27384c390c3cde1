(** What a processor may make of a floating point expression: every operation gives one of the
    two numbers of its precision next to the exact result, whatever the rounding direction, and
    intermediate results may have any precision not below that of a double. *)
From Coq Require Import Reals ZArith Floats.SpecFloat.
From Flocq Require Import Core IEEE754.BinarySingleNaN.
Open Scope Z_scope.

(** [y] is [x], or the number of [prec] bits just below or just above it. *)
Definition neighbour (prec : Z) (x y : R) : Prop :=
  y = round radix2 (FLX_exp prec) Zfloor x \/ y = round radix2 (FLX_exp prec) Zceil x.

(** [dk] is a value of the expression [(-61 - e) * 0.30102999566398114 + 347]: the literal, the
    product (also exact, as in a fused operation), the sum and the conversion to double. *)
Definition value_of_expression (e : Z) (dk : spec_float) : Prop :=
  valid_binary 53 1024 dk = true /\ is_finite_SF dk = true /\
  exists p1 p2 p3 c t s, 53 <= p1 /\ 53 <= p2 /\ 53 <= p3 /\
    neighbour p1 (30102999566398114 / 10 ^ 17) c /\
    (t = IZR (-61 - e) * c \/ neighbour p2 (IZR (-61 - e) * c) t)%R /\
    neighbour p3 (t + 347) s /\
    neighbour 53 s (SF2R radix2 dk).

(** The expression in the arithmetic of IEEE 754 in one rounding direction. *)
Definition ieee_int (m : mode) (n : Z) : binary_float 53 1024 := binary_normalize 53 1024 eq_refl eq_refl m n 0 false.
Definition ieee_literal : binary_float 53 1024 := binary_normalize 53 1024 eq_refl eq_refl mode_NE 5422874305198590 (-54) false.
Definition ieee_expression (m : mode) (e : Z) : spec_float :=
  B2SF (@Bplus 53 1024 eq_refl eq_refl m (@Bmult 53 1024 eq_refl eq_refl m (ieee_int m (-61 - e)) ieee_literal) (ieee_int m 347)).
