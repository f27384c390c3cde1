(** Independent statements about the objects of type long double: which number, if any, the
    bits stand for. *)
From Coq Require Import Reals Floats.SpecFloat.
From Flocq Require Import Core IEEE754.BinarySingleNaN.
From Verif Require Import Machine SpecIeee ModelFloat.
Open Scope Z_scope.

(** [n] bits from bit [lo]. *)
Definition field (u lo n : Z) : Z := (u / 2 ^ lo) mod 2 ^ n.

Inductive meaning := Number (negative : bool) (v : R) | Infinite (negative : bool) | NotNumber.

Definition signed (negative : bool) (v : R) : R := if negative then (- v)%R else v.

(** IEEE 754-2008, 3.4: a sign, [ew] bits of the exponent, [mw] bits of the fraction; the bit before
    the fraction is zero for the exponent zero and one otherwise. *)
Definition ieee_meaning (mw ew u : Z) : meaning :=
  let s := field u (mw + ew) 1 =? 1 in
  let e := field u mw ew in
  let m := field u 0 mw in
  if e =? 2 ^ ew - 1 then if m =? 0 then Infinite s else NotNumber
  else Number s (signed s (IZR (if e =? 0 then m else 2 ^ mw + m) * bpow radix2 (Z.max e 1 - (2 ^ (ew - 1) - 1) - mw))).

(** Intel's manual, volume 1, table 4-3: a sign, 15 bits of the exponent, and a significand of 64 bits
    with the bit before the fraction in it.  That bit is one where the exponent is not zero; what has a
    zero there (unnormals, pseudo-infinities, pseudo-NaNs) is not a number to the processor.  One there
    with an exponent of zero (pseudo-denormals) is a number. *)
Definition x87_meaning (u : Z) : meaning :=
  let s := field u 79 1 =? 1 in
  let e := field u 64 15 in
  let j := field u 63 1 in
  let m := field u 0 64 in
  if e =? 32767 then if (j =? 1) && (field u 0 63 =? 0) then Infinite s else NotNumber
  else if (e =? 0) || (j =? 1) then Number s (signed s (IZR m * bpow radix2 (Z.max e 1 - 16383 - 63)))
  else NotNumber.

(** What the double [w] has to be, to stand for the object. *)
Definition double_for (w : Z) (x : meaning) : Prop :=
  match x with
  | NotNumber => double_nan w
  | Infinite s => double_infinity w s
  | Number s v =>
      let r := nearest 53 1024 v in
      ((Rabs r < bpow radix2 1024)%R -> double_finite w /\ double_value w = r /\ double_sign w = s) /\
      ((bpow radix2 1024 <= Rabs r)%R -> double_infinity w s)
  end.

(** Two objects of the x87 format are the same number and not the same bits: a pseudo-denormal and the
    normal number. *)
Definition twins (u v : Z) : Prop :=
  field u 79 1 = field v 79 1 /\ field u 0 64 = field v 0 64 /\ field u 63 1 = 1 /\
  ((field u 64 15 = 0 /\ field v 64 15 = 1) \/ (field u 64 15 = 1 /\ field v 64 15 = 0)).

(** The objects of each format. *)
Definition object_meaning (f : ld_format) (u : Z) : meaning :=
  match f with LD64 => ieee_meaning 52 11 u | LD80 => x87_meaning u | LD128 => ieee_meaning 112 15 u end.
Definition object_bits (f : ld_format) (u : Z) : Prop :=
  0 <= u < match f with LD64 => 2 ^ 64 | LD80 => 2 ^ 80 | LD128 => 2 ^ 128 end.

(** The meaning of a floating point number apart from its bits. *)
Definition number_meaning (x : spec_float) : meaning :=
  match x with
  | S754_nan => NotNumber
  | S754_infinity s => Infinite s
  | _ => Number (sign_SF x) (SF2R radix2 x)
  end.
