(** Model of long double arguments and results as objects, that is, as bits.

    float.cpp:31-68 passes a long double to functions that take a double (isFinite, isNan, isInfinity,
    dtoa), so it is converted, four times at most and always with the same result.  The conversion loads
    the bits.  ModelFloat.v starts from the number loaded; here it starts from the bits, any of which
    may be in a union, in memory that was copied, or in a file. *)
From Verif Require Import Machine ModelItoa ModelInt ModelText ModelDtoa ModelFloat ModelLexi.

(** Loading an x87 object (FLD m80fp followed by FSTP m64fp).  The manual's unsupported formats raise the
    invalid operation, and what is stored is the real indefinite, which is a NaN. *)
Definition x87_of_bits (u : Z) : spec_float :=
  let s := 2 ^ 79 <=? u in
  let e := (u / 2 ^ 64) mod 2 ^ 15 in
  let m := u mod 2 ^ 64 in
  if e =? 32767 then if m =? 2 ^ 63 then S754_infinity s else S754_nan
  else if e =? 0 then match m with Zpos p => S754_finite s p (-16445) | _ => S754_zero s end
  else if m <? 2 ^ 63 then S754_nan
  else match m with Zpos p => S754_finite s p (e - 16446) | _ => S754_nan end.
Definition long_double_of_bits (f : ld_format) (u : Z) : spec_float :=
  match f with LD64 => sf_of_bits 52 11 u | LD80 => x87_of_bits u | LD128 => sf_of_bits 112 15 u end.

(** Storing a long double: FSTP m80fp, or the bits of IEEE 754; [nan] is the pattern of a NaN. *)
Definition x87_bits (nan : Z) (x : spec_float) : Z :=
  let sign (s : bool) := if s then 2 ^ 79 else 0 in
  match x with
  | S754_zero s => sign s
  | S754_infinity s => sign s + 32767 * 2 ^ 64 + 2 ^ 63
  | S754_nan => nan
  | S754_finite s m e => if Zpos m <? 2 ^ 63 then sign s + Zpos m else sign s + (e + 16446) * 2 ^ 64 + Zpos m
  end.
Definition ieee_bits (mw ew nan : Z) (x : spec_float) : Z :=
  let sign (s : bool) := if s then 2 ^ (mw + ew) else 0 in
  let emin := 3 - 2 ^ (ew - 1) - (mw + 1) in
  match x with
  | S754_zero s => sign s
  | S754_infinity s => sign s + (2 ^ ew - 1) * 2 ^ mw
  | S754_nan => nan
  | S754_finite s m e => if Zpos m <? 2 ^ mw then sign s + Zpos m else sign s + (e - emin + 1) * 2 ^ mw + (Zpos m - 2 ^ mw)
  end.
Definition bits_of_long_double (f : ld_format) (nan : Z) (x : spec_float) : Z :=
  match f with LD64 => ieee_bits 52 11 nan x | LD80 => x87_bits nan x | LD128 => ieee_bits 112 15 nan x end.

(** lexi.hpp:162-175 and 217-230 with the long double whose bits are [u] *)
Definition lexi_object (e : env) (u : Z) : outcome bytes := lexi e (VLongDouble (long_double_of_bits (fe_ld (e_float e)) u)).
Definition jsonify_object (e : env) (u : Z) : outcome bytes := jsonify_of e (VLongDouble (long_double_of_bits (fe_ld (e_float e)) u)).
(** lexi.hpp:84-135, 144-148: the bits of [lexi<long double>(s)] *)
Definition extract_object (e : env) (nan : Z) (point : ascii) (s : bytes) : outcome Z :=
  let* x := ExtractFloat (e_float e) point s in
  Ok (bits_of_long_double (fe_ld (e_float e)) nan (ExtractFloat_long_double x)).
