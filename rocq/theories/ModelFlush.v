(** Model of lexi on a floating-point unit that is set to treat subnormal numbers as zero: the
    flush-to-zero and denormals-are-zero bits of MXCSR (set, for the whole program, by the start-up
    code GCC links with -ffast-math), the FZ bit of FPCR on ARM.

    The bit operations are not affected: detail/ieee754.cpp and the constructor of DiyFp
    (detail/diyfp.cpp:37-46) read the pattern through a union, and the negation of dtoa.cpp:387 flips
    the sign bit.  Neither is the arithmetic of [getCachedPower] (detail/diyfp.cpp), which computes
    zero or numbers that are far from subnormal.  What is affected is the comparisons of
    detail/dtoa.cpp:377 and :385, and the conversions between floating point types. *)
From Verif Require Import Machine ModelText ModelIeee ModelDiyfp ModelDtoa ModelFloat ModelLexi.

(** What the unit does: a comparison takes a subnormal operand for zero; a conversion to a wider type
    takes a subnormal operand for zero; a conversion to a narrower type gives zero instead of a
    subnormal result.  Units differ (x87 instructions do none of them), so each is a parameter. *)
Record flush := Flush { fl_compare : bool; fl_widen : bool; fl_narrow : bool }.

(** A number of precision [prec], in the canonical form, that is subnormal. *)
Definition sf_subnormal (prec : Z) (x : spec_float) : bool :=
  match x with S754_finite _ m _ => Zpos m <? 2 ^ (prec - 1) | _ => false end.
(** The zero of the same sign. *)
Definition flushed (prec : Z) (x : spec_float) : spec_float :=
  if sf_subnormal prec x then match x with S754_finite s _ _ => S754_zero s | _ => x end else x.

(** The implicit conversion of a number of precision [p] to the format [(P, Q)] that is wider, or the
    same (then there is nothing to convert). *)
Definition z_widen (fl : flush) (p P Q : Z) (x : spec_float) : spec_float :=
  if P =? p then x else convert P Q (if fl_widen fl then flushed p x else x).
(** The conversion of a number of precision [P] to the format [(p, q)] that is narrower, or the same. *)
Definition z_narrow (fl : flush) (P p q : Z) (x : spec_float) : spec_float :=
  if P =? p then x else let y := convert p q x in if fl_narrow fl then flushed p y else y.

(** [value == 0] and [value < 0] for a double. *)
Definition double_is_subnormal (u : Z) : bool := negb (double_is_zero u) && ((u / 2 ^ 52) mod 2 ^ 11 =? 0).
Definition z_is_zero (fl : flush) (u : Z) : bool := double_is_zero u || (fl_compare fl && double_is_subnormal u).
Definition z_is_negative (fl : flush) (u : Z) : bool := (2 ^ 63 <=? u) && negb (z_is_zero fl u).

(** dtoa.cpp:375-394 *)
Definition z_dtoa (fl : flush) (tc : toolchain) (value : Z) (c : cursor) : outcome cursor :=
  if z_is_zero fl value then
    let* c := put c "0"%char in
    let* c := put c "."%char in
    let* c := put c "0"%char in
    let* b := buf_write (cbuf c) (cpos c) NUL in
    Ok (Cursor b (cpos c))
  else
    let* (c, value) :=
      if z_is_negative fl value then
        let* c := put c "-"%char in Ok (c, double_negate value)
      else Ok (c, value) in
    let* (b, length, k) := grisu2 tc value (cbuf c) (cpos c) in
    prettify b (cpos c) length k.

(** float.cpp:31-50 *)
Definition z_format_bits (fl : flush) (env : float_env) (u : Z) : outcome FormatFloat :=
  if negb (isFinite u) then
    if isNan u then special (lit_nan (fe_lit env))
    else if isInfinity u then special (lit_infinity (fe_lit env))
    else special (lit_negative_infinity (fe_lit env))
  else
    let* c := z_dtoa fl (fe_tc env) u (Cursor (new_buf FLOAT_SIZE) 0) in
    Ok (MkFormatFloat (cbuf c) 0 (cpos c)).
Definition z_format (fl : flush) (env : float_env) (value : spec_float) : outcome FormatFloat :=
  z_format_bits fl env (bits_of_double (fe_nan env) (z_narrow fl (ld_prec (fe_ld env)) 53 1024 value)).

(** float.cpp:53-68 *)
Definition z_FormatFloat_float (fl : flush) (env : float_env) (u : Z) : outcome FormatFloat :=
  z_format fl env (z_widen fl 24 (ld_prec (fe_ld env)) (ld_emax (fe_ld env)) (float_of_bits u)).
Definition z_FormatFloat_double (fl : flush) (env : float_env) (u : Z) : outcome FormatFloat :=
  z_format fl env (z_widen fl 53 (ld_prec (fe_ld env)) (ld_emax (fe_ld env)) (double_of_bits u)).
Definition z_FormatFloat_long_double (fl : flush) (env : float_env) (x : spec_float) : outcome FormatFloat :=
  z_format fl env x.

(** lexi.hpp:28-78, 160-166: the formatting of any value; only the floating point types differ. *)
Definition z_Format (fl : flush) (e : env) (v : value) : outcome formatter :=
  match v with
  | VFloat u => let* o := z_FormatFloat_float fl (e_float e) u in Ok (FFloat o)
  | VDouble u => let* o := z_FormatFloat_double fl (e_float e) u in Ok (FFloat o)
  | VLongDouble x => let* o := z_FormatFloat_long_double fl (e_float e) x in Ok (FFloat o)
  | _ => Format e v
  end.
Definition z_lexi (fl : flush) (e : env) (v : value) : outcome bytes :=
  match v with
  | VFloat _ | VDouble _ | VLongDouble _ => let* f := z_Format fl e v in f_string f
  | _ => lexi e v
  end.

(** float.cpp:146-165: what [strtold] gave is converted to the type asked for.  ([strtold] itself is
    taken to be correctly rounding: the C libraries work with integers.) *)
Definition z_extract (fl : flush) (e : env) (point : ascii) (t : extract_type) (s : bytes) : outcome extracted :=
  let P := ld_prec (fe_ld (e_float e)) in
  match t with
  | TFloat => let* x := ExtractFloat (e_float e) point s in Ok (XFloating (z_narrow fl P 24 128 x))
  | TDouble => let* x := ExtractFloat (e_float e) point s in Ok (XFloating (z_narrow fl P 53 1024 x))
  | _ => extract e point t s
  end.
