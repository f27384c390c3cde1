(** Model of the floating point conversions (include/lexi/float.hpp, src/float.cpp, detail/dtoa.cpp)
    where the program has changed the rounding direction with fesetround: ModelFloat is the same in
    the default direction.  The conversions of the language and [strtold] round in the direction
    that is set (C17 7.6 and F.5), overflow gives an infinity or the largest finite value
    (IEEE 754-2008, 7.4). *)
From Coq Require Import Floats.SpecFloat.
From Verif Require Import Machine ModelInt ModelText ModelIeee ModelDiyfp ModelDtoa ModelFloat ModelLexi ModelRounding.

(** FE_TONEAREST, FE_DOWNWARD, FE_UPWARD, FE_TOWARDZERO *)
Inductive direction := ToNearest | Downward | Upward | TowardZero.

(** The magnitude is between [m] and [m + 1], where [l] says, and the sign is [neg]: is it taken to
    be [m + 1] or [m]?  (IEEE 754-2008, 4.3) *)
Definition away (d : direction) (neg : bool) (l : location) : bool :=
  match l with
  | loc_Exact => false
  | loc_Inexact _ => match d with Downward => neg | Upward => negb neg | _ => false end
  end.
Definition d_choose (d : direction) (neg : bool) (m : Z) (l : location) : Z :=
  match d with
  | ToNearest => round_nearest_even m l
  | _ => if away d neg l then m + 1 else m
  end.

(** The result of an overflow. *)
Definition d_overflow (prec emax : Z) (d : direction) (neg : bool) : spec_float :=
  let largest := S754_finite neg (Z.to_pos (2 ^ prec - 1)) (emax - prec) in
  match d with
  | ToNearest => S754_infinity neg
  | Downward => if neg then S754_infinity neg else largest
  | Upward => if neg then largest else S754_infinity neg
  | TowardZero => largest
  end.

(** The standard library's [binary_round_aux], [binary_round] and [binary_normalize], which round to
    nearest, with these choices. *)
Definition d_round_aux (d : direction) (prec emax : Z) (neg : bool) (m e : Z) (l : location) : spec_float :=
  let '(r1, e1) := shr_fexp prec emax m e l in
  let '(r2, e2) := shr_fexp prec emax (d_choose d neg (shr_m r1) (loc_of_shr_record r1)) e1 loc_Exact in
  match shr_m r2 with
  | Z0 => S754_zero neg
  | Zpos m => if e2 <=? emax - prec then S754_finite neg m e2 else d_overflow prec emax d neg
  | Zneg _ => S754_nan
  end.
Definition d_round (d : direction) (prec emax : Z) (neg : bool) (m : positive) (e : Z) : spec_float :=
  let '(m, e) := shl_align m e (fexp prec emax (Zpos (digits2_pos m) + e)) in
  d_round_aux d prec emax neg (Zpos m) e loc_Exact.
Definition d_normalize (d : direction) (prec emax : Z) (m e : Z) (neg : bool) : spec_float :=
  match m with
  | Z0 => S754_zero neg
  | Zpos m => d_round d prec emax false m e
  | Zneg m => d_round d prec emax true m e
  end.

(** As [convert], [round_decimal] and [strtold] of ModelFloat. *)
Definition d_convert (d : direction) (prec emax : Z) (x : spec_float) : spec_float :=
  match x with
  | S754_finite s m e => d_normalize d prec emax (cond_Zopp s (Zpos m)) e s
  | _ => x
  end.
Definition d_round_decimal (d : direction) (prec emax : Z) (neg : bool) (D K : Z) : spec_float :=
  match D with
  | Zpos _ =>
      if 0 <=? K then d_normalize d prec emax (cond_Zopp neg (D * 10 ^ K)) 0 neg
      else let '(m, e, l) := SFdiv_core_binary prec emax D 0 (10 ^ (- K)) 0 in
           d_round_aux d prec emax neg m e l
  | _ => S754_zero neg
  end.
Definition d_strtold (d : direction) (prec emax : Z) (point : ascii) (s : bytes) : spec_float :=
  let '(neg, r) := take_sign (skip_space (c_str_of s)) in
  if starts_ci (str "inf") r then S754_infinity neg
  else if starts_ci (str "nan") r then S754_nan
  else
    let decimal :=
      let '(ip, fp, r1) := scan_mantissa c_isdigit point r in
      if (length (ip ++ fp) =? 0)%nat then S754_zero false
      else d_round_decimal d prec emax neg (digits_value 10 (fun c => code c - 48) (ip ++ fp))
             (scan_exponent "e"%char r1 - Z.of_nat (length fp)) in
    if starts_ci (str "0x") r then
      let '(ip, fp, r1) := scan_mantissa c_isxdigit point (skipn 2 r) in
      if (length (ip ++ fp) =? 0)%nat then decimal
      else
        let m := digits_value 16 xdigit_value (ip ++ fp) in
        d_normalize d prec emax (cond_Zopp neg m)
          (scan_exponent "p"%char r1 - 4 * Z.of_nat (length fp)) neg
    else decimal.

(** float.cpp:137-165, and the other types, which do not use floating point *)
Definition d_ExtractFloat (d : direction) (env : float_env) (point : ascii) (s : bytes) : outcome spec_float :=
  Ok (d_strtold d (ld_prec (fe_ld env)) (ld_emax (fe_ld env)) point s).
Definition d_extract (d : direction) (e : env) (point : ascii) (T : extract_type) (s : bytes) : outcome extracted :=
  match T with
  | TFloat => let* x := d_ExtractFloat d (e_float e) point s in Ok (XFloating (d_convert d 24 128 x))
  | TDouble => let* x := d_ExtractFloat d (e_float e) point s in Ok (XFloating (d_convert d 53 1024 x))
  | TLongDouble => let* x := d_ExtractFloat d (e_float e) point s in Ok (XFloating x)
  | _ => extract e point T s
  end.

(** float.cpp:31-50, with the values [dk] of the expression of dtoa.cpp:196 (see ModelRounding) *)
Definition d_format_bits (dk : Z -> spec_float) (env : float_env) (u : Z) : outcome FormatFloat :=
  if negb (isFinite u) then
    if isNan u then special (lit_nan (fe_lit env))
    else if isInfinity u then special (lit_infinity (fe_lit env))
    else special (lit_negative_infinity (fe_lit env))
  else
    let* c := r_dtoa (fe_tc env) dk u (Cursor (new_buf FLOAT_SIZE) 0) in
    Ok (MkFormatFloat (cbuf c) 0 (cpos c)).
Definition d_format (d : direction) (dk : Z -> spec_float) (env : float_env) (value : spec_float) : outcome FormatFloat :=
  d_format_bits dk env (bits_of_double (fe_nan env) (d_convert d 53 1024 value)).
(** float.cpp:53-68, 107-110 and lexi.hpp:160-166 *)
Definition d_lexi (d : direction) (dk : Z -> spec_float) (e : env) (v : value) : outcome bytes :=
  let ld := fe_ld (e_float e) in
  let text (x : spec_float) := let* o := d_format d dk (e_float e) x in FormatFloat_string o in
  match v with
  | VFloat u => text (d_convert d (ld_prec ld) (ld_emax ld) (float_of_bits u))
  | VDouble u => text (d_convert d (ld_prec ld) (ld_emax ld) (double_of_bits u))
  | VLongDouble x => text x
  | _ => lexi e v
  end.
