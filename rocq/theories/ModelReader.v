(** float.cpp with a C library whose strtold does no more than C17 recommends: ModelFloat.v has one that rounds
    every decimal correctly. *)
From Coq Require Import Floats.SpecFloat.
From Verif Require Import Machine ModelInt ModelText ModelIeee ModelDiyfp ModelDtoa ModelFloat ModelLexi.

(** C17 5.2.4.2.2 (11): the digits with which every long double can be written and read back. *)
Definition DECIMAL_DIG (f : ld_format) : Z := match f with LD64 => 17 | LD80 => 21 | LD128 => 36 end.

(** The number of digits of [D]. *)
Fixpoint count_digits (fuel : nat) (D : Z) : Z :=
  match fuel with
  | O => 0
  | S fuel => if D <=? 0 then 0 else 1 + count_digits fuel (D / 10)
  end.
Definition digits_of (D : Z) : Z := count_digits (S (Z.to_nat (Z.log2 D))) D.

(** C17 7.22.1.3 (9): a decimal of more than [k] significant digits (zeros at its end are not) may be taken for the
    next one below or above with [k] digits, as the library likes. *)
Definition nearby (k : Z) (up : bool) (D K : Z) : Z * Z :=
  let n := digits_of D - k in
  if (n <=? 0) || (D mod 10 ^ n =? 0) then (D, K)
  else (D / 10 ^ n + (if up then 1 else 0), K + n).

(** [up]: for which texts the library takes the one above. *)
Definition w_strtold (up : bytes -> bool) (k prec emax : Z) (point : ascii) (s : bytes) : spec_float :=
  let '(neg, r) := take_sign (skip_space (c_str_of s)) in
  if starts_ci (str "inf") r then S754_infinity neg
  else if starts_ci (str "nan") r then S754_nan
  else
    let decimal :=
      let '(ip, fp, r1) := scan_mantissa c_isdigit point r in
      if (length (ip ++ fp) =? 0)%nat then S754_zero false
      else let '(D, K) := nearby k (up s) (digits_value 10 (fun c => code c - 48) (ip ++ fp))
                            (scan_exponent "e"%char r1 - Z.of_nat (length fp)) in
           round_decimal prec emax neg D K in
    if starts_ci (str "0x") r then
      let '(ip, fp, r1) := scan_mantissa c_isxdigit point (skipn 2 r) in
      if (length (ip ++ fp) =? 0)%nat then decimal
      else
        let m := digits_value 16 xdigit_value (ip ++ fp) in
        binary_normalize prec emax (cond_Zopp neg m)
          (scan_exponent "p"%char r1 - 4 * Z.of_nat (length fp)) neg
    else decimal.

(** float.cpp:137-165; the other types do not use strtold. *)
Definition w_ExtractFloat (up : bytes -> bool) (env : float_env) (point : ascii) (s : bytes) : outcome spec_float :=
  Ok (w_strtold up (DECIMAL_DIG (fe_ld env)) (ld_prec (fe_ld env)) (ld_emax (fe_ld env)) point s).
Definition w_extract (up : bytes -> bool) (e : env) (point : ascii) (T : extract_type) (s : bytes) : outcome extracted :=
  match T with
  | TFloat => let* x := w_ExtractFloat up (e_float e) point s in Ok (XFloating (ExtractFloat_float x))
  | TDouble => let* x := w_ExtractFloat up (e_float e) point s in Ok (XFloating (ExtractFloat_double x))
  | TLongDouble => let* x := w_ExtractFloat up (e_float e) point s in Ok (XFloating (ExtractFloat_long_double x))
  | _ => extract e point T s
  end.
