(** Model of include/lexi/float.hpp and src/float.cpp (floating point formatting and
    extraction), and of the C library function [strtold] they call.

    Floating point values are the standard library's [spec_float]s; doubles and floats are
    also handled as bit patterns. *)
From Verif Require Import Machine ModelInt ModelText ModelIeee ModelDiyfp ModelDtoa.

(** ** Formats and conversions *)

(** The formats of long double on the supported platforms: binary64 (MSVC), x87 extended
    (GCC and Clang on x86), binary128 (AArch64). *)
Inductive ld_format := LD64 | LD80 | LD128.
Definition ld_prec (f : ld_format) : Z := match f with LD64 => 53 | LD80 => 64 | LD128 => 113 end.
Definition ld_emax (f : ld_format) : Z := match f with LD64 => 1024 | LD80 | LD128 => 16384 end.

(** Conversion between floating point types, to nearest even ([conv.double]). *)
Definition convert (prec emax : Z) (x : spec_float) : spec_float :=
  match x with
  | S754_finite s m e => binary_normalize prec emax (cond_Zopp s (Zpos m)) e s
  | _ => x
  end.

(** The value of a bit pattern with [mw] fraction bits and [ew] exponent bits
    (IEEE 754-2008, 3.4). *)
Definition sf_of_bits (mw ew : Z) (u : Z) : spec_float :=
  let s := 2 ^ (mw + ew) <=? u in
  let e := (u / 2 ^ mw) mod 2 ^ ew in
  let m := u mod 2 ^ mw in
  let emin := 3 - 2 ^ (ew - 1) - (mw + 1) in
  if e =? 0 then match m with Zpos p => S754_finite s p emin | _ => S754_zero s end
  else if e =? 2 ^ ew - 1 then if m =? 0 then S754_infinity s else S754_nan
  else match m + 2 ^ mw with Zpos p => S754_finite s p (emin + e - 1) | _ => S754_nan end.

Definition double_of_bits (u : Z) : spec_float := sf_of_bits 52 11 u.
Definition float_of_bits (u : Z) : spec_float := sf_of_bits 23 8 u.

(** The bit pattern of a double; [nan] is the pattern of a NaN (its sign and payload are
    not determined by the language). *)
Definition bits_of_double (nan : Z) (x : spec_float) : Z :=
  let sign (s : bool) := if s then 2 ^ 63 else 0 in
  match x with
  | S754_zero s => sign s
  | S754_infinity s => sign s + 2047 * 2 ^ 52
  | S754_nan => nan
  | S754_finite s m e => if Zpos m <? 2 ^ 52 then sign s + Zpos m
                         else sign s + (e + 1075) * 2 ^ 52 + (Zpos m - 2 ^ 52)
  end.

(** ** FormatFloat *)

(** include/lexi/detail/fmt.hpp:24 *)
Definition FLOAT_SIZE : nat := 30.

(** include/lexi/float.hpp:22-27: [buffer_], [first], [last]; the pointers are offsets into
    this object's own buffer (copies of the object are treated in ModelObj.v). *)
Record FormatFloat := MkFormatFloat { ff_buffer : buf; ff_first : Z; ff_last : Z }.

(** What the float code depends on: the long double format, the bit pattern of NaNs that
    went through a conversion, the compiler branches, the configured literals. *)
Record float_env := FloatEnv {
  fe_ld : ld_format; fe_nan : Z; fe_tc : toolchain; fe_lit : literals
}.

(** float.cpp:36-47: [strncpy(first, S, sizeof(S)); last += sizeof(S) - 1] *)
Definition special (s : bytes) : outcome FormatFloat :=
  let* b := buf_strncpy_literal (new_buf FLOAT_SIZE) 0 s in
  Ok (MkFormatFloat b 0 (0 + Z.of_nat (length s))).

(** float.cpp:31-50.  The detail functions take a double: [u] is the bit pattern of
    [value] converted to double. *)
Definition format_bits (env : float_env) (u : Z) : outcome FormatFloat :=
  if negb (isFinite u) then
    if isNan u then special (lit_nan (fe_lit env))
    else if isInfinity u then special (lit_infinity (fe_lit env))
    else special (lit_negative_infinity (fe_lit env))
  else
    let* c := dtoa (fe_tc env) u (Cursor (new_buf FLOAT_SIZE) 0) in
    Ok (MkFormatFloat (cbuf c) 0 (cpos c)).

Definition format (env : float_env) (value : spec_float) : outcome FormatFloat :=
  format_bits env (bits_of_double (fe_nan env) (convert 53 1024 value)).

(** float.cpp:53-68: the argument is converted to long double. *)
Definition FormatFloat_float (env : float_env) (u : Z) : outcome FormatFloat :=
  format env (convert (ld_prec (fe_ld env)) (ld_emax (fe_ld env)) (float_of_bits u)).
Definition FormatFloat_double (env : float_env) (u : Z) : outcome FormatFloat :=
  format env (convert (ld_prec (fe_ld env)) (ld_emax (fe_ld env)) (double_of_bits u)).
Definition FormatFloat_long_double (env : float_env) (x : spec_float) : outcome FormatFloat :=
  format env x.

(** float.cpp:73-76 *)
Definition FormatFloat_size (o : FormatFloat) : Z := ff_last o - ff_first o.
(** float.cpp:81-84 *)
Definition FormatFloat_length (o : FormatFloat) : Z := FormatFloat_size o.
(** float.cpp:91-102: the C string a caller reads through [data()] or [c_str()]. *)
Definition FormatFloat_c_str (o : FormatFloat) : outcome bytes :=
  buf_c_string (S (length (ff_buffer o))) (ff_buffer o) (ff_first o).
(** float.cpp:107-110 *)
Definition FormatFloat_string (o : FormatFloat) : outcome bytes :=
  buf_read_n (ff_buffer o) (ff_first o) (Z.to_nat (FormatFloat_size o)).
(** float.cpp:115-118, 123-126, 131-134 *)
Definition FormatFloat_escape (o : FormatFloat) : outcome bytes := FormatFloat_string o.
Definition FormatFloat_jsonify (o : FormatFloat) : outcome bytes := FormatFloat_string o.
Definition FormatFloat_to_string (o : FormatFloat) : outcome bytes := FormatFloat_string o.

(** ** strtold, C17 7.22.1.3 *)

(** The longest prefix of digits, and the rest. *)
Fixpoint span (p : ascii -> bool) (s : bytes) : bytes * bytes :=
  match s with
  | c :: r => if p c then let '(a, b) := span p r in (c :: a, b) else ([], s)
  | [] => ([], [])
  end.

Definition c_tolower (c : ascii) : ascii :=
  if (65 <=? code c) && (code c <=? 90) then chr (code c + 32) else c.

(** [s] starts with [w] (in lower case), ignoring case. *)
Fixpoint starts_ci (w s : bytes) : bool :=
  match w, s with
  | [], _ => true
  | a :: w, c :: s => Ascii.eqb a (c_tolower c) && starts_ci w s
  | _ :: _, [] => false
  end.

Definition c_isxdigit (c : ascii) : bool :=
  c_isdigit c || ((97 <=? code (c_tolower c)) && (code (c_tolower c) <=? 102)).
Definition xdigit_value (c : ascii) : Z :=
  if c_isdigit c then code c - 48 else code (c_tolower c) - 87.

(** Value of a digit string in a base. *)
Definition digits_value (base : Z) (val : ascii -> Z) (l : bytes) : Z :=
  fold_left (fun a c => base * a + val c) l 0.

(** Digits with an optional decimal point: (integer part, fraction part, rest). *)
Definition scan_mantissa (p : ascii -> bool) (point : ascii) (s : bytes) : bytes * bytes * bytes :=
  let '(ip, r) := span p s in
  match r with
  | c :: r1 => if Ascii.eqb c point then let '(fp, r2) := span p r1 in (ip, fp, r2) else (ip, [], r)
  | [] => (ip, [], [])
  end.

(** An exponent part introduced by [e] (in lower case); 0 when there is none. *)
Definition scan_exponent (e : ascii) (s : bytes) : Z :=
  match s with
  | c :: r =>
      if Ascii.eqb (c_tolower c) e then
        let '(neg, r) := take_sign r in
        let '(ds, _) := span c_isdigit r in
        let n := digits_value 10 (fun c => code c - 48) ds in
        if neg then - n else n
      else 0
  | [] => 0
  end.

(** [(-1)^neg * D * 10^K] correctly rounded to nearest even. *)
Definition round_decimal (prec emax : Z) (neg : bool) (D K : Z) : spec_float :=
  match D with
  | Zpos d =>
      if 0 <=? K then binary_normalize prec emax (cond_Zopp neg (D * 10 ^ K)) 0 neg
      else let '(m, e, l) := SFdiv_core_binary prec emax D 0 (10 ^ (- K)) 0 in
           binary_round_aux prec emax neg m e l
  | _ => S754_zero neg
  end.

(** [strtold(s, nullptr)] for the format [(prec, emax)] and the decimal point character of
    the current locale.  Values out of range become infinities (HUGE_VALL), tiny values are
    rounded to subnormals or zero; errno is not read by lexi. *)
Definition strtold (prec emax : Z) (point : ascii) (s : bytes) : spec_float :=
  let '(neg, r) := take_sign (skip_space (c_str_of s)) in
  if starts_ci (str "inf") r then S754_infinity neg
  else if starts_ci (str "nan") r then S754_nan
  else
    let decimal :=
      let '(ip, fp, r1) := scan_mantissa c_isdigit point r in
      if (length (ip ++ fp) =? 0)%nat then S754_zero false
      else round_decimal prec emax neg (digits_value 10 (fun c => code c - 48) (ip ++ fp))
             (scan_exponent "e"%char r1 - Z.of_nat (length fp)) in
    if starts_ci (str "0x") r then
      let '(ip, fp, r1) := scan_mantissa c_isxdigit point (skipn 2 r) in
      if (length (ip ++ fp) =? 0)%nat then decimal (* the "0" before the x *)
      else
        let m := digits_value 16 xdigit_value (ip ++ fp) in
        binary_normalize prec emax (cond_Zopp neg m)
          (scan_exponent "p"%char r1 - 4 * Z.of_nat (length fp)) neg
    else decimal.

(** ** ExtractFloat *)

(** float.cpp:137-141 *)
Definition ExtractFloat (env : float_env) (point : ascii) (s : bytes) : outcome spec_float :=
  Ok (strtold (ld_prec (fe_ld env)) (ld_emax (fe_ld env)) point s).

(** float.cpp:146-165 *)
Definition ExtractFloat_float (x : spec_float) : spec_float := convert 24 128 x.
Definition ExtractFloat_double (x : spec_float) : spec_float := convert 53 1024 x.
Definition ExtractFloat_long_double (x : spec_float) : spec_float := x.
