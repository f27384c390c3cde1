(** Model of src/float.cpp where long double is a pair of doubles, the format of GCC on POWER
    (detail/architecture.hpp:31 names it: __ppc64__, __powerpc64__).  The number is the sum of the two
    doubles of the pair, and the high part is that sum rounded to double. *)
From Coq Require Import Floats.SpecFloat.
From Verif Require Import Machine ModelText ModelIeee ModelDtoa ModelFloat ModelLexi.

Record double_pair := Pair { dp_hi : spec_float; dp_lo : spec_float }.

(** The conversion of a float or a double to long double, of a long double to double (its high part),
    and to float (the high part is converted). *)
Definition pair_of_double (x : spec_float) : double_pair := Pair x (S754_zero false).
Definition pair_of_float (x : spec_float) : double_pair := Pair (convert 53 1024 x) (S754_zero false).
Definition double_of_pair (p : double_pair) : spec_float := dp_hi p.
Definition float_of_pair (p : double_pair) : spec_float := convert 24 128 (dp_hi p).

(** float.cpp:31-50 *)
Definition d_format (env : float_env) (value : double_pair) : outcome FormatFloat :=
  format_bits env (bits_of_double (fe_nan env) (double_of_pair value)).

(** The arguments of the constructors, float.cpp:53-68. *)
Inductive floating := PFloat (u : Z) | PDouble (u : Z) | PLongDouble (p : double_pair).
Definition d_FormatFloat (env : float_env) (x : floating) : outcome FormatFloat :=
  match x with
  | PFloat u => d_format env (pair_of_float (float_of_bits u))
  | PDouble u => d_format env (pair_of_double (double_of_bits u))
  | PLongDouble p => d_format env p
  end.
(** lexi.hpp:160-166 *)
Definition d_lexi (e : env) (x : floating) : outcome bytes :=
  let* o := d_FormatFloat (e_float e) x in FormatFloat_string o.

(** [strtold]: the C library rounds to a number of 106 bits with an exponent of at least -1074 (glibc's
    LDBL_MANT_DIG and LDBL_MIN_EXP), and splits it.  Numbers that are too large for the format with
    this least exponent are rounded in one that has more room on both sides, where the least exponent
    does not matter; whether the high part overflows is decided by its rounding. *)
Definition pair_number (point : ascii) (s : bytes) : spec_float :=
  match strtold 106 971 point s with
  | S754_infinity _ => strtold 106 2048 point s
  | y => y
  end.
Definition sf_parts (x : spec_float) : Z * Z :=
  match x with S754_finite s m e => (cond_Zopp s (Zpos m), e) | _ => (0, 0) end.
(** [y - x], rounded to double *)
Definition pair_rest (y x : spec_float) : spec_float :=
  let '(m1, e1) := sf_parts y in
  let '(m2, e2) := sf_parts x in
  let e := Z.min e1 e2 in
  binary_normalize 53 1024 (m1 * 2 ^ (e1 - e) - m2 * 2 ^ (e2 - e)) e false.
Definition pair_split (y : spec_float) : double_pair :=
  let hi := convert 53 1024 y in
  Pair hi (match hi with S754_zero _ | S754_finite _ _ _ => pair_rest y hi | _ => S754_zero false end).
Definition d_strtold (point : ascii) (s : bytes) : double_pair := pair_split (pair_number point s).

(** float.cpp:137-165 *)
Definition d_ExtractFloat (point : ascii) (s : bytes) : outcome double_pair := Ok (d_strtold point s).
(** lexi.hpp:115-120, 144-148 *)
Definition d_extract_float (point : ascii) (s : bytes) : outcome spec_float :=
  let* p := d_ExtractFloat point s in Ok (float_of_pair p).
Definition d_extract_double (point : ascii) (s : bytes) : outcome spec_float :=
  let* p := d_ExtractFloat point s in Ok (double_of_pair p).
Definition d_extract_long_double (point : ascii) (s : bytes) : outcome double_pair := d_ExtractFloat point s.
