(** Extraction with the variable [errno] as part of the state: lexi does not read or reset it,
    but strtoull and strtold set it. *)
From Coq Require Import Floats.SpecFloat.
From Verif Require Import Machine ModelItoa ModelInt ModelString ModelText ModelIeee ModelDiyfp
  ModelDtoa ModelFloat ModelLexi.

(** The values of the macros, on Linux and Windows. *)
Definition ERANGE : Z := 34.
Definition EINVAL : Z := 22.

(** What C17 leaves to the library: whether a text without a number sets EINVAL (POSIX permits
    it; musl does, glibc and the Microsoft library do not), and for which texts a result that
    underflows sets ERANGE (7.22.1.3 (10)). *)
Record c_library := CLibrary { cl_einval : bool; cl_underflow : bytes -> bool }.

(** C17 7.22.1.4 (8): ERANGE when the value is out of range.  [strtoull] of ModelInt is the
    value. *)
Definition e_strtoull (cl : c_library) (s : bytes) (errno : Z) : Z * Z :=
  let '(_, r) := take_sign (skip_space (c_str_of s)) in
  let errno :=
    match r with
    | c :: _ => if c_isdigit c then (if ULLONG_MAX <? scan_digits r 0 then ERANGE else errno)
                else if cl_einval cl then EINVAL else errno
    | [] => if cl_einval cl then EINVAL else errno
    end in
  (strtoull s, errno).

(** The value of the digits of a number as read by [strtold], without the point and the exponent;
    none when there is no number. *)
Definition significand_digits (point : ascii) (r : bytes) : option Z :=
  let decimal :=
    let '(ip, fp, _) := scan_mantissa c_isdigit point r in
    if (length (ip ++ fp) =? 0)%nat then None else Some (digits_value 10 (fun c => code c - 48) (ip ++ fp)) in
  if starts_ci (str "0x") r then
    let '(ip, fp, _) := scan_mantissa c_isxdigit point (skipn 2 r) in
    if (length (ip ++ fp) =? 0)%nat then decimal else Some (digits_value 16 xdigit_value (ip ++ fp))
  else decimal.

(** The magnitude is no greater than the smallest normalized number. *)
Definition no_greater_than_min (prec emax : Z) (y : spec_float) : bool :=
  match y with
  | S754_zero _ => true
  | S754_finite _ m e => (Zpos m <=? 2 ^ (prec - 1)) && (e =? 3 - emax - prec)
  | _ => false
  end.

(** C17 7.22.1.3 (10): ERANGE for overflow; for underflow as the library likes.  [strtold] of
    ModelFloat is the value. *)
Definition e_strtold (cl : c_library) (prec emax : Z) (point : ascii) (s : bytes) (errno : Z) : spec_float * Z :=
  let '(_, r) := take_sign (skip_space (c_str_of s)) in
  let y := strtold prec emax point s in
  let errno :=
    if starts_ci (str "inf") r || starts_ci (str "nan") r then errno
    else match significand_digits point r with
         | None => if cl_einval cl then EINVAL else errno
         | Some D =>
             match y with
             | S754_infinity _ => ERANGE
             | _ => if negb (D =? 0) && no_greater_than_min prec emax y && cl_underflow cl s then ERANGE else errno
             end
         end in
  (y, errno).

(** int.cpp:179-183, float.cpp:137-141 *)
Definition e_ExtractInt (cl : c_library) (s : bytes) (errno : Z) : outcome (Z * Z) := Ok (e_strtoull cl s errno).
Definition e_ExtractFloat (cl : c_library) (env : float_env) (point : ascii) (s : bytes) (errno : Z) : outcome (spec_float * Z) :=
  Ok (e_strtold cl (ld_prec (fe_ld env)) (ld_emax (fe_ld env)) point s errno).

(** lexi.hpp:84-135, 144-148: the value and [errno] afterwards.  The other extractors call no
    function that sets [errno] (null.cpp:103-106, bool.cpp:104-113, char.cpp:99-103). *)
Definition e_extract (cl : c_library) (e : env) (point : ascii) (T : extract_type) (s : bytes) (errno : Z) : outcome (extracted * Z) :=
  match T with
  | TNull => let* _ := ExtractNull (e_lit e) s in Ok (XNull, errno)
  | TBool => let* b := ExtractBool (e_lit e) s in Ok (XBool b, errno)
  | TChar => let* c := ExtractChar s in Ok (XChar c, errno)
  | TInt t => let* r := e_ExtractInt cl s errno in Ok (XInt (ExtractInt_to (e_platform e) t (fst r)), snd r)
  | TFloat => let* r := e_ExtractFloat cl (e_float e) point s errno in Ok (XFloating (ExtractFloat_float (fst r)), snd r)
  | TDouble => let* r := e_ExtractFloat cl (e_float e) point s errno in Ok (XFloating (ExtractFloat_double (fst r)), snd r)
  | TLongDouble => let* r := e_ExtractFloat cl (e_float e) point s errno in Ok (XFloating (ExtractFloat_long_double (fst r)), snd r)
  | TEnum u => let* r := e_ExtractInt cl s errno in Ok (XEnum (ExtractEnum_to (e_platform e) u (fst r)), snd r)
  | TFpos => let* r := e_ExtractInt cl s errno in
             Ok (XFpos (ExtractInt_to (e_platform e) (streamoff_type (e_platform e)) (fst r)), snd r)
  end.
