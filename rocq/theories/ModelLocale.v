(** The calls of [strtoull] (src/int.cpp:182, include/lexi/enum.hpp:31-37) and [strtold]
    (src/float.cpp:140) in an arbitrary locale of the C library: white space is what
    [isspace] accepts (C17 7.22.1.3p2, 7.22.1.4p2), and the decimal point is the string
    [localeconv()->decimal_point] (7.11.2.1), which has several bytes in some locales (in
    UTF-8, ps_AF has the two bytes D9 AB).  ModelInt.v and ModelFloat.v have the white space
    of the "C" locale and a decimal point of one byte.  No other part of the library looks
    at the locale. *)
From Verif Require Import Machine ModelItoa ModelInt ModelText ModelIeee ModelDiyfp ModelDtoa ModelFloat ModelLexi.

Record locale := Locale { l_space : ascii -> bool; l_point : bytes }.

(** What the standard asks of a locale: the standard white-space characters are white space
    (7.4.1.10), no alphanumeric character is; the first byte of the decimal point can not be
    taken for another part of a number. *)
Definition byte_neutral (c : ascii) : bool :=
  negb (code c =? 0) && negb (Ascii.eqb c "+"%char) && negb (Ascii.eqb c "-"%char) &&
  negb (((65 <=? code c) && (code c <=? 90)) || ((97 <=? code c) && (code c <=? 122))) &&
  negb (c_isdigit c).
Definition locale_ok (l : locale) : Prop :=
  (forall c, c_isspace c = true -> l_space l c = true) /\
  (forall c, l_space l c = true -> byte_neutral c = true) /\
  match l_point l with
  | c :: _ => byte_neutral c = true /\ l_space l c = false
  | [] => False
  end /\ ~ In NUL (l_point l).

Fixpoint skip_space_in (l : locale) (s : bytes) : bytes :=
  match s with
  | [] => []
  | c :: r => if l_space l c then skip_space_in l r else s
  end.

(** [strtoull(s, nullptr, 10)] *)
Definition strtoull_in (l : locale) (s : bytes) : Z :=
  let '(neg, r) := take_sign (skip_space_in l (c_str_of s)) in
  let n := scan_digits r 0 in
  if ULLONG_MAX <? n then ULLONG_MAX
  else if neg then u64 (- n) else n.

(** The rest of [s] after the word [w], if it starts with it. *)
Fixpoint after (w s : bytes) : option bytes :=
  match w, s with
  | [], _ => Some s
  | a :: w, c :: s => if Ascii.eqb c a then after w s else None
  | _ :: _, [] => None
  end.

Definition scan_mantissa_in (l : locale) (p : ascii -> bool) (s : bytes) : bytes * bytes * bytes :=
  let '(ip, r) := span p s in
  match after (l_point l) r with
  | Some r1 => let '(fp, r2) := span p r1 in (ip, fp, r2)
  | None => (ip, [], r)
  end.

(** [strtold(s, nullptr)], as in ModelFloat.v *)
Definition strtold_in (prec emax : Z) (l : locale) (s : bytes) : spec_float :=
  let '(neg, r) := take_sign (skip_space_in l (c_str_of s)) in
  if starts_ci (str "inf") r then S754_infinity neg
  else if starts_ci (str "nan") r then S754_nan
  else
    let decimal :=
      let '(ip, fp, r1) := scan_mantissa_in l c_isdigit r in
      if (length (ip ++ fp) =? 0)%nat then S754_zero false
      else round_decimal prec emax neg (digits_value 10 (fun c => code c - 48) (ip ++ fp))
             (scan_exponent "e"%char r1 - Z.of_nat (length fp)) in
    if starts_ci (str "0x") r then
      let '(ip, fp, r1) := scan_mantissa_in l c_isxdigit (skipn 2 r) in
      if (length (ip ++ fp) =? 0)%nat then decimal
      else
        let m := digits_value 16 xdigit_value (ip ++ fp) in
        binary_normalize prec emax (cond_Zopp neg m)
          (scan_exponent "p"%char r1 - 4 * Z.of_nat (length fp)) neg
    else decimal.

(** lexi.hpp:84-148 *)
Definition extract_in (e : env) (l : locale) (T : extract_type) (s : bytes) : outcome extracted :=
  let ld := strtold_in (ld_prec (fe_ld (e_float e))) (ld_emax (fe_ld (e_float e))) l s in
  match T with
  | TNull => let* _ := ExtractNull (e_lit e) s in Ok XNull
  | TBool => let* b := ExtractBool (e_lit e) s in Ok (XBool b)
  | TChar => let* c := ExtractChar s in Ok (XChar c)
  | TInt t => Ok (XInt (ExtractInt_to (e_platform e) t (strtoull_in l s)))
  | TFloat => Ok (XFloating (ExtractFloat_float ld))
  | TDouble => Ok (XFloating (ExtractFloat_double ld))
  | TLongDouble => Ok (XFloating (ExtractFloat_long_double ld))
  | TEnum u => Ok (XEnum (ExtractEnum_to (e_platform e) u (strtoull_in l s)))
  | TFpos => Ok (XFpos (ExtractInt_to (e_platform e) (streamoff_type (e_platform e)) (strtoull_in l s)))
  end.

(** Locales for examples: "C"; a UTF-8 locale with the Arabic decimal separator; code page
    1252, whose no-break space is white space, with a comma. *)
Definition locale_C : locale := Locale c_isspace (str ".").
Definition locale_ps_AF : locale := Locale c_isspace [chr 0xD9; chr 0xAB].
Definition locale_1252 : locale := Locale (fun c => c_isspace c || (code c =? 0xA0)) (str ",").
