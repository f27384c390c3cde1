(** Property C92: reading in any locale of the C library. *)
From Coq Require Import Reals Floats.SpecFloat.
From Verif Require Import Machine SpecApi SpecDecimal SpecInt SpecNumber SpecIeee SpecRead SpecLocale ModelItoa ModelInt ModelText
  ModelIeee ModelDiyfp ModelDtoa ModelFloat ModelLexi ModelLocale ModelPlatforms ProofLocale.
Open Scope Z_scope.

(** Which locales are considered: those that the C standard allows. *)
Theorem C92_locales : forall l, locale_ok l <->
  (forall c, is_space c -> l_space l c = true) /\ (forall c, l_space l c = true -> neutral c) /\
  (exists c w, l_point l = c :: w /\ neutral c /\ l_space l c = false) /\ ~ In NUL (l_point l).
Proof. exact locale_ok_iff. Qed.
Print Assumptions C92_locales.

(** Reading a text [ws ++ r] that begins with the white space [ws] of the locale: integers,
    enumerations and stream positions like [r] in the other properties. *)
Theorem C92_integral : forall l e p ws r T, locale_ok l ->
  (exists t, T = TInt t) \/ (exists u, T = TEnum u) \/ T = TFpos ->
  Forall (fun c => l_space l c = true) ws -> ~ starts_with (fun c => l_space l c = true) r ->
  extract_in e l T (ws ++ r) = extract e p T r.
Proof. exact integral. Qed.
Print Assumptions C92_integral.

(** Floating point numbers like [r] with the first decimal point of the locale replaced by
    a decimal point [p] of one byte, which is not in front of it (C37 says what that is). *)
Theorem C92_floating : forall l e p ws r a b T, locale_ok l -> neutral p -> ~ is_space p ->
  T = TFloat \/ T = TDouble \/ T = TLongDouble ->
  Forall (fun c => l_space l c = true) ws -> ~ starts_with (fun c => l_space l c = true) r ->
  first_occurrence (l_point l) r a b -> ~ In p a ->
  extract_in e l T (ws ++ r) = extract e p T (a ++ p :: b).
Proof. exact floating_point. Qed.
Print Assumptions C92_floating.
Theorem C92_floating_none : forall l e p ws r T, locale_ok l -> neutral p -> ~ is_space p ->
  T = TFloat \/ T = TDouble \/ T = TLongDouble ->
  Forall (fun c => l_space l c = true) ws -> ~ starts_with (fun c => l_space l c = true) r ->
  ~ occurs (l_point l) r -> ~ In p r ->
  extract_in e l T (ws ++ r) = extract e p T r.
Proof. exact floating_none. Qed.
Print Assumptions C92_floating_none.

(** Null, booleans and characters do not depend on the locale. *)
Theorem C92_others : forall l e p T s, ~ ((exists t, T = TInt t) \/ (exists u, T = TEnum u) \/ T = TFpos) ->
  ~ (T = TFloat \/ T = TDouble \/ T = TLongDouble) -> extract_in e l T s = extract e p T s.
Proof. exact others. Qed.
Print Assumptions C92_others.

(** The other properties are about the locales with the white space of the C locale and a
    decimal point of one byte. *)
Theorem C92_model : forall e p T s, neutral p -> ~ is_space p ->
  extract_in e (Locale c_isspace [p]) T s = extract e p T s.
Proof. exact model. Qed.
Print Assumptions C92_model.

(** Integers, enumerations and stream positions are read back in every locale. *)
Theorem C92_integers_back : forall e l t v, platform_ok (e_platform e) -> locale_ok l -> has_int_type (e_platform e) t v ->
  (let* s := lexi e (VInt t v) in extract_in e l (TInt t) s) = Ok (XInt v).
Proof. exact integer_back. Qed.
Print Assumptions C92_integers_back.
Theorem C92_enums_back : forall e l u v, platform_ok (e_platform e) -> locale_ok l -> underlying_has (e_platform e) u v ->
  (let* s := lexi e (VEnum u v) in extract_in e l (TEnum u) s) = Ok (XEnum v).
Proof. exact enum_back. Qed.
Print Assumptions C92_enums_back.
Theorem C92_fpos_back : forall e l off, platform_ok (e_platform e) -> locale_ok l -> - 2 ^ 63 <= off < 2 ^ 63 ->
  (let* s := lexi e (VFpos off) in extract_in e l TFpos s) = Ok (XFpos off).
Proof. exact fpos_back. Qed.
Print Assumptions C92_fpos_back.

(** A JSON number is read as a floating point number in the locales whose decimal point is
    the full stop as in C30, C31, C37, whatever their white space; and in those whose decimal
    point does not contain it, its integer part is. *)
Theorem C92_numbers : forall e l p s n T, locale_ok l -> json_number s n ->
  ((exists t, T = TInt t) \/ (exists u, T = TEnum u) \/ T = TFpos -> extract_in e l T s = extract e p T s) /\
  (T = TFloat \/ T = TDouble \/ T = TLongDouble -> l_point l = ["."%char] -> extract_in e l T s = extract e "."%char T s) /\
  (T = TFloat \/ T = TDouble \/ T = TLongDouble -> ~ In "."%char (l_point l) -> extract_in e l T s = extract e ","%char T s).
Proof. exact number_in. Qed.
Print Assumptions C92_numbers.
Theorem C92_fraction_lost : forall e l s n, locale_ok l -> json_number s n -> ~ In "."%char (l_point l) ->
  exists y, rounded (ld_prec (fe_ld (e_float e))) (ld_emax (fe_ld (e_float e))) y (n_negative n)
      (match n_fraction n with None => n_value n | Some _ => signed (n_negative n) (IZR (numeral_value (n_integer n))) end) /\
    extract_in e l TLongDouble s = Ok (XFloating y) /\
    (exists z, extract_in e l TDouble s = Ok (XFloating z) /\ narrowed 53 1024 y z) /\
    (exists z, extract_in e l TFloat s = Ok (XFloating z) /\ narrowed 24 128 y z).
Proof. exact fraction_lost. Qed.
Print Assumptions C92_fraction_lost.
(** The words for the infinities and NaN are read in all of these (C30_special_read_back). *)
Theorem C92_words : forall e l T s, locale_ok l -> T = TFloat \/ T = TDouble \/ T = TLongDouble ->
  ~ In "."%char (l_point l) \/ l_point l = ["."%char] ->
  s = str "Infinity" \/ s = str "-Infinity" \/ s = str "NaN" ->
  extract_in e l T s = extract e ","%char T s.
Proof. exact words_in. Qed.
Print Assumptions C92_words.

Example C92_case : locale_ok locale_C /\ locale_ok locale_ps_AF /\ locale_ok locale_1252 /\
  extract_in (linux_x86_64 Strict) locale_ps_AF TDouble (str "-2" ++ [chr 0xD9; chr 0xAB] ++ str "5") =
    Ok (XFloating (S754_finite true (5 * 2 ^ 50) (-51))) /\
  extract_in (linux_x86_64 Strict) locale_ps_AF TDouble (str "2" ++ [chr 0xD9] ++ str "5") =
    Ok (XFloating (S754_finite false (2 ^ 52) (-51))) /\
  extract_in (windows_x64 Strict) locale_1252 (TInt Int) (chr 0xA0 :: str " -7") = Ok (XInt (-7)) /\
  extract_in (windows_x64 Strict) locale_C (TInt Int) (chr 0xA0 :: str " -7") = Ok (XInt 0) /\
  first_occurrence (l_point locale_ps_AF) (str "-2" ++ [chr 0xD9; chr 0xAB] ++ str "5") (str "-2") (str "5").
Proof.
  destruct locales_ok as (A & B & C). split; [exact A|]. split; [exact B|]. split; [exact C|].
  do 4 (split; [vm_compute; reflexivity|]). exact arabic_first.
Qed.
