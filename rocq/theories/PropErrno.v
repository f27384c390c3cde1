(** Property C82: what [errno] tells the caller of an extraction. *)
From Coq Require Import Reals Floats.SpecFloat.
From Flocq Require Import Core IEEE754.BinarySingleNaN.
From Verif Require Import Machine SpecApi SpecDecimal SpecInt SpecIeee SpecRead SpecMore SpecErrno
  ModelItoa ModelInt ModelText ModelIeee ModelDiyfp ModelDtoa ModelFloat ModelLexi ModelPlatforms ModelErrno ProofErrno.
Open Scope Z_scope.

(** C82 is false: 2^32 is out of the range of int and not reported, ... *)
Theorem C82_reported_refuted : exists e t s neg ds x, platform_ok (e_platform e) /\ integer_prefix s neg ds /\
  ~ has_int_type (e_platform e) t (if neg then - numeral_value ds else numeral_value ds) /\
  forall cl errno, e_extract cl e "."%char (TInt t) s errno = Ok (XInt x, errno).
Proof. exact reported_refuted. Qed.
Print Assumptions C82_reported_refuted.

(** ... nor is -1 for unsigned long long, nor 1e400 for double where long double has a larger
    range. *)
Theorem C82_unreported : forall cl,
  e_extract cl (linux_x86_64 Strict) "."%char (TInt Int) (str "4294967296") 0 = Ok (XInt 0, 0) /\
  e_extract cl (linux_x86_64 Strict) "."%char (TInt ULLong) (str "-1") 0 = Ok (XInt (2 ^ 64 - 1), 0) /\
  e_extract cl (linux_x86_64 Strict) "."%char TDouble (str "1e400") 0 = Ok (XFloating (S754_infinity false), 0).
Proof. exact int_unreported. Qed.
Print Assumptions C82_unreported.

(** The value read does not depend on errno. *)
Theorem C82_value : forall cl e point T s errno,
  (let* r := e_extract cl e point T s errno in Ok (fst r)) = extract e point T s.
Proof. exact value_same. Qed.
Print Assumptions C82_value.

(** For which texts it is set, by the number in the text. *)
Theorem C82_integers : forall cl e point T s neg ds errno, integer_target T -> integer_prefix s neg ds ->
  exists x errno', e_extract cl e point T s errno = Ok (x, errno') /\ after_integer cl ds errno errno'.
Proof. exact integer_errno. Qed.
Print Assumptions C82_integers.

Theorem C82_floating : forall cl e point T s v errno p q, target_format e T = Some (p, q) -> point_ok point -> reads point s v ->
  exists z errno', e_extract cl e point T s errno = Ok (XFloating z, errno') /\
    after_floating cl (ld_prec (fe_ld (e_float e))) (ld_emax (fe_ld (e_float e))) v errno errno'.
Proof. exact floating_errno. Qed.
Print Assumptions C82_floating.

Theorem C82_others : forall cl e point T s errno x errno', ~ integer_target T -> target_format e T = None ->
  e_extract cl e point T s errno = Ok (x, errno') -> errno' = errno.
Proof. exact others_untouched. Qed.
Print Assumptions C82_others.

(** No false alarm: an integer reported is not in the range of the type; a floating point number
    reported was read as an infinity, or is as small as the smallest normalized long double. *)
Theorem C82_integer_alarm : forall cl e point t s neg ds x, platform_ok (e_platform e) -> integer_prefix s neg ds ->
  e_extract cl e point (TInt t) s 0 = Ok (x, ERANGE) ->
  ~ has_int_type (e_platform e) t (if neg then - numeral_value ds else numeral_value ds).
Proof. exact integer_alarm. Qed.
Print Assumptions C82_integer_alarm.

Theorem C82_floating_alarm : forall cl e point T s v x errno z errno' p q, target_format e T = Some (p, q) -> point_ok point ->
  reads point s v -> denotes v x -> e_extract cl e point T s errno = Ok (XFloating z, errno') -> errno' <> errno ->
  (exists neg, z = S754_infinity neg) \/ underflows (ld_prec (fe_ld (e_float e))) (ld_emax (fe_ld (e_float e))) x.
Proof. exact floating_alarm. Qed.
Print Assumptions C82_floating_alarm.

(** Where it can be relied on: numbers without a minus read as a 64-bit unsigned type, and the
    overflow of long double, or of double where it is the same. *)
Theorem C82_unsigned : forall cl e point t s ds x errno', platform_ok (e_platform e) -> int_bits (e_platform e) t = 64 ->
  int_signed t = false -> integer_prefix s false ds -> e_extract cl e point (TInt t) s 0 = Ok (x, errno') ->
  errno' = ERANGE <-> ~ has_int_type (e_platform e) t (numeral_value ds).
Proof. exact unsigned_exact. Qed.
Print Assumptions C82_unsigned.

Theorem C82_overflow : forall cl e point T s v x errno neg errno',
  target_format e T = Some (ld_prec (fe_ld (e_float e)), ld_emax (fe_ld (e_float e))) -> point_ok point -> reads point s v ->
  denotes v x -> e_extract cl e point T s errno = Ok (XFloating (S754_infinity neg), errno') -> errno' = ERANGE.
Proof. exact overflow_reported. Qed.
Print Assumptions C82_overflow.

(** Reading what was printed leaves it alone: for integers, for floats, ... *)
Theorem C82_integers_printed : forall cl e point errno, platform_ok (e_platform e) ->
  (forall t v, has_int_type (e_platform e) t v ->
     (let* s := lexi e (VInt t v) in e_extract cl e point (TInt t) s errno) = Ok (XInt v, errno)) /\
  (forall u v, underlying_has (e_platform e) u v ->
     (let* s := lexi e (VEnum u v) in e_extract cl e point (TEnum u) s errno) = Ok (XEnum v, errno)) /\
  (forall off, - 2 ^ 63 <= off < 2 ^ 63 ->
     (let* s := lexi e (VFpos off) in e_extract cl e point TFpos s errno) = Ok (XFpos off, errno)).
Proof. exact integers_printed. Qed.
Print Assumptions C82_integers_printed.

Theorem C82_floats_printed : forall cl e u s T errno p q, nan_ok (e_float e) -> bits32 u -> float_finite u -> float_value u <> 0%R ->
  lexi e (VFloat u) = Ok s -> target_format e T = Some (p, q) ->
  exists z, e_extract cl e "."%char T s errno = Ok (XFloating z, errno).
Proof. exact floats_printed. Qed.
Print Assumptions C82_floats_printed.

(** ... and for doubles, unless long double is double and the number is tiny. *)
Theorem C82_doubles_printed : forall cl e u s T errno p q, bits64 u -> double_finite u -> double_value u <> 0%R ->
  lexi e (VDouble u) = Ok s -> target_format e T = Some (p, q) ->
  fe_ld (e_float e) <> LD64 \/ (bpow radix2 (-1022) < Rabs (double_value u))%R ->
  exists z, e_extract cl e "."%char T s errno = Ok (XFloating z, errno).
Proof. exact doubles_printed. Qed.
Print Assumptions C82_doubles_printed.

Theorem C82_tiny_refuted : exists cl u s z, bits64 u /\ double_finite u /\ double_value u <> 0%R /\ lexi (windows_x64 Strict) (VDouble u) = Ok s /\
  s = str "5e-324" /\ e_extract cl (windows_x64 Strict) "."%char TDouble s 0 = Ok (XFloating z, ERANGE).
Proof. exact tiny_reported. Qed.
Print Assumptions C82_tiny_refuted.

Example C82_case : let glibc := CLibrary false (fun _ => true) in let musl := CLibrary true (fun _ => true) in
  e_extract glibc (linux_x86_64 Strict) "."%char (TInt ULong) (str "18446744073709551615") 7 = Ok (XInt 18446744073709551615, 7) /\
  e_extract glibc (linux_x86_64 Strict) "."%char (TInt ULong) (str "18446744073709551616") 7 = Ok (XInt 18446744073709551615, ERANGE) /\
  e_extract musl (linux_x86_64 Strict) "."%char TFpos (str "+x") 7 = Ok (XFpos 0, EINVAL) /\
  e_extract glibc (windows_x64 Strict) "."%char TDouble (str "-1e400") 7 = Ok (XFloating (S754_infinity true), ERANGE) /\
  e_extract glibc (windows_x64 Strict) "."%char TDouble (str "-inf") 7 = Ok (XFloating (S754_infinity true), 7) /\
  e_extract glibc (windows_x64 Strict) "."%char TDouble (str "0e-400") 7 = Ok (XFloating (S754_zero false), 7) /\
  e_extract glibc (windows_x64 Strict) "."%char TDouble (str "0x1p-1075") 7 = Ok (XFloating (S754_zero false), ERANGE) /\
  e_extract glibc (linux_x86_64 Strict) "."%char TDouble (str "0x1p-1075") 7 = Ok (XFloating (S754_zero false), 7) /\
  e_extract musl (linux_x86_64 Strict) "."%char TLongDouble (str ".") 7 = Ok (XFloating (S754_zero false), EINVAL).
Proof. repeat (split; [vm_compute; reflexivity|]). vm_compute; reflexivity. Qed.
