(** Properties C30-C32, C37, C38, C48: reading floating point numbers back. *)
From Coq Require Import Reals Floats.SpecFloat.
From Flocq Require Import Core IEEE754.BinarySingleNaN.
From Verif Require Import Machine SpecApi SpecDecimal SpecNumber SpecIeee SpecRead ModelItoa ModelInt ModelText
  ModelIeee ModelDiyfp ModelDtoa ModelFloat ModelLexi ModelPlatforms
  ProofFloat4 ProofRead ProofRead2 ProofRead3.
Open Scope Z_scope.

(** C37: every text denotes exactly one thing; extraction gives its value rounded to long
    double and then to the type asked for. *)
Theorem C37_texts_denote : forall point s, point_ok point -> exists v, reads point s v /\ forall v', reads point s v' -> v' = v.
Proof. exact texts_denote. Qed.
Print Assumptions C37_texts_denote.

Theorem C37_extracts : forall e point s v, point_ok point -> reads point s v ->
  exists y, read_as (ld_prec (fe_ld (e_float e))) (ld_emax (fe_ld (e_float e))) v y /\
    extract e point TLongDouble s = Ok (XFloating y) /\
    (exists z, extract e point TDouble s = Ok (XFloating z) /\ narrowed 53 1024 y z) /\
    (exists z, extract e point TFloat s = Ok (XFloating z) /\ narrowed 24 128 y z).
Proof. exact float_extracts. Qed.
Print Assumptions C37_extracts.

(** The results above are determined: rounding has one result. *)
Theorem C37_determined : forall prec emax v y z1 z2 neg x,
  (read_as prec emax v y -> read_as prec emax v z1 -> y = z1) /\
  (narrowed prec emax y z1 -> narrowed prec emax y z2 -> z1 = z2) /\
  (rounded prec emax z1 neg x -> rounded prec emax z2 neg x -> z1 = z2).
Proof. exact reading_determined. Qed.
Print Assumptions C37_determined.

Theorem C37_cstr : forall e point s, extract_cstr e point TDouble s = extract e point TDouble s /\
  extract_cstr e point TFloat s = extract e point TFloat s /\ extract_cstr e point TLongDouble s = extract e point TLongDouble s.
Proof. exact float_extracts_cstr. Qed.
Print Assumptions C37_cstr.

Example C37_case : point_ok "."%char /\ point_ok ","%char /\
  extract (windows_x64 Strict) "."%char TDouble (str " +1.25e1xyz") = Ok (XFloating (S754_finite false (25 * 2 ^ 48) (-49))) /\
  extract (linux_x86_64 Strict) "."%char TFloat (str "-0x1.8p3") = Ok (XFloating (S754_finite true (3 * 2 ^ 22) (-20))) /\
  extract (linux_aarch64 Strict) "."%char TFloat (str "nope") = Ok (XFloating (S754_zero false)) /\
  extract (linux_aarch64 Strict) "."%char TDouble (str "1e400") = Ok (XFloating (S754_infinity false)) /\
  reads "."%char (str "-1.5") (DDecimal true 15 (-1)).
Proof.
  split; [exact dot_ok|]. split; [exact comma_ok|]. split; [vm_compute; reflexivity|]. split; [vm_compute; reflexivity|].
  split; [vm_compute; reflexivity|]. split; [vm_compute; reflexivity|]. exact minus_one_and_half.
Qed.

(** C30 is false with the 80-bit long double of x86: the text 8.51286005118775e-173 is read
    as a long double exactly halfway between two doubles, and then as the wrong one. *)
Theorem C30_read_back_refuted : exists u s z, bits64 u /\ double_finite u /\ double_value u <> 0%R /\
  fe_ld (e_float (linux_x86_64 Strict)) = LD80 /\
  lexi (linux_x86_64 Strict) (VDouble u) = Ok s /\ s = str "8.51286005118775e-173" /\
  extract (linux_x86_64 Strict) "."%char TDouble s = Ok (XFloating z) /\ ~ same_double z u.
Proof. exact read_back_refuted. Qed.
Print Assumptions C30_read_back_refuted.

(** It holds for the other formats, and for even patterns with every format. *)
Theorem C30_read_back : forall e u s, bits64 u -> double_finite u -> double_value u <> 0%R -> lexi e (VDouble u) = Ok s ->
  fe_ld (e_float e) <> LD80 \/ Z.even u = true ->
  exists z, extract e "."%char TDouble s = Ok (XFloating z) /\ same_double z u.
Proof. exact double_read_exact. Qed.
Print Assumptions C30_read_back.

(** With every format, it fails only when the long double is halfway between doubles... *)
Theorem C30_read_back_or_tie : forall e u s, bits64 u -> double_finite u -> double_value u <> 0%R -> lexi e (VDouble u) = Ok s ->
  exists y z, extract e "."%char TLongDouble s = Ok (XFloating y) /\ extract e "."%char TDouble s = Ok (XFloating z) /\
    is_finite_SF y = true /\
    (same_double z u \/
     let x := Rabs (double_value u) in
     Rabs (SF2R radix2 y) = ((x + pred radix2 (binary_format 53 1024) x) / 2)%R \/
     Rabs (SF2R radix2 y) = ((x + succ radix2 (binary_format 53 1024) x) / 2)%R).
Proof. exact double_read_or_tie. Qed.
Print Assumptions C30_read_back_or_tie.

(** ... and then the result is a neighbour, never an infinity. *)
Theorem C30_read_back_near : forall e u s, bits64 u -> double_finite u -> double_value u <> 0%R -> lexi e (VDouble u) = Ok s ->
  exists z, extract e "."%char TDouble s = Ok (XFloating z) /\
    SpecFloat.valid_binary 53 1024 z = true /\ is_finite_SF z = true /\ sign_SF z = double_sign u /\
    let x := Rabs (double_value u) in
    (pred radix2 (binary_format 53 1024) x <= Rabs (SF2R radix2 z) <= succ radix2 (binary_format 53 1024) x)%R.
Proof. exact double_read_near. Qed.
Print Assumptions C30_read_back_near.

Theorem C30_special_read_back : forall e point T, T = TFloat \/ T = TDouble \/ T = TLongDouble ->
  extract e point T (str "0.0") = Ok (XFloating (S754_zero false)) /\
  extract e point T (str "Infinity") = Ok (XFloating (S754_infinity false)) /\
  extract e point T (str "-Infinity") = Ok (XFloating (S754_infinity true)) /\
  extract e point T (str "NaN") = Ok (XFloating S754_nan).
Proof. exact special_texts_read. Qed.
Print Assumptions C30_special_read_back.

Example C30_case :
  (bits64 0xC08F3A6DD2F1A9FC /\ double_finite 0xC08F3A6DD2F1A9FC /\ double_value 0xC08F3A6DD2F1A9FC <> 0%R) /\
  (let* s := lexi (linux_aarch64 zero_memory) (VDouble 0x3FB999999999999B) in
   extract (linux_aarch64 zero_memory) "."%char TDouble s) = Ok (XFloating (S754_finite false 0x1999999999999B (-56))).
Proof. split; [exact (sample 0xC08F3A6DD2F1A9FC eq_refl)|vm_compute; reflexivity]. Qed.

(** C31: floats are read back exactly with every format. *)
Theorem C31_float_read_back : forall e u s, nan_ok (e_float e) -> bits32 u -> float_finite u -> float_value u <> 0%R ->
  lexi e (VFloat u) = Ok s ->
  exists z, extract e "."%char TFloat s = Ok (XFloating z) /\ same_float z u.
Proof. exact float_read. Qed.
Print Assumptions C31_float_read_back.

(** Both zeros are read back as positive zero (C33), infinities as themselves. *)
Theorem C31_float_special : forall e u s, nan_ok (e_float e) -> e_lit e = default_literals -> bits32 u ->
  lexi e (VFloat u) = Ok s ->
  (float_finite u -> float_value u = 0%R -> extract e "."%char TFloat s = Ok (XFloating (S754_zero false))) /\
  (forall b, float_infinity u b -> extract e "."%char TFloat s = Ok (XFloating (S754_infinity b))) /\
  (float_nan u -> extract e "."%char TFloat s = Ok (XFloating S754_nan)).
Proof. exact float_special_read. Qed.
Print Assumptions C31_float_special.

Example C31_case : nan_ok (e_float (linux_x86_64 zero_memory)) /\ bits32 0x3DCCCCCD /\ float_finite 0x3DCCCCCD /\
  (let* s := lexi (linux_x86_64 zero_memory) (VFloat 0x3DCCCCCD) in
   extract (linux_x86_64 zero_memory) "."%char TFloat s) = Ok (XFloating (S754_finite false 0xCCCCCD (-27))).
Proof. split; [exact (proj1 (sample_env zero_memory))|]. split; [split; cbn; lia|]. split; vm_compute; reflexivity. Qed.

(** C32 is false when long double is wider than double. *)
Theorem C32_long_double_refuted : exists x s, floating_ok (linux_x86_64 Strict) (VLongDouble x) /\ is_finite_SF x = true /\
  lexi (linux_x86_64 Strict) (VLongDouble x) = Ok s /\ s = str "1.0" /\
  exists z, extract (linux_x86_64 Strict) "."%char TLongDouble s = Ok (XFloating z) /\ z <> x.
Proof. exact long_double_refuted. Qed.
Print Assumptions C32_long_double_refuted.

(** It holds when long double is double. *)
Theorem C32_long_double_read_back : forall e x s, nan_ok (e_float e) -> fe_ld (e_float e) = LD64 -> floating_ok e (VLongDouble x) ->
  is_finite_SF x = true -> SF2R radix2 x <> 0%R -> lexi e (VLongDouble x) = Ok s ->
  extract e "."%char TLongDouble s = Ok (XFloating x).
Proof. exact long_double_exact. Qed.
Print Assumptions C32_long_double_read_back.

(** In general the long double read is within half a unit of the nearest double. *)
Theorem C32_long_double_near : forall e x s, nan_ok (e_float e) -> floating_ok e (VLongDouble x) ->
  let d := nearest 53 1024 (SF2R radix2 x) in
  is_finite_SF x = true -> d <> 0%R -> (Rabs d < bpow radix2 1024)%R -> lexi e (VLongDouble x) = Ok s ->
  exists y, extract e "."%char TLongDouble s = Ok (XFloating y) /\ is_finite_SF y = true /\
    (Rabs (SF2R radix2 y - d) <= ulp radix2 (binary_format 53 1024) d / 2)%R.
Proof. exact long_double_near. Qed.
Print Assumptions C32_long_double_near.

Example C32_case : floating_ok (windows_x64 Strict) (VLongDouble (S754_finite true 0x18000000000000 (-52))) /\
  lexi (windows_x64 Strict) (VLongDouble (S754_finite true 0x18000000000000 (-52))) = Ok (str "-1.5") /\
  extract (windows_x64 Strict) "."%char TLongDouble (str "-1.5") = Ok (XFloating (S754_finite true 0x18000000000000 (-52))).
Proof. split; [|split]; vm_compute; reflexivity. Qed.

(** C38 is false: with a decimal comma, 1.5 is read as 1. *)
Theorem C38_locale_refuted : exists u s z, bits64 u /\ double_finite u /\ double_value u <> 0%R /\ point_ok ","%char /\
  lexi (windows_x64 Strict) (VDouble u) = Ok s /\ s = str "1.5" /\
  extract (windows_x64 Strict) ","%char TDouble s = Ok (XFloating z) /\ ~ same_double z u /\
  exists z', extract (windows_x64 Strict) "."%char TDouble s = Ok (XFloating z') /\ same_double z' u.
Proof. exact locale_refuted. Qed.
Print Assumptions C38_locale_refuted.

(** Numbers without a fraction do not depend on the locale. *)
Theorem C38_no_fraction : forall e point s n, point_ok point -> json_number s n -> n_fraction n = None ->
  forall T, T = TFloat \/ T = TDouble \/ T = TLongDouble -> extract e point T s = extract e "."%char T s.
Proof. exact locale_same. Qed.
Print Assumptions C38_no_fraction.

(** Of the others the integer part is read. *)
Theorem C38_fraction_lost : forall e point s n, point_ok point -> json_number s n -> point <> "."%char ->
  exists y, rounded (ld_prec (fe_ld (e_float e))) (ld_emax (fe_ld (e_float e))) y (n_negative n)
      (match n_fraction n with None => n_value n | Some _ => signed (n_negative n) (IZR (numeral_value (n_integer n))) end) /\
    extract e point TLongDouble s = Ok (XFloating y) /\
    (exists z, extract e point TDouble s = Ok (XFloating z) /\ narrowed 53 1024 y z) /\
    (exists z, extract e point TFloat s = Ok (XFloating z) /\ narrowed 24 128 y z).
Proof. exact locale_reads. Qed.
Print Assumptions C38_fraction_lost.

Example C38_case : json_number (str "1e23") (Number false (str "1") None (Some ([], str "23"))) /\
  extract (windows_x64 Strict) ","%char TFloat (str "1e23") = extract (windows_x64 Strict) "."%char TFloat (str "1e23") /\
  extract (windows_x64 Strict) ","%char TFloat (str "12.75") = Ok (XFloating (S754_finite false (3 * 2 ^ 22) (-20))).
Proof. split; [exact ten_23|]. split; vm_compute; reflexivity. Qed.

(** C48 is false: 1e23 prints as 9.999999999999999e22. *)
Theorem C48_short_decimal_refuted : exists n u z s, json_number (str "1e23") n /\ bits64 u /\ double_finite u /\
  extract (windows_x64 zero_memory) "."%char TDouble (str "1e23") = Ok (XFloating z) /\ same_double z u /\
  lexi (windows_x64 zero_memory) (VDouble u) = Ok s /\ s = str "9.999999999999999e22" /\
  forall n', json_number s n' -> n_value n' <> n_value n.
Proof. exact short_decimal_refuted. Qed.
Print Assumptions C48_short_decimal_refuted.

(** It holds for decimals not within a five-hundredth of a unit of the ends of the interval
    that rounds to the double. *)
Theorem C48_short_decimal : forall e u s n D K, bits64 u -> double_finite u -> lexi e (VDouble u) = Ok s -> json_number s n ->
  0 < D < 10 ^ 15 ->
  let x := Rabs (double_value u) in let margin := (ulp radix2 (binary_format 53 1024) x / 500)%R in
  (bpow radix2 (-1022) <= x)%R ->
  (lower_end x + margin <= IZR D * bpow radix10 K <= upper_end x - margin)%R ->
  n_magnitude n = (IZR D * bpow radix10 K)%R.
Proof. exact short_decimal_back. Qed.
Print Assumptions C48_short_decimal.

Example C48_case : lexi (linux_x86_64 zero_memory) (VDouble 0x3FB999999999999A) = Ok (str "0.1") /\
  (bpow radix2 (-1022) <= Rabs (double_value 0x3FB999999999999A))%R /\
  let x := Rabs (double_value 0x3FB999999999999A) in let margin := (ulp radix2 (binary_format 53 1024) x / 500)%R in
  (lower_end x + margin <= IZR 1 * bpow radix10 (-1) <= upper_end x - margin)%R.
Proof. split; [vm_compute; reflexivity|exact one_tenth]. Qed.
