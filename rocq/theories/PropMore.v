(** Properties C54-C61, C66, C67, and sharper theorems for C14 and C27. *)
From Coq Require Import Reals Floats.SpecFloat.
From Flocq Require Import Core IEEE754.BinarySingleNaN.
From Verif Require Import Machine SpecApi SpecDecimal SpecInt SpecNumber SpecIeee SpecString SpecLayout SpecJson SpecRead SpecMore
  ModelItoa ModelInt ModelText ModelString ModelIeee ModelDiyfp ModelDtoa ModelFloat ModelLexi ModelPlatforms
  ProofFloat4 ProofRead2 ProofRead3 ProofMore ProofMore2 ProofMore3 ProofMore4 ProofMore5 ProofMore6.
Open Scope Z_scope.

(** C06 and C07 for arbitrary texts, as C04 for integers. *)
Theorem C06_enum_extraction : forall e point u s neg ds, platform_ok (e_platform e) -> integer_prefix s neg ds ->
  exists r, extract e point (TEnum u) s = Ok (XEnum r) /\
    converted (e_platform e) u r
      (if 2 ^ 64 - 1 <? numeral_value ds then 2 ^ 64 - 1
       else if neg then - numeral_value ds else numeral_value ds).
Proof. exact enum_extract. Qed.
Print Assumptions C06_enum_extraction.

Example C06_extraction_case : extract (linux_x86_64 Strict) "."%char (TEnum EBool) (str "256") = Ok (XEnum 1) /\
  extract (linux_x86_64 Strict) "."%char (TEnum EChar) (str "200x") = Ok (XEnum (-56)) /\
  extract (linux_aarch64 Strict) "."%char (TEnum EChar) (str " -1") = Ok (XEnum 255).
Proof. split; [vm_compute; reflexivity|]. split; vm_compute; reflexivity. Qed.

Theorem C07_fpos_extraction : forall e point s neg ds, platform_ok (e_platform e) -> integer_prefix s neg ds ->
  exists r, extract e point TFpos s = Ok (XFpos r) /\ - 2 ^ 63 <= r < 2 ^ 63 /\
    congruent 64 r (if 2 ^ 64 - 1 <? numeral_value ds then 2 ^ 64 - 1
       else if neg then - numeral_value ds else numeral_value ds).
Proof. exact fpos_extract. Qed.
Print Assumptions C07_fpos_extraction.

(** C14, exactly: every byte is written in its one way, and nothing is escaped that need not
    be. *)
Theorem C14_exact : forall e s, exists ts,
  jsonify_of e (VString s) = Ok (QUOTE :: List.concat ts ++ [QUOTE]) /\ Forall2 json_char s ts.
Proof. exact jsonify_exact. Qed.
Print Assumptions C14_exact.

Theorem C14_exact_char : forall e c, exists t, jsonify_of e (VChar c) = Ok (QUOTE :: t ++ [QUOTE]) /\ json_char c t.
Proof. exact jsonify_char_exact. Qed.
Print Assumptions C14_exact_char.

Theorem C14_one_way : forall c t1 t2, json_char c t1 -> json_char c t2 -> t1 = t2.
Proof. exact json_char_fun. Qed.
Print Assumptions C14_one_way.

Example C14_exact_case : jsonify_of (linux_x86_64 Strict) (VString (str "a/'" ++ [chr 31; chr 127; chr 200])) =
  Ok (QUOTE :: str "a/'" ++ BACKSLASH :: str "u001f" ++ [chr 127; chr 200; QUOTE]).
Proof. vm_compute. reflexivity. Qed.

(** C27, exactly: the text is the sign and the digits laid out, without a further digit; the
    digits are as few as C29 says. *)
Theorem C27_written : forall e u s, bits64 u -> double_finite u -> double_value u <> 0%R -> lexi e (VDouble u) = Ok s ->
  exists D n t, Forall is_digit D /\ (1 <= length D <= 17)%nat /\ (forall r, D <> "0"%char :: r) /\
    s = (if double_sign u then ["-"%char] else []) ++ t /\ written D n t /\
    let x := Rabs (double_value u) in let y := (IZR (numeral_value D) * bpow radix10 (n - Z.of_nat (length D)))%R in
    let margin := (ulp radix2 (binary_format 53 1024) x / 500)%R in
    (lower_end x < y < upper_end x)%R /\
    forall D' K, 0 < D' < 10 ^ (Z.of_nat (length D) - 1) ->
      ~ (lower_end x + margin <= IZR D' * bpow radix10 K <= upper_end x - margin)%R.
Proof. exact float_written. Qed.
Print Assumptions C27_written.

Example C27_written_case : written (str "15") 1 (str "1.5") /\ lexi (linux_x86_64 zero_memory) (VDouble 0x3FF8000000000000) = Ok (str "1.5").
Proof.
  split; [|vm_compute; reflexivity].
  apply (w_fraction (str "15") 1 (str "1") (str "5")); [vm_compute; discriminate|reflexivity|discriminate|discriminate|reflexivity].
Qed.

(** C54 *)
Theorem C54_json_iff : forall e v s, platform_ok (e_platform e) -> nan_ok (e_float e) -> e_lit e = default_literals ->
  argument_ok e v -> jsonify_of e v = Ok s -> (has_json v <-> json_value s) /\ (has_json v <-> json_text s).
Proof. exact all_json. Qed.
Print Assumptions C54_json_iff.

Example C54_case : has_json (VInt Short (-5)) /\ jsonify_of (linux_x86_64 Strict) (VInt Short (-5)) = Ok (str "-5") /\
  ~ has_json (VChar (chr 200)) /\ jsonify_of (linux_x86_64 Strict) (VChar (chr 200)) = Ok [QUOTE; chr 200; QUOTE].
Proof. split; [exact I|]. split; [vm_compute; reflexivity|]. split; [|vm_compute; reflexivity]. vm_compute. intros X. discriminate X. Qed.

(** C55 *)
Theorem C55_integers : forall e t v s, platform_ok (e_platform e) -> has_int_type (e_platform e) t v -> lexi e (VInt t v) = Ok s ->
  (1 <= length s <= integer_limit (int_bits (e_platform e) t) (int_signed t))%nat.
Proof. exact integer_size. Qed.
Print Assumptions C55_integers.

Theorem C55_attained : forall e t, platform_ok (e_platform e) -> exists v s, has_int_type (e_platform e) t v /\
  lexi e (VInt t v) = Ok s /\ length s = integer_limit (int_bits (e_platform e) t) (int_signed t).
Proof. exact integer_size_attained. Qed.
Print Assumptions C55_attained.

Theorem C55_floating : forall e v s, nan_ok (e_float e) -> e_lit e = default_literals -> floating_ok e v -> lexi e v = Ok s ->
  (3 <= length s <= 25)%nat.
Proof. exact floating_size. Qed.
Print Assumptions C55_floating.

Example C55_case : lexi (linux_x86_64 zero_memory) (VDouble 0xbeb4b66dc01ec6fb) = Ok (str "-0.0000012345678901234568") /\
  length (str "-0.0000012345678901234568") = 25%nat /\
  lexi (linux_x86_64 Strict) (VInt LLong (- 2 ^ 63)) = Ok (str "-9223372036854775808").
Proof. split; [vm_compute; reflexivity|]. split; vm_compute; reflexivity. Qed.

(** C56 *)
Theorem C56_order : forall e1 e2 u1 u2 s1 s2 n1 n2, bits64 u1 -> bits64 u2 -> double_finite u1 -> double_finite u2 ->
  lexi e1 (VDouble u1) = Ok s1 -> lexi e2 (VDouble u2) = Ok s2 -> json_number s1 n1 -> json_number s2 n2 ->
  (double_value u1 < double_value u2)%R -> (n_value n1 < n_value n2)%R.
Proof. exact texts_ordered. Qed.
Print Assumptions C56_order.

Theorem C56_order_iff : forall e u1 u2 s1 s2 n1 n2, bits64 u1 -> bits64 u2 -> double_finite u1 -> double_finite u2 ->
  lexi e (VDouble u1) = Ok s1 -> lexi e (VDouble u2) = Ok s2 -> json_number s1 n1 -> json_number s2 n2 ->
  (double_value u1 < double_value u2 <-> n_value n1 < n_value n2)%R /\
  (double_value u1 = double_value u2 <-> n_value n1 = n_value n2)%R.
Proof. exact texts_order. Qed.
Print Assumptions C56_order_iff.

Example C56_case : lexi (linux_x86_64 zero_memory) (VDouble 0x3FF0000000000000) = Ok (str "1.0") /\
  lexi (linux_x86_64 zero_memory) (VDouble 0x3FF0000000000001) = Ok (str "1.0000000000000003") /\
  lexi (linux_x86_64 zero_memory) (VDouble 0x3FEFFFFFFFFFFFFF) = Ok (str "0.9999999999999999").
Proof. split; [vm_compute; reflexivity|]. split; vm_compute; reflexivity. Qed.

(** C57 *)
Theorem C57_integer_through : forall e point t1 t2 v s, platform_ok (e_platform e) -> has_int_type (e_platform e) t1 v ->
  lexi e (VInt t1 v) = Ok s ->
  exists r, extract e point (TInt t2) s = Ok (XInt r) /\ has_int_type (e_platform e) t2 r /\ congruent (int_bits (e_platform e) t2) r v.
Proof. exact integer_through. Qed.
Print Assumptions C57_integer_through.

Theorem C57_integer_kept : forall e point t1 t2 v s, platform_ok (e_platform e) -> has_int_type (e_platform e) t1 v ->
  has_int_type (e_platform e) t2 v -> lexi e (VInt t1 v) = Ok s -> extract e point (TInt t2) s = Ok (XInt v).
Proof. exact integer_through_same. Qed.
Print Assumptions C57_integer_kept.

Example C57_case : lexi (linux_x86_64 Strict) (VInt LLong (-300)) = Ok (str "-300") /\
  extract (linux_x86_64 Strict) "."%char (TInt U8) (str "-300") = Ok (XInt 212) /\
  extract (linux_x86_64 Strict) "."%char (TInt Short) (str "-300") = Ok (XInt (-300)).
Proof. split; [vm_compute; reflexivity|]. split; vm_compute; reflexivity. Qed.

(** C58 is false for float where long double is double: the integer is rounded twice. *)
Theorem C58_integer_float_refuted : exists v s z, has_int_type (e_platform (windows_x64 Strict)) ULLong v /\
  lexi (windows_x64 Strict) (VInt ULLong v) = Ok s /\ s = str "9223372586610589697" /\
  extract (windows_x64 Strict) "."%char TFloat s = Ok (XFloating z) /\ ~ rounded 24 128 z (v <? 0) (IZR v).
Proof. exact integer_float_refuted. Qed.
Print Assumptions C58_integer_float_refuted.

Theorem C58_integer_floating : forall e point t v s, platform_ok (e_platform e) -> point_ok point -> has_int_type (e_platform e) t v ->
  lexi e (VInt t v) = Ok s ->
  (exists z, extract e point TLongDouble s = Ok (XFloating z) /\
     rounded (ld_prec (fe_ld (e_float e))) (ld_emax (fe_ld (e_float e))) z (v <? 0) (IZR v)) /\
  (exists z, extract e point TDouble s = Ok (XFloating z) /\ rounded 53 1024 z (v <? 0) (IZR v)) /\
  (fe_ld (e_float e) <> LD64 -> exists z, extract e point TFloat s = Ok (XFloating z) /\ rounded 24 128 z (v <? 0) (IZR v)).
Proof. exact integer_texts. Qed.
Print Assumptions C58_integer_floating.

Example C58_case : extract (linux_x86_64 Strict) "."%char TDouble (str "-9223372036854775807") =
    Ok (XFloating (S754_finite true (2 ^ 52) 11)) /\
  extract (linux_x86_64 Strict) "."%char TFloat (str "16777217") = Ok (XFloating (S754_finite false (2 ^ 23) 1)).
Proof. split; vm_compute; reflexivity. Qed.

(** C59 is false for doubles printed in scientific notation: the exponent is not read. *)
Theorem C59_truncated_refuted : exists u s, bits64 u /\ double_finite u /\
  lexi (linux_x86_64 zero_memory) (VDouble u) = Ok s /\ s = str "5e-324" /\ Ztrunc (double_value u) = 0 /\
  extract (linux_x86_64 zero_memory) "."%char (TInt Int) s = Ok (XInt 5).
Proof. exact double_truncated_refuted. Qed.
Print Assumptions C59_truncated_refuted.

Theorem C59_truncated : forall e point t u s n, platform_ok (e_platform e) -> bits64 u -> double_finite u ->
  lexi e (VDouble u) = Ok s -> json_number s n -> n_exponent n = None -> (Rabs (double_value u) <= bpow radix2 53)%R ->
  exists r, extract e point (TInt t) s = Ok (XInt r) /\ has_int_type (e_platform e) t r /\
    congruent (int_bits (e_platform e) t) r (Ztrunc (double_value u)).
Proof. exact double_truncated. Qed.
Print Assumptions C59_truncated.

(** Any JSON number: the digits before the point, beyond 2^64-1 taken as 2^64-1. *)
Theorem C59_integer_part : forall e point t s n, platform_ok (e_platform e) -> json_number s n ->
  exists r, extract e point (TInt t) s = Ok (XInt r) /\ has_int_type (e_platform e) t r /\ congruent (int_bits (e_platform e) t) r
      (let d := numeral_value (n_integer n) in
       if 2 ^ 64 - 1 <? d then 2 ^ 64 - 1 else if n_negative n then - d else d).
Proof. exact number_as_integer. Qed.
Print Assumptions C59_integer_part.

Example C59_case : extract (linux_x86_64 Strict) "."%char (TInt Int) (str "-7.99") = Ok (XInt (-7)) /\
  extract (linux_x86_64 Strict) "."%char (TInt ULLong) (str "99999999999999999999") = Ok (XInt (2 ^ 64 - 1)).
Proof. split; vm_compute; reflexivity. Qed.

(** C60 is false with the 80-bit long double: the double of C30_read_back_refuted is read as
    its neighbour, which prints differently. *)
Theorem C60_stable_refuted : exists u w s z, bits64 u /\ bits64 w /\ lexi (linux_x86_64 zero_memory) (VDouble u) = Ok s /\
  extract (linux_x86_64 zero_memory) "."%char TDouble s = Ok (XFloating z) /\ double_is z w /\
  lexi (linux_x86_64 zero_memory) (VDouble w) <> Ok s.
Proof. exact double_stable_refuted. Qed.
Print Assumptions C60_stable_refuted.

Theorem C60_double_stable : forall e u w s z, nan_ok (e_float e) -> e_lit e = default_literals -> bits64 u -> bits64 w ->
  fe_ld (e_float e) <> LD80 \/ Z.even u = true -> lexi e (VDouble u) = Ok s ->
  extract e "."%char TDouble s = Ok (XFloating z) -> double_is z w -> lexi e (VDouble w) = Ok s.
Proof. exact double_stable. Qed.
Print Assumptions C60_double_stable.

Theorem C60_float_stable : forall e u w s z, nan_ok (e_float e) -> e_lit e = default_literals -> bits32 u -> bits32 w ->
  lexi e (VFloat u) = Ok s -> extract e "."%char TFloat s = Ok (XFloating z) -> float_is z w -> lexi e (VFloat w) = Ok s.
Proof. exact float_stable. Qed.
Print Assumptions C60_float_stable.

Example C60_case : lexi (linux_aarch64 zero_memory) (VFloat 0x3DCCCCCD) = Ok (str "0.10000000149011612") /\
  extract (linux_aarch64 zero_memory) "."%char TFloat (str "0.10000000149011612") = Ok (XFloating (S754_finite false 0xCCCCCD (-27))).
Proof. split; vm_compute; reflexivity. Qed.

(** C61 *)
Theorem C61_reading_ordered : forall e point1 point2 s1 s2 v1 v2 x1 x2 T, point_ok point1 -> point_ok point2 ->
  reads point1 s1 v1 -> reads point2 s2 v2 -> denotes v1 x1 -> denotes v2 x2 -> (x1 <= x2)%R ->
  T = TFloat \/ T = TDouble \/ T = TLongDouble ->
  exists z1 z2, extract e point1 T s1 = Ok (XFloating z1) /\ extract e point2 T s2 = Ok (XFloating z2) /\ at_most z1 z2.
Proof. exact reading_ordered. Qed.
Print Assumptions C61_reading_ordered.

Example C61_case : extract (linux_x86_64 Strict) "."%char TFloat (str "3.4028235e38") = Ok (XFloating (S754_finite false 0xFFFFFF 104)) /\
  extract (linux_x86_64 Strict) "."%char TFloat (str "0x1p128") = Ok (XFloating (S754_infinity false)) /\
  at_most (S754_finite false 0xFFFFFF 104) (S754_infinity false) /\ ~ at_most (S754_infinity false) (S754_finite false 0xFFFFFF 104).
Proof. split; [vm_compute; reflexivity|]. split; [vm_compute; reflexivity|]. split; [exact I|]. intros X. exact X. Qed.

(** C66 is false where the type is narrower than long double: the text is rounded to long
    double and again to the type. *)
Theorem C66_double_refuted : exists s, forall e, fe_ld (e_float e) <> LD64 -> exists v z, reads "."%char s v /\
  extract e "."%char TDouble s = Ok (XFloating z) /\ SF2R radix2 z = 9007199254740992%R /\ ~ read_as 53 1024 v z.
Proof. exists (str "9007199254740993.0000000000000000001"). exact (proj1 nearest_refuted). Qed.
Print Assumptions C66_double_refuted.

Theorem C66_float_refuted : exists s, forall e, exists v z, reads "."%char s v /\
  extract e "."%char TFloat s = Ok (XFloating z) /\ SF2R radix2 z = 16777216%R /\ ~ read_as 24 128 v z.
Proof. exists (str "16777217.0000000000000000000000000001"). exact (proj2 nearest_refuted). Qed.
Print Assumptions C66_float_refuted.

(** It is right for long double, and for double where long double is the same. *)
Theorem C66_direct : forall e point s v T p q, point_ok point -> reads point s v -> target_format e T = Some (p, q) ->
  T = TLongDouble \/ (T = TDouble /\ fe_ld (e_float e) = LD64) ->
  exists z, extract e point T s = Ok (XFloating z) /\ read_as p q v z.
Proof. exact nearest_direct. Qed.
Print Assumptions C66_direct.

(** Otherwise it is right unless the number is so close to the middle between two values that
    the long double is the middle. *)
Theorem C66_nearest_or_tie : forall e point s v x T p q, point_ok point -> reads point s v -> denotes v x -> target_format e T = Some (p, q) ->
  exists y z, extract e point TLongDouble s = Ok (XFloating y) /\ extract e point T s = Ok (XFloating z) /\
    (read_as p q v z \/
     (is_finite_SF y = true /\ halfway p q (SF2R radix2 y) /\ x <> SF2R radix2 y /\
      Rabs (x - SF2R radix2 y) <= ulp radix2 (binary_format (ld_prec (fe_ld (e_float e))) (ld_emax (fe_ld (e_float e)))) x / 2)%R).
Proof. exact nearest_or_tie. Qed.
Print Assumptions C66_nearest_or_tie.

(** There never is a value of the type between the number and the result. *)
Theorem C66_none_between : forall e point s v x T p q, point_ok point -> reads point s v -> denotes v x -> target_format e T = Some (p, q) ->
  exists z, extract e point T s = Ok (XFloating z) /\ SpecFloat.valid_binary p q z = true /\ z <> S754_nan /\
    forall d, SpecFloat.valid_binary p q d = true -> is_finite_SF d = true ->
      ((SF2R radix2 d <= x)%R -> at_most d z) /\ ((x <= SF2R radix2 d)%R -> at_most z d).
Proof. exact no_value_between. Qed.
Print Assumptions C66_none_between.

(** A text denoting a value of the type is read as that value. *)
Theorem C66_exact : forall e point s v x T p q d, point_ok point -> reads point s v -> denotes v x -> target_format e T = Some (p, q) ->
  SpecFloat.valid_binary p q d = true -> is_finite_SF d = true -> SF2R radix2 d = x ->
  exists z, extract e point T s = Ok (XFloating z) /\ is_finite_SF z = true /\ SF2R radix2 z = x.
Proof. exact exact_values. Qed.
Print Assumptions C66_exact.

Example C66_case : extract (linux_x86_64 Strict) "."%char TDouble (str "9007199254740993.0000000000000000001") = Ok (XFloating (S754_finite false (2 ^ 52) 1)) /\
  extract (windows_x64 Strict) "."%char TDouble (str "9007199254740993.0000000000000000001") = Ok (XFloating (S754_finite false (2 ^ 52 + 1) 1)) /\
  extract (windows_x64 Strict) "."%char TFloat (str "16777217.0000000000000000000000000001") = Ok (XFloating (S754_finite false (2 ^ 23) 1)) /\
  extract (linux_x86_64 Strict) "."%char TFloat (str "0.5000001") = Ok (XFloating (S754_finite false (2 ^ 23 + 2) (-24))).
Proof. repeat split; vm_compute; reflexivity. Qed.

(** C29 for the doubles that are short decimals themselves: no more digits than needed. *)
Theorem C29_exact_decimals : forall e u s n D K k, bits64 u -> double_finite u -> double_value u <> 0%R -> lexi e (VDouble u) = Ok s ->
  json_number s n -> Rabs (double_value u) = (IZR D * bpow SpecNumber.radix10 K)%R -> 0 < D < 10 ^ Z.of_nat k ->
  (length (significant (n_digits n)) <= k)%nat.
Proof. exact exact_decimal_digits. Qed.
Print Assumptions C29_exact_decimals.

(** C67 is false: a float is printed as a double. *)
Theorem C67_nine_digits_refuted : exists u s n, bits32 u /\ float_finite u /\
  lexi (linux_x86_64 zero_memory) (VFloat u) = Ok s /\ s = str "0.10000000149011612" /\ json_number s n /\
  length (significant (n_digits n)) = 17%nat.
Proof. exact float_digits_refuted. Qed.
Print Assumptions C67_nine_digits_refuted.

Theorem C67_seventeen_digits : forall e u s n, nan_ok (e_float e) -> bits32 u -> float_finite u -> float_value u <> 0%R ->
  lexi e (VFloat u) = Ok s -> json_number s n -> (1 <= length (significant (n_digits n)) <= 17)%nat.
Proof. exact float_digit_count. Qed.
Print Assumptions C67_seventeen_digits.

Theorem C67_exact_decimals : forall e u s n D K k, nan_ok (e_float e) -> bits32 u -> float_finite u -> float_value u <> 0%R ->
  lexi e (VFloat u) = Ok s -> json_number s n -> Rabs (float_value u) = (IZR D * bpow SpecNumber.radix10 K)%R -> 0 < D < 10 ^ Z.of_nat k ->
  (length (significant (n_digits n)) <= k)%nat.
Proof. exact float_decimal_digits. Qed.
Print Assumptions C67_exact_decimals.

Example C67_case : lexi (linux_x86_64 zero_memory) (VFloat 0x501502F9) = Ok (str "10000000000.0") /\
  lexi (linux_x86_64 zero_memory) (VFloat 0xBFC00000) = Ok (str "-1.5").
Proof. split; vm_compute; reflexivity. Qed.
