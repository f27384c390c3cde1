(** Properties C33-C36, C49, C50, C65: formatting, continued. *)
From Coq Require Import Reals.
From Flocq Require Import Core IEEE754.BinarySingleNaN.
From Verif Require Import Machine SpecApi SpecDecimal SpecNumber SpecIeee ModelItoa ModelInt ModelText
  ModelIeee ModelDiyfp ModelDtoa ModelFloat ModelLexi ModelPlatforms
  ProofFloat ProofFloat2 ProofFloat3 ProofFloat4 ProofClose.
Open Scope Z_scope.

(** C33 is false: negative zero prints as 0.0. *)
Theorem C33_zero_sign_refuted :
  exists u, bits64 u /\ double_finite u /\ double_value u = 0%R /\ double_sign u = true /\
  forall e point, (let* s := lexi e (VDouble u) in extract e point TDouble s) = Ok (XFloating (S754_zero false)).
Proof. exact zero_sign_refuted. Qed.
Print Assumptions C33_zero_sign_refuted.

(** Both zeros read back as positive zero. *)
Theorem C33_zero_read_back : forall e u, bits64 u -> double_finite u -> double_value u = 0%R ->
  lexi e (VDouble u) = Ok (str "0.0") /\
  forall point, extract e point TDouble (str "0.0") = Ok (XFloating (S754_zero false)).
Proof. exact zero_sign_lost. Qed.
Print Assumptions C33_zero_read_back.

(** C34: loops in the model run on fuel and the outcome NoFuel would show a loop that did
    not stop; it never is the result. *)
Theorem C34_floats_terminate : forall e v, nan_ok (e_float e) -> float_literals_ok (e_lit e) -> floating_ok e v ->
  (exists s, lexi e v = Ok s) \/ (lexi e v = overrun /\ tc_policy (fe_tc (e_float e)) = Strict).
Proof. exact float_terminates. Qed.
Print Assumptions C34_floats_terminate.

Theorem C34_terminates : forall e v, platform_ok (e_platform e) -> nan_ok (e_float e) -> e_lit e = default_literals ->
  value_ok e v -> Format e v <> NoFuel /\ string_of e v <> NoFuel /\ escape_of e v <> NoFuel /\ jsonify_of e v <> NoFuel.
Proof. exact all_terminate. Qed.
Print Assumptions C34_terminates.

(** C35: the text is the same in any two environments with the same literals that treat the
    table read alike. *)
Theorem C35_same_text : forall e1 e2, nan_ok (e_float e1) -> nan_ok (e_float e2) ->
  e_lit e1 = e_lit e2 -> tc_policy (fe_tc (e_float e1)) = tc_policy (fe_tc (e_float e2)) ->
  (forall u, bits64 u -> lexi e1 (VDouble u) = lexi e2 (VDouble u)) /\
  (forall u, bits32 u -> lexi e1 (VFloat u) = lexi e2 (VFloat u)) /\
  (forall x, floating_ok e1 (VLongDouble x) -> floating_ok e2 (VLongDouble x) ->
     lexi e1 (VLongDouble x) = lexi e2 (VLongDouble x)).
Proof. exact same_text. Qed.
Print Assumptions C35_same_text.

Theorem C35_same_multiplication : forall cc1 cc2 x y, 0 <= df x < 2 ^ 64 -> 0 <= df y < 2 ^ 64 ->
  mul cc1 x y = mul cc2 x y /\ df (mul cc1 x y) = (df x * df y + 2 ^ 63) / 2 ^ 64.
Proof. exact mul_same. Qed.
Print Assumptions C35_same_multiplication.

Theorem C35_normalize : forall cc x, 0 < df x < 2 ^ 53 ->
  exists y, normalize cc x = Ok y /\ 2 ^ 63 <= df y < 2 ^ 64 /\ de y <= de x /\ df y = df x * 2 ^ (de x - de y).
Proof. exact normalize_same. Qed.
Print Assumptions C35_normalize.

Theorem C35_normalizeBoundary : forall cc x, 0 < df x < 2 ^ 54 ->
  exists y, normalizeBoundary cc x = Ok y /\ 2 ^ 63 <= df y < 2 ^ 64 /\ de y <= de x /\ df y = df x * 2 ^ (de x - de y).
Proof. exact normalizeBoundary_same. Qed.
Print Assumptions C35_normalizeBoundary.

Example C35_case :
  lexi (windows_x64 zero_memory) (VDouble 0x3FD3333333333334) = lexi (linux_aarch64 zero_memory) (VDouble 0x3FD3333333333334) /\
  mul MSVC64 (MkDiyFp (2 ^ 64 - 1) 3) (MkDiyFp (2 ^ 63 + 5) 4) = MkDiyFp (2 ^ 63 + 4) 71 /\
  normalize MSVC64 (MkDiyFp 5 0) = Ok (MkDiyFp (5 * 2 ^ 61) (-61)).
Proof. split; [|split]; vm_compute; reflexivity. Qed.

(** C36 *)
Theorem C36_cached_power : forall ev x, -1137 <= x <= 960 ->
  exists F E k m, getCachedPower ev x = Ok (MkDiyFp F E, k) /\
    2 ^ 63 <= F < 2 ^ 64 /\ -60 <= x + E + 64 <= -32 /\
    (Rabs (IZR F * bpow radix2 E - bpow radix10 (- k)) <= bpow radix2 E / 2)%R /\
    (bpow radix10 (m - 1) < bpow radix2 (-61 - x) <= bpow radix10 m)%R /\
    k = 348 - 8 * ((m + 347) / 8 + 1).
Proof. exact cached_power. Qed.
Print Assumptions C36_cached_power.

(** The exponent Grisu2 asks for is in that range. *)
Theorem C36_exponent : forall cc u, bits64 u -> double_finite u -> (0 < double_value u)%R ->
  exists mi pl, normalizedBoundaries cc (DiyFp_of_double u) = Ok (mi, pl) /\ -1137 <= de pl <= 960.
Proof. exact boundary_exponent. Qed.
Print Assumptions C36_exponent.

Example C36_case : getCachedPower EvalExtended (-1137) = Ok (MkDiyFp 0x9E19DB92B4E31BA9 1013, -324).
Proof. vm_compute. reflexivity. Qed.

(** C49 *)
Theorem C49_views_agree : forall e v f, platform_ok (e_platform e) -> nan_ok (e_float e) -> e_lit e = default_literals ->
  value_ok e v -> Format e v = Ok f ->
  exists s, lexi e v = Ok s /\ string_of e v = Ok s /\ shows f (array_size v) s /\
    ((forall c, v <> VChar c) -> escape_of e v = Ok s /\ jsonify_of e v = Ok s).
Proof. exact all_views. Qed.
Print Assumptions C49_views_agree.

Example C49_case : value_ok (linux_x86_64 Strict) (VInt LLong (-5)) /\ value_ok (linux_x86_64 Strict) (VFloat 0x3DCCCCCD) /\
  string_of (linux_x86_64 zero_memory) (VFloat 0x3DCCCCCD) = Ok (str "0.10000000149011612").
Proof. split; [split; cbn; lia|]. split; [split; cbn; lia|]. vm_compute. reflexivity. Qed.

(** C50: float prints as the equal double, long double as the nearest double. *)
Theorem C50_float_as_double : forall e u, nan_ok (e_float e) -> bits32 u ->
  exists w, bits64 w /\ Format e (VFloat u) = Format e (VDouble w) /\ lexi e (VFloat u) = lexi e (VDouble w) /\
    (float_nan u -> double_nan w) /\ (forall s, float_infinity u s -> double_infinity w s) /\
    (float_finite u -> double_finite w /\ double_value w = float_value u /\ double_sign w = float_sign u).
Proof. exact float_printed. Qed.
Print Assumptions C50_float_as_double.

Theorem C50_long_double_as_double : forall e x, nan_ok (e_float e) -> floating_ok e (VLongDouble x) ->
  exists w, bits64 w /\ Format e (VLongDouble x) = Format e (VDouble w) /\ lexi e (VLongDouble x) = lexi e (VDouble w) /\
    match x with
    | S754_nan => double_nan w
    | S754_infinity s => double_infinity w s
    | _ => if Rlt_bool (Rabs (nearest 53 1024 (SF2R radix2 x))) (bpow radix2 1024)
           then double_finite w /\ double_value w = nearest 53 1024 (SF2R radix2 x) /\ double_sign w = sign_SF x
           else double_infinity w (sign_SF x)
    end.
Proof. exact long_double_printed. Qed.
Print Assumptions C50_long_double_as_double.

Example C50_case : floating_ok (linux_x86_64 Strict) (VLongDouble (S754_finite false 0xFFFFFFFFFFFFFFFF 960)) /\
  lexi (linux_x86_64 Strict) (VLongDouble (S754_finite false 0xFFFFFFFFFFFFFFFF 960)) = Ok (str "Infinity") /\
  lexi (linux_x86_64 Strict) (VLongDouble (S754_finite false 0xC000000000000001 (-63))) = Ok (str "1.5").
Proof. split; [reflexivity|]. split; vm_compute; reflexivity. Qed.

(** C65: with the table of powers not left, no decimal at the position of the last digit is closer. *)
Theorem C65_closest : forall e u s n N K D, bits64 u -> double_finite u -> double_value u <> 0%R ->
  lexi e (VDouble u) = Ok s -> json_number s n ->
  tc_policy (fe_tc (e_float e)) = Strict \/ (length (strip_zeros (n_digits n)) <= 10)%nat ->
  n_magnitude n = (IZR N * bpow radix10 K)%R -> N mod 10 <> 0 ->
  let x := Rabs (double_value u) in let margin := (ulp radix2 (binary_format 53 1024) x / 500)%R in
  (lower_end x + margin <= IZR D * bpow radix10 K <= upper_end x - margin)%R ->
  (Rabs (n_magnitude n - x) <= Rabs (IZR D * bpow radix10 K - x) + margin)%R.
Proof. exact closest. Qed.
Print Assumptions C65_closest.

(** In memory of zeros, 1 + 2^-52 is printed with a last digit 3 although 2 is closer. *)
Theorem C65_zero_memory_refuted : exists e u s n N K D, bits64 u /\ double_finite u /\ double_value u <> 0%R /\
  lexi e (VDouble u) = Ok s /\ json_number s n /\ n_magnitude n = (IZR N * bpow radix10 K)%R /\ N mod 10 <> 0 /\
  let x := Rabs (double_value u) in let margin := (ulp radix2 (binary_format 53 1024) x / 500)%R in
  (lower_end x + margin <= IZR D * bpow radix10 K <= upper_end x - margin)%R /\
  ~ (Rabs (n_magnitude n - x) <= Rabs (IZR D * bpow radix10 K - x) + margin)%R.
Proof. exact closest_refuted. Qed.
Print Assumptions C65_zero_memory_refuted.

(** The least double is 4.94e-324: every digit from 3 to 7 would read back, and 5 is printed. *)
Example C65_case : lexi (linux_x86_64 Strict) (VDouble 1) = Ok (str "5e-324") /\
  lexi (linux_x86_64 Strict) (VDouble 2) = Ok (str "1e-323").
Proof. split; vm_compute; reflexivity. Qed.
