(** Properties C18-C29: formatting floating point values (and the floating point half of
    C11 and C49). *)
From Coq Require Import Reals.
From Flocq Require Import Core.
From Verif Require Import Machine SpecApi SpecDecimal SpecNumber SpecIeee SpecJson ModelItoa ModelInt ModelText
  ModelIeee ModelDiyfp ModelDtoa ModelFloat ModelLexi ModelPlatforms
  ProofFloat ProofFloat2 ProofFloat3 ProofFloat4.
Open Scope Z_scope.

(** C11, floating point literals: any that fit the buffer are honoured. *)
Theorem C11_float_literals : forall e u, nan_ok (e_float e) -> float_literals_ok (e_lit e) -> bits64 u ->
  (double_nan u -> lexi e (VDouble u) = Ok (lit_nan (e_lit e))) /\
  (double_infinity u false -> lexi e (VDouble u) = Ok (lit_infinity (e_lit e))) /\
  (double_infinity u true -> lexi e (VDouble u) = Ok (lit_negative_infinity (e_lit e))).
Proof. exact float_literal_text. Qed.
Print Assumptions C11_float_literals.

Example C11_float_case : nan_ok (e_float (linux_x86_64 Strict)) /\ float_literals_ok default_literals /\
  lexi (linux_x86_64 Strict) (VDouble 0x7FF8000000000001) = Ok (str "NaN").
Proof.
  split; [apply (sample_env Strict)|]. split; [apply (sample_env Strict)|]. vm_compute. reflexivity.
Qed.

(** C18 *)
Theorem C18_classification : forall u, bits64 u ->
  (isNan u = true <-> double_nan u) /\
  (isInf u = true <-> exists s, double_infinity u s) /\
  (isInfinity u = true <-> double_infinity u false) /\
  (isNegativeInfinity u = true <-> double_infinity u true) /\
  (isFinite u = true <-> double_finite u) /\
  (isZero u = true <-> double_finite u /\ double_value u = 0%R) /\
  (isPositive u = true <-> double_sign u = false).
Proof. exact classification. Qed.
Print Assumptions C18_classification.

Theorem C18_partition : forall u, bits64 u ->
  (isNan u = true /\ isInf u = false /\ isFinite u = false) \/
  (isNan u = false /\ isInf u = true /\ isFinite u = false) \/
  (isNan u = false /\ isInf u = false /\ isFinite u = true).
Proof. exact classes_partition. Qed.
Print Assumptions C18_partition.

Example C18_case : isNan 0x7FF0000000000001 = true /\ isNan 0x7FF0000000000000 = false /\
  isNegativeInfinity 0xFFF0000000000000 = true /\ isZero 0x8000000000000000 = true /\ isZero 1 = false.
Proof. repeat split. Qed.

(** C19 *)
Theorem C19_special_values : forall e u, nan_ok (e_float e) -> e_lit e = default_literals -> bits64 u ->
  (lexi e (VDouble u) = Ok (str "NaN") <-> double_nan u) /\
  (lexi e (VDouble u) = Ok (str "Infinity") <-> double_infinity u false) /\
  (lexi e (VDouble u) = Ok (str "-Infinity") <-> double_infinity u true) /\
  (lexi e (VDouble u) = Ok (str "0.0") <-> double_finite u /\ double_value u = 0%R).
Proof. exact special_values. Qed.
Print Assumptions C19_special_values.

Example C19_case : lexi (windows_x64 Strict) (VDouble 0xFFF0000000000000) = Ok (str "-Infinity") /\
  lexi (windows_x64 Strict) (VDouble 0xFFFFFFFFFFFFFFFF) = Ok (str "NaN").
Proof. split; vm_compute; reflexivity. Qed.

(** C20: the printed number is closer to [x] than to any other double. *)
Theorem C20_double_round_trip : forall e u s, bits64 u -> double_finite u -> double_value u <> 0%R ->
  lexi e (VDouble u) = Ok s ->
  exists n, json_number s n /\ (forall n', json_number s n' -> n' = n) /\
    strictly_nearest 53 1024 (double_value u) (n_value n) /\
    nearest 53 1024 (n_value n) = double_value u.
Proof. exact double_round_trip. Qed.
Print Assumptions C20_double_round_trip.

(** When out of bounds reads of the table give some word, a text always is returned. *)
Theorem C20_always_text : forall e u, bits64 u -> double_finite u -> double_value u <> 0%R ->
  lenient (fe_tc (e_float e)) -> exists s, lexi e (VDouble u) = Ok s.
Proof. exact finite_defined. Qed.
Print Assumptions C20_always_text.

Example C20_case : (bits64 0xC08F3A6DD2F1A9FC /\ double_finite 0xC08F3A6DD2F1A9FC /\ double_value 0xC08F3A6DD2F1A9FC <> 0%R) /\
  lexi (linux_x86_64 Strict) (VDouble 0xC08F3A6DD2F1A9FC) = Ok (str "-999.303625") /\
  lexi (linux_x86_64 zero_memory) (VDouble 1) = Ok (str "5e-324").
Proof. split; [apply sample; reflexivity|]. split; vm_compute; reflexivity. Qed.

(** C21 *)
Theorem C21_digit_count : forall e u s n, bits64 u -> double_finite u -> double_value u <> 0%R ->
  lexi e (VDouble u) = Ok s -> json_number s n -> (1 <= length (significant (n_digits n)) <= 17)%nat.
Proof. exact digit_count. Qed.
Print Assumptions C21_digit_count.

Example C21_case : lexi (linux_x86_64 zero_memory) (VDouble 0x7FD6EED0DA6B8E25) = Ok (str "6.441604808785243e307").
Proof. vm_compute. reflexivity. Qed.

(** C22 *)
Theorem C22_float_buffer : forall e v f, nan_ok (e_float e) -> float_literals_ok (e_lit e) -> literals_not_nul (e_lit e) ->
  floating_ok e v -> Format e v = Ok f ->
  exists s, lexi e v = Ok s /\ shows f FLOAT_SIZE s /\ f_c_str f = Ok s /\ Forall (fun c => c <> NUL) s.
Proof. exact float_c_str. Qed.
Print Assumptions C22_float_buffer.

(** No write leaves the buffer: the only undefined behaviour is the table read of C23. *)
Theorem C22_only_the_table : forall e v, nan_ok (e_float e) -> float_literals_ok (e_lit e) -> floating_ok e v ->
  Format e v = overrun \/ exists f s, Format e v = Ok f /\ lexi e v = Ok s /\ shows f FLOAT_SIZE s.
Proof. exact float_object. Qed.
Print Assumptions C22_only_the_table.

Example C22_case : lexi (linux_x86_64 zero_memory) (VDouble 0x800F7E2BF1AB4D0B) = Ok (str "-2.154547087609557e-308").
Proof. vm_compute. reflexivity. Qed.

(** C23 is false: dtoa.cpp:267 reads POWER10[-kappa], and kappa reaches -16. *)
Theorem C23_defined_refuted :
  exists e u, bits64 u /\ double_finite u /\ lexi e (VDouble u) = UB "POWER10 read out of bounds".
Proof. exact third_refuted. Qed.
Print Assumptions C23_defined_refuted.

(** A third does it in every environment. *)
Theorem C23_everywhere : forall e, nan_ok (e_float e) -> e_lit e = default_literals ->
  tc_policy (fe_tc (e_float e)) = Strict -> lexi e (VDouble 0x3FD5555555555555) = overrun.
Proof. exact third_overruns. Qed.
Print Assumptions C23_everywhere.

(** Texts of at most ten digits are formatted without undefined behaviour. *)
Theorem C23_ten_digits : forall e oracle u s n, tc_policy (fe_tc (e_float e)) = Strict -> bits64 u -> double_finite u ->
  double_value u <> 0%R -> lexi (with_policy e (Lenient oracle)) (VDouble u) = Ok s -> json_number s n ->
  (length (strip_zeros (n_digits n)) <= 10)%nat -> lexi e (VDouble u) = Ok s.
Proof. exact few_digits_defined. Qed.
Print Assumptions C23_ten_digits.

Theorem C23_small_integers : forall e u n, tc_policy (fe_tc (e_float e)) = Strict -> bits64 u -> double_finite u ->
  double_value u = IZR n -> 0 < Z.abs n < 10 ^ 9 -> exists s, lexi e (VDouble u) = Ok s.
Proof. exact small_integers_defined. Qed.
Print Assumptions C23_small_integers.

Example C23_case : lexi (linux_x86_64 Strict) (VDouble 0x41CDCD64FF800000) = Ok (str "999999999.0").
Proof. vm_compute. reflexivity. Qed.

(** C24: false for NaN and the infinities. *)
Theorem C24_finite_json : forall e u s, bits64 u -> double_finite u -> jsonify_of e (VDouble u) = Ok s ->
  (exists n, json_number s n) /\ json_text s.
Proof. exact finite_json. Qed.
Print Assumptions C24_finite_json.

Theorem C24_all_json_refuted : exists u s, bits64 u /\
  jsonify_of (linux_x86_64 Strict) (VDouble u) = Ok s /\ ~ json_text s.
Proof. exact nan_json_refuted. Qed.
Print Assumptions C24_all_json_refuted.

Example C24_case : jsonify_of (linux_x86_64 zero_memory) (VDouble 0x44B52D02C7E14AF6) = Ok (str "9.999999999999999e22").
Proof. vm_compute. reflexivity. Qed.

(** C25 *)
Theorem C25_injective : forall e1 e2 u1 u2 s, e_lit e1 = default_literals -> e_lit e2 = default_literals ->
  bits64 u1 -> bits64 u2 -> ~ double_nan u1 -> ~ double_nan u2 ->
  lexi e1 (VDouble u1) = Ok s -> lexi e2 (VDouble u2) = Ok s ->
  u1 = u2 \/ (double_finite u1 /\ double_value u1 = 0%R /\ double_finite u2 /\ double_value u2 = 0%R).
Proof. exact double_injective. Qed.
Print Assumptions C25_injective.

Example C25_case : lexi (linux_x86_64 zero_memory) (VDouble 0x3FF0000000000001) = Ok (str "1.0000000000000003") /\
  lexi (linux_x86_64 zero_memory) (VDouble 0x3FF0000000000002) = Ok (str "1.0000000000000005").
Proof. split; vm_compute; reflexivity. Qed.

(** C26 *)
Theorem C26_sign_symmetry : forall e u, bits64 u -> double_sign u = false -> double_finite u -> double_value u <> 0%R ->
  exists u', bits64 u' /\ double_finite u' /\ double_value u' = (- double_value u)%R /\
    lexi e (VDouble u') = let* s := lexi e (VDouble u) in Ok ("-"%char :: s).
Proof. exact sign_symmetry. Qed.
Print Assumptions C26_sign_symmetry.

Example C26_case : (bits64 0x3E45798EE2308C3A /\ double_finite 0x3E45798EE2308C3A /\ double_value 0x3E45798EE2308C3A <> 0%R) /\
  lexi (linux_aarch64 Strict) (VDouble 0x3E45798EE2308C3A) = Ok (str "1e-8") /\
  lexi (linux_aarch64 Strict) (VDouble 0xBE45798EE2308C3A) = Ok (str "-1e-8").
Proof. split; [apply sample; reflexivity|]. split; vm_compute; reflexivity. Qed.

(** C27 *)
Theorem C27_notation : forall e u s n, bits64 u -> double_finite u -> double_value u <> 0%R -> lexi e (VDouble u) = Ok s ->
  json_number s n ->
  (n_exponent n = None <-> (bpow radix10 (-6) <= n_magnitude n < bpow radix10 21)%R) /\
  (n_exponent n = None -> n_fraction n <> None) /\
  (forall sg x, n_exponent n = Some (sg, x) ->
     (exists d, n_integer n = [d] /\ d <> "0"%char) /\
     (sg = [] \/ sg = ["-"%char]) /\ canonical_natural x (Z.abs (n_exponent_value n)) /\
     (bpow radix10 (n_exponent_value n) <= n_magnitude n < bpow radix10 (n_exponent_value n + 1))%R).
Proof. exact float_notation. Qed.
Print Assumptions C27_notation.

Example C27_case : lexi (linux_x86_64 zero_memory) (VDouble 0x444B1AE4D6E2EF4F) = Ok (str "999999999999999900000.0") /\
  lexi (linux_x86_64 zero_memory) (VDouble 0x444B1AE4D6E2EF50) = Ok (str "1e21") /\
  lexi (linux_x86_64 zero_memory) (VDouble 0x3EB0C6F7A0B5ED8D) = Ok (str "0.000001") /\
  lexi (linux_x86_64 zero_memory) (VDouble 0x3EB0C6F7A0B5ED8C) = Ok (str "9.999999999999998e-7").
Proof. split; [|split; [|split]]; vm_compute; reflexivity. Qed.

(** C28 *)
Theorem C28_integral : forall e u s n, bits64 u -> double_finite u -> double_value u = IZR n -> 0 < Z.abs n <= 2 ^ 53 ->
  lexi e (VDouble u) = Ok s -> exists t, canonical_integer t n /\ s = t ++ str ".0".
Proof. exact integral_double. Qed.
Print Assumptions C28_integral.

Example C28_case : lexi (linux_x86_64 zero_memory) (VDouble 0xC340000000000000) = Ok (str "-9007199254740992.0").
Proof. vm_compute. reflexivity. Qed.

(** C29 *)
Theorem C29_near_shortest : forall e u s n D K', bits64 u -> double_finite u -> double_value u <> 0%R ->
  lexi e (VDouble u) = Ok s -> json_number s n -> 0 < D < 10 ^ (Z.of_nat (length (significant (n_digits n))) - 1) ->
  let x := Rabs (double_value u) in let margin := (ulp radix2 (binary_format 53 1024) x / 500)%R in
  ~ (lower_end x + margin <= IZR D * bpow radix10 K' <= upper_end x - margin)%R.
Proof. exact near_shortest. Qed.
Print Assumptions C29_near_shortest.

Example C29_case : lexi (linux_x86_64 zero_memory) (VDouble 0x3FB999999999999A) = Ok (str "0.1") /\
  lexi (linux_x86_64 zero_memory) (VDouble 0x3FD3333333333334) = Ok (str "0.30000000000000007").
Proof. split; vm_compute; reflexivity. Qed.
