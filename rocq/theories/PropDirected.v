(** Properties C80 and C81: reading and printing floating point numbers where the program has
    changed the rounding direction. *)
From Coq Require Import Reals Floats.SpecFloat.
From Flocq Require Import Core IEEE754.BinarySingleNaN.
From Verif Require Import Machine SpecApi SpecNumber SpecIeee SpecRead SpecMore SpecRounding SpecDirected
  ModelInt ModelText ModelIeee ModelDiyfp ModelDtoa ModelFloat ModelLexi ModelPlatforms ModelRounding ModelDirected ProofDirected ProofDirected2.
Open Scope Z_scope.

(** C80: downward, upward and toward zero, every type reads as the number rounded once in the
    direction: rounding to long double first makes no difference, other than to nearest (C66). *)
Theorem C80_directed : forall d e point s v x T p q, d <> ToNearest -> point_ok point -> reads point s v -> denotes v x ->
  target_format e T = Some (p, q) ->
  exists z, d_extract d e point T s = Ok (XFloating z) /\ directed d p q z x /\ sign_SF z = negative v.
Proof. exact directed_read. Qed.
Print Assumptions C80_directed.

(** Reading downward and upward encloses the number, with no value of the type in between. *)
Theorem C80_enclosed : forall e point s v x T p q, point_ok point -> reads point s v -> denotes v x -> target_format e T = Some (p, q) ->
  exists a b, d_extract Downward e point T s = Ok (XFloating a) /\ d_extract Upward e point T s = Ok (XFloating b) /\
    not_above a x /\ not_below b x /\
    (forall y, SpecFloat.valid_binary p q y = true -> y <> S754_nan -> at_most y a \/ at_most b y).
Proof. exact enclosed. Qed.
Print Assumptions C80_enclosed.

(** Infinities, NaNs and texts without a number are read the same in every direction. *)
Theorem C80_special : forall d e point T s v, point_ok point -> reads point s v -> (forall x, ~ denotes v x) ->
  d_extract d e point T s = extract e point T s.
Proof. exact directed_special. Qed.
Print Assumptions C80_special.

(** To nearest, it is the extraction of the other properties. *)
Theorem C80_default : forall e point T s, d_extract ToNearest e point T s = extract e point T s.
Proof. exact nearest_read. Qed.
Print Assumptions C80_default.

Example C80_case :
  d_extract Downward (linux_x86_64 Strict) "."%char TFloat (str "16777217.0000000000000000000000000001") = Ok (XFloating (S754_finite false (2 ^ 23) 1)) /\
  d_extract Upward (linux_x86_64 Strict) "."%char TFloat (str "16777217.0000000000000000000000000001") = Ok (XFloating (S754_finite false (2 ^ 23 + 1) 1)) /\
  d_extract TowardZero (linux_x86_64 Strict) "."%char TFloat (str "-16777217.5") = Ok (XFloating (S754_finite true (2 ^ 23) 1)) /\
  d_extract Downward (windows_x64 Strict) "."%char TFloat (str "1e50") = Ok (XFloating (S754_finite false (2 ^ 24 - 1) 104)) /\
  d_extract Upward (windows_x64 Strict) "."%char TFloat (str "1e50") = Ok (XFloating (S754_infinity false)) /\
  d_extract Upward (linux_aarch64 Strict) "."%char TDouble (str "1e-400") = Ok (XFloating (S754_finite false 1 (-1074))) /\
  d_extract Upward (linux_aarch64 Strict) "."%char TDouble (str "-1e-400") = Ok (XFloating (S754_zero true)).
Proof. repeat (split; [vm_compute; reflexivity|]). vm_compute; reflexivity. Qed.

(** C81 is false: 0.1 read downward is the double before the one printed. *)
Theorem C81_read_back_refuted : exists u s z, bits64 u /\ double_finite u /\ double_value u <> 0%R /\
  lexi (linux_x86_64 Strict) (VDouble u) = Ok s /\ s = str "0.1" /\
  d_extract Downward (linux_x86_64 Strict) "."%char TDouble s = Ok (XFloating z) /\ ~ same_double z u.
Proof. exact tenth_refuted. Qed.
Print Assumptions C81_read_back_refuted.

(** Exactly: the double is read back if the decimal printed is on the side the direction goes away
    from, and the next double on the other side else. *)
Theorem C81_read_back : forall e u s n, bits64 u -> double_finite u -> double_value u <> 0%R -> lexi e (VDouble u) = Ok s -> json_number s n ->
  let x := double_value u in let t := n_value n in
  (exists z, d_extract Downward e "."%char TDouble s = Ok (XFloating z) /\
     ((x <= t)%R -> same_double z u) /\ ((t < x)%R -> just_below 53 1024 z x)) /\
  (exists z, d_extract Upward e "."%char TDouble s = Ok (XFloating z) /\
     ((t <= x)%R -> same_double z u) /\ ((x < t)%R -> just_above 53 1024 z x)) /\
  (exists z, d_extract TowardZero e "."%char TDouble s = Ok (XFloating z) /\
     ((Rabs x <= Rabs t)%R -> same_double z u) /\
     ((Rabs t < Rabs x)%R -> if double_sign u then just_above 53 1024 z x else just_below 53 1024 z x)).
Proof. exact directed_back. Qed.
Print Assumptions C81_read_back.

(** The same for floats, of which the decimals are those of doubles. *)
Theorem C81_float_back : forall e u s n, nan_ok (e_float e) -> bits32 u -> float_finite u -> float_value u <> 0%R ->
  lexi e (VFloat u) = Ok s -> json_number s n ->
  let x := float_value u in let t := n_value n in
  (exists z, d_extract Downward e "."%char TFloat s = Ok (XFloating z) /\
     ((x <= t)%R -> same_float z u) /\ ((t < x)%R -> just_below 24 128 z x)) /\
  (exists z, d_extract Upward e "."%char TFloat s = Ok (XFloating z) /\
     ((t <= x)%R -> same_float z u) /\ ((x < t)%R -> just_above 24 128 z x)) /\
  (exists z, d_extract TowardZero e "."%char TFloat s = Ok (XFloating z) /\
     ((Rabs x <= Rabs t)%R -> same_float z u) /\
     ((Rabs t < Rabs x)%R -> if float_sign u then just_above 24 128 z x else just_below 24 128 z x)).
Proof. exact float_directed_back. Qed.
Print Assumptions C81_float_back.

(** The direction does not matter for printing values other than of type long double, ... *)
Theorem C81_printed : forall d dk e v, nan_ok (e_float e) -> (forall e, -1137 <= e <= 960 -> value_of_expression e (dk e)) ->
  (forall x, v <> VLongDouble x) -> d_lexi d dk e v = lexi e v.
Proof. exact printed_alike. Qed.
Print Assumptions C81_printed.

(** ... which print as the double they are rounded to in the direction. *)
Theorem C81_long_double : forall d dk e x, d <> ToNearest -> nan_ok (e_float e) -> (forall e, -1137 <= e <= 960 -> value_of_expression e (dk e)) ->
  is_finite_SF x = true ->
  exists z u, directed d 53 1024 z (SF2R radix2 x) /\ sign_SF z = sign_SF x /\ bits64 u /\ double_of_bits u = z /\
    d_lexi d dk e (VLongDouble x) = lexi e (VDouble u).
Proof. exact printed_long. Qed.
Print Assumptions C81_long_double.

Example C81_case :
  lexi (linux_x86_64 zero_memory) (VFloat 1036831949) = Ok (str "0.10000000149011612") /\
  d_extract Downward (linux_x86_64 Strict) "."%char TFloat (str "0.10000000149011612") = Ok (XFloating (float_of_bits 1036831949)) /\
  d_extract Upward (linux_x86_64 Strict) "."%char TFloat (str "0.10000000149011612") = Ok (XFloating (float_of_bits 1036831950)) /\
  lexi (linux_x86_64 Strict) (VDouble 4591870180066957722) = Ok (str "0.1") /\
  d_extract Upward (linux_x86_64 Strict) "."%char TDouble (str "0.1") = Ok (XFloating (double_of_bits 4591870180066957722)) /\
  d_extract Downward (linux_x86_64 Strict) "."%char TDouble (str "0.5") = Ok (XFloating (S754_finite false (2 ^ 52) (-53))) /\
  d_lexi Downward (ieee_expression mode_DN) (linux_x86_64 Strict) (VLongDouble (S754_finite false (2 ^ 63 + 1) (-1137))) = Ok (str "5e-324") /\
  d_lexi Upward (ieee_expression mode_UP) (linux_x86_64 Strict) (VLongDouble (S754_finite false (2 ^ 63 + 1) (-1137))) =
    Ok (str "1e-323").
Proof. repeat (split; [vm_compute; reflexivity|]). vm_compute; reflexivity. Qed.
