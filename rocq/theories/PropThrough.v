(** Floating point values that go through text into another floating point type (C78). *)
From Coq Require Import Reals Floats.SpecFloat.
From Flocq Require Import Core.
From Flocq Require Import IEEE754.BinarySingleNaN.
From Verif Require Import Machine SpecApi SpecDecimal SpecInt SpecNumber SpecIeee SpecRead SpecMore ModelInt ModelText ModelIeee ModelDtoa ModelFloat ModelLexi ModelPlatforms
  ProofThrough.
Open Scope Z_scope.

(** C78. A double does not always become the float it converts to... *)
Theorem C78_double_float_refuted : exists u s z, bits64 u /\ double_finite u /\ double_value u <> 0%R /\
  lexi (linux_x86_64 Strict) (VDouble u) = Ok s /\ s = str "2.06794015e34" /\
  extract (linux_x86_64 Strict) "."%char TFloat s = Ok (XFloating z) /\ ~ rounded 24 128 z (double_sign u) (double_value u).
Proof. exact double_as_float_refuted. Qed.
Print Assumptions C78_double_float_refuted.

(** ... but does when long double is double, or the double is not the middle of two floats. *)
Theorem C78_double_float : forall e u s, bits64 u -> double_finite u -> double_value u <> 0%R -> lexi e (VDouble u) = Ok s ->
  fe_ld (e_float e) = LD64 \/ ~ halfway 24 128 (double_value u) ->
  exists z, extract e "."%char TFloat s = Ok (XFloating z) /\ rounded 24 128 z (double_sign u) (double_value u).
Proof. exact double_as_float. Qed.
Print Assumptions C78_double_float.

(** A float always becomes the double of the same value. *)
Theorem C78_float_double : forall e u s, nan_ok (e_float e) -> bits32 u -> float_finite u -> float_value u <> 0%R -> lexi e (VFloat u) = Ok s ->
  exists z, extract e "."%char TDouble s = Ok (XFloating z) /\ rounded 53 1024 z (float_sign u) (float_value u) /\
    is_finite_SF z = true /\ SF2R radix2 z = float_value u.
Proof. exact float_as_double. Qed.
Print Assumptions C78_float_double.

(** A double does not always become the long double of the same value; it becomes one it is
    the nearest double of (or is in the middle of). *)
Theorem C78_double_long_refuted : exists u s z, bits64 u /\ double_finite u /\ double_value u <> 0%R /\
  lexi (linux_x86_64 Strict) (VDouble u) = Ok s /\ s = str "0.1" /\
  extract (linux_x86_64 Strict) "."%char TLongDouble s = Ok (XFloating z) /\ ~ rounded 64 16384 z (double_sign u) (double_value u).
Proof. exact double_as_long_refuted. Qed.
Print Assumptions C78_double_long_refuted.

Theorem C78_double_long : forall e u s, bits64 u -> double_finite u -> double_value u <> 0%R -> lexi e (VDouble u) = Ok s ->
  exists y, extract e "."%char TLongDouble s = Ok (XFloating y) /\ is_finite_SF y = true /\ sign_SF y = double_sign u /\
    (Rabs (SF2R radix2 y - double_value u) <= ulp radix2 (binary_format 53 1024) (double_value u) / 2)%R /\
    (fe_ld (e_float e) = LD64 -> SF2R radix2 y = double_value u).
Proof. exact double_as_long. Qed.
Print Assumptions C78_double_long.

(** A long double does not always become the double it converts to, but does when long double
    is not the 80 bit format. *)
Theorem C78_long_double_refuted : exists x s z, floating_ok (linux_x86_64 Strict) (VLongDouble x) /\ is_finite_SF x = true /\
  lexi (linux_x86_64 Strict) (VLongDouble x) = Ok s /\ s = str "8.51286005118775e-173" /\
  extract (linux_x86_64 Strict) "."%char TDouble s = Ok (XFloating z) /\ ~ rounded 53 1024 z (sign_SF x) (SF2R radix2 x).
Proof. exact long_as_double_refuted. Qed.
Print Assumptions C78_long_double_refuted.

Theorem C78_long_double : forall e x s, nan_ok (e_float e) -> floating_ok e (VLongDouble x) -> is_finite_SF x = true ->
  fe_ld (e_float e) <> LD80 ->
  let d := nearest 53 1024 (SF2R radix2 x) in
  d <> 0%R -> (Rabs d < bpow radix2 1024)%R -> lexi e (VLongDouble x) = Ok s ->
  exists z, extract e "."%char TDouble s = Ok (XFloating z) /\ rounded 53 1024 z (sign_SF x) (SF2R radix2 x).
Proof. exact long_double_as_double. Qed.
Print Assumptions C78_long_double.

(** A long double does not always become the float it converts to, even if it is not the middle
    of two floats, but does when the double nearest to it is not either. *)
Theorem C78_long_float_refuted : exists x s z, floating_ok (linux_x86_64 Strict) (VLongDouble x) /\ is_finite_SF x = true /\
  ~ halfway 24 128 (SF2R radix2 x) /\
  lexi (linux_x86_64 Strict) (VLongDouble x) = Ok s /\ s = str "2.06794015e34" /\
  extract (linux_x86_64 Strict) "."%char TFloat s = Ok (XFloating z) /\ ~ rounded 24 128 z (sign_SF x) (SF2R radix2 x).
Proof. exact long_as_float_refuted. Qed.
Print Assumptions C78_long_float_refuted.

Theorem C78_long_float : forall e x s, nan_ok (e_float e) -> floating_ok e (VLongDouble x) -> is_finite_SF x = true ->
  let d := nearest 53 1024 (SF2R radix2 x) in
  d <> 0%R -> (Rabs d < bpow radix2 1024)%R -> ~ halfway 24 128 d -> lexi e (VLongDouble x) = Ok s ->
  exists z, extract e "."%char TFloat s = Ok (XFloating z) /\ rounded 24 128 z (sign_SF x) (SF2R radix2 x).
Proof. exact long_double_as_float. Qed.
Print Assumptions C78_long_float.

Example C78_case : (let* s := lexi (linux_x86_64 Strict) (VDouble 0xC08F3A6DD2F1A9FC) in extract (linux_x86_64 Strict) "."%char TFloat s) =
    Ok (XFloating (S754_finite true 16372591 (-14))) /\
  (let* s := lexi (windows_x64 Strict) (VDouble 0x470fdc95f0000000) in extract (windows_x64 Strict) "."%char TFloat s) =
    Ok (XFloating (S754_finite false 16704688 90)) /\
  (let* s := lexi (linux_x86_64 Strict) (VDouble 0x7FE1CCF385EBC8A0) in extract (linux_x86_64 Strict) "."%char TFloat s) =
    Ok (XFloating (S754_infinity false)) /\
  lexi (linux_x86_64 zero_memory) (VFloat 0x3DCCCCCD) = Ok (str "0.10000000149011612") /\
  extract (linux_x86_64 zero_memory) "."%char TDouble (str "0.10000000149011612") = Ok (XFloating (S754_finite false 7205759511166976 (-56))).
Proof. vm_compute. repeat split. Qed.
