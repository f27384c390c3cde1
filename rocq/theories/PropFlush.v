(** Property C96: the texts do not depend on whether the floating-point unit flushes subnormal numbers. *)
From Coq Require Import Reals Floats.SpecFloat.
From Flocq Require Import Core IEEE754.BinarySingleNaN.
From Verif Require Import Machine SpecApi SpecDecimal SpecIeee SpecRead SpecFlush ModelItoa ModelInt ModelText
  ModelIeee ModelDiyfp ModelDtoa ModelFloat ModelLexi ModelPlatforms ModelFlush ProofFlush.
Open Scope Z_scope.

(** C96 is false for subnormal doubles: all of them are printed as zero, without their signs. *)
Theorem C96_flush_refuted : exists fl u v, let e := linux_aarch64 zero_memory in
  bits64 u /\ bits64 v /\ double_finite u /\ double_finite v /\ double_value u <> double_value v /\
  z_lexi fl e (VDouble u) = Ok (str "0.0") /\ z_lexi fl e (VDouble v) = Ok (str "0.0") /\
  lexi e (VDouble u) = Ok (str "5e-324") /\ lexi e (VDouble v) = Ok (str "-2.225073858507201e-308").
Proof. exact flush_refuted. Qed.
Print Assumptions C96_flush_refuted.

(** Exactly which values are printed as zero, and that all the others are printed as without flushing. *)
Theorem C96_double : forall fl e u, nan_ok (e_float e) -> bits64 u ->
  let on := fl_compare fl = true \/ fe_ld (e_float e) <> LD64 /\ (fl_widen fl = true \/ fl_narrow fl = true) in
  (subnormal 1024 (double_value u) -> on -> z_lexi fl e (VDouble u) = Ok (str "0.0")) /\
  (~ (subnormal 1024 (double_value u) /\ on) -> z_lexi fl e (VDouble u) = lexi e (VDouble u)).
Proof. exact double_text. Qed.
Print Assumptions C96_double.

Theorem C96_float : forall fl e u, nan_ok (e_float e) -> bits32 u ->
  (subnormal 128 (float_value u) -> fl_widen fl = true -> z_lexi fl e (VFloat u) = Ok (str "0.0")) /\
  (~ (subnormal 128 (float_value u) /\ fl_widen fl = true) -> z_lexi fl e (VFloat u) = lexi e (VFloat u)).
Proof. exact float_text. Qed.
Print Assumptions C96_float.

(** [z] is the double that [x] is rounded to. *)
Theorem C96_long_double : forall fl e x z, nan_ok (e_float e) ->
  SpecFloat.valid_binary (ld_prec (fe_ld (e_float e))) (ld_emax (fe_ld (e_float e))) x = true -> narrowed 53 1024 x z ->
  let on := fl_compare fl = true \/ fe_ld (e_float e) <> LD64 /\ fl_narrow fl = true in
  (subnormal 1024 (SF2R radix2 z) -> on -> z_lexi fl e (VLongDouble x) = Ok (str "0.0")) /\
  (~ (subnormal 1024 (SF2R radix2 z) /\ on) -> z_lexi fl e (VLongDouble x) = lexi e (VLongDouble x)).
Proof. exact long_double_text. Qed.
Print Assumptions C96_long_double.

Theorem C96_others : forall fl e v, (forall u, v <> VFloat u) -> (forall u, v <> VDouble u) -> (forall x, v <> VLongDouble x) ->
  z_lexi fl e v = lexi e v.
Proof. exact other_text. Qed.
Print Assumptions C96_others.

(** The same for reading: a subnormal result becomes the zero of its sign. *)
Theorem C96_double_read : forall fl e point s z, point_ok point -> extract e point TDouble s = Ok (XFloating z) ->
  let on := fe_ld (e_float e) <> LD64 /\ fl_narrow fl = true in
  (subnormal 1024 (SF2R radix2 z) -> on -> z_extract fl e point TDouble s = Ok (XFloating (S754_zero (sign_SF z)))) /\
  (~ (subnormal 1024 (SF2R radix2 z) /\ on) -> z_extract fl e point TDouble s = Ok (XFloating z)).
Proof. exact double_read. Qed.
Print Assumptions C96_double_read.

Theorem C96_float_read : forall fl e point s z, point_ok point -> extract e point TFloat s = Ok (XFloating z) ->
  (subnormal 128 (SF2R radix2 z) -> fl_narrow fl = true -> z_extract fl e point TFloat s = Ok (XFloating (S754_zero (sign_SF z)))) /\
  (~ (subnormal 128 (SF2R radix2 z) /\ fl_narrow fl = true) -> z_extract fl e point TFloat s = Ok (XFloating z)).
Proof. exact float_read. Qed.
Print Assumptions C96_float_read.

Theorem C96_others_read : forall fl e point t s, t <> TFloat -> t <> TDouble -> z_extract fl e point t s = extract e point t s.
Proof. exact other_read. Qed.
Print Assumptions C96_others_read.

(** The numbers that are not subnormal keep their round trips (C30, C31). *)
Theorem C96_double_round_trip : forall fl e u s, nan_ok (e_float e) -> bits64 u -> double_finite u -> double_value u <> 0%R ->
  ~ subnormal 1024 (double_value u) -> z_lexi fl e (VDouble u) = Ok s ->
  fe_ld (e_float e) <> LD80 \/ Z.even u = true ->
  exists z, z_extract fl e "."%char TDouble s = Ok (XFloating z) /\ same_double z u.
Proof. exact normal_round_trip. Qed.
Print Assumptions C96_double_round_trip.

Theorem C96_float_round_trip : forall fl e u s, nan_ok (e_float e) -> bits32 u -> float_finite u -> float_value u <> 0%R ->
  ~ subnormal 128 (float_value u) -> z_lexi fl e (VFloat u) = Ok s ->
  exists z, z_extract fl e "."%char TFloat s = Ok (XFloating z) /\ same_float z u.
Proof. exact normal_float_round_trip. Qed.
Print Assumptions C96_float_round_trip.

(** The smallest normal numbers and their neighbours below. *)
Example C96_case : let all := Flush true true true in let e := linux_aarch64 zero_memory in
  z_lexi all e (VDouble 0x0010000000000000) = Ok (str "2.2250738585072014e-308") /\
  z_lexi all e (VDouble 0x000FFFFFFFFFFFFF) = Ok (str "0.0") /\
  z_lexi (Flush true false false) e (VFloat 0x80000001) = lexi e (VFloat 0x80000001) /\
  z_lexi all e (VFloat 0x00800000) = Ok (str "1.1754943508222876e-38") /\
  z_lexi all e (VFloat 0x807FFFFF) = Ok (str "0.0") /\
  z_extract all e "."%char TDouble (str "-5e-324") = Ok (XFloating (S754_zero true)) /\
  z_extract all e "."%char TDouble (str "2.2250738585072014e-308") = Ok (XFloating (S754_finite false 0x10000000000000 (-1074))) /\
  z_extract (Flush true true false) e "."%char TDouble (str "5e-324") = Ok (XFloating (S754_finite false 1 (-1074))) /\
  z_extract all (windows_x64 zero_memory) "."%char TDouble (str "5e-324") = Ok (XFloating (S754_finite false 1 (-1074))) /\
  z_extract all e "."%char TFloat (str "1e-40") = Ok (XFloating (S754_zero false)) /\
  z_extract all e "."%char TLongDouble (str "1e-40") = extract e "."%char TLongDouble (str "1e-40").
Proof. repeat (split; [vm_compute; reflexivity|]). vm_compute. reflexivity. Qed.

Example C96_bounds_case : subnormal 1024 (double_value 1) /\ subnormal 1024 (double_value 0x800FFFFFFFFFFFFF) /\
  ~ subnormal 1024 (double_value 0x0010000000000000) /\ ~ subnormal 1024 (double_value 0) /\
  subnormal 128 (float_value 0x807FFFFF) /\ ~ subnormal 128 (float_value 0x00800000).
Proof. exact bounds_case. Qed.
