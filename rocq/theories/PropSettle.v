(** Values that go through text again and again (C60), and exact versions of C24, C58, C75 and C78. *)
From Coq Require Import Reals Floats.SpecFloat.
From Flocq Require Import Core.
From Flocq Require Import IEEE754.BinarySingleNaN.
From Verif Require Import Machine SpecApi SpecDecimal SpecInt SpecNumber SpecIeee SpecJson SpecRead SpecMore SpecTwice SpecJoin ModelInt ModelText ModelIeee ModelDtoa ModelFloat
  ModelLexi ModelPlatforms ProofSettle.
Open Scope Z_scope.

(** C60: whatever the format, the second time through text changes nothing. *)
Theorem C60_settles : forall e u s z w s2 z2 w2, nan_ok (e_float e) -> e_lit e = default_literals -> bits64 u -> bits64 w -> bits64 w2 ->
  lexi e (VDouble u) = Ok s -> extract e "."%char TDouble s = Ok (XFloating z) -> double_is z w ->
  lexi e (VDouble w) = Ok s2 -> extract e "."%char TDouble s2 = Ok (XFloating z2) -> double_is z2 w2 ->
  lexi e (VDouble w2) = Ok s2.
Proof. exact double_settles. Qed.
Print Assumptions C60_settles.

(** A long double loses digits the first time; its text stays. *)
Theorem C60_long_double : forall e x s y, nan_ok (e_float e) -> e_lit e = default_literals -> floating_ok e (VLongDouble x) ->
  fe_ld (e_float e) <> LD80 ->
  lexi e (VLongDouble x) = Ok s -> extract e "."%char TLongDouble s = Ok (XFloating y) -> lexi e (VLongDouble y) = Ok s.
Proof. exact long_stable. Qed.
Print Assumptions C60_long_double.

Theorem C60_long_double_settles : forall e x s y s2 y2, nan_ok (e_float e) -> e_lit e = default_literals -> floating_ok e (VLongDouble x) ->
  lexi e (VLongDouble x) = Ok s -> extract e "."%char TLongDouble s = Ok (XFloating y) ->
  lexi e (VLongDouble y) = Ok s2 -> extract e "."%char TLongDouble s2 = Ok (XFloating y2) -> lexi e (VLongDouble y2) = Ok s2.
Proof. exact long_settles. Qed.
Print Assumptions C60_long_double_settles.

Theorem C60_long_double_exactly : forall e x s, nan_ok (e_float e) -> e_lit e = default_literals -> floating_ok e (VLongDouble x) ->
  is_finite_SF x = true ->
  let d := nearest 53 1024 (SF2R radix2 x) in
  d <> 0%R -> (Rabs d < bpow radix2 1024)%R -> lexi e (VLongDouble x) = Ok s ->
  exists u y, bits64 u /\ double_finite u /\ double_value u = d /\
    extract e "."%char TLongDouble s = Ok (XFloating y) /\ is_finite_SF y = true /\
    (lexi e (VLongDouble y) <> Ok s <->
     Z.even u = false /\
     (Rabs (SF2R radix2 y) = ((Rabs d + pred radix2 (binary_format 53 1024) (Rabs d)) / 2)%R \/
      Rabs (SF2R radix2 y) = ((Rabs d + succ radix2 (binary_format 53 1024) (Rabs d)) / 2)%R)).
Proof. exact long_stable_exactly. Qed.
Print Assumptions C60_long_double_exactly.

(** Three different texts do not occur, two do. *)
Example C60_settles_case :
  let e := linux_x86_64 zero_memory in
  lexi e (VLongDouble (S754_finite false (2 ^ 63 + 1) (-63))) = Ok (str "1.0") /\
  extract e "."%char TLongDouble (str "1.0") = Ok (XFloating (S754_finite false (2 ^ 63) (-63))) /\
  lexi e (VLongDouble (S754_finite false (2 ^ 63) (-63))) = Ok (str "1.0") /\
  lexi e (VDouble 0x1c350e0d552e5ba9) = Ok (str "8.51286005118775e-173") /\
  extract e "."%char TLongDouble (str "8.51286005118775e-173") = Ok (XFloating (S754_finite false 12137318271772609536 (-635))) /\
  lexi e (VLongDouble (S754_finite false 12137318271772609536 (-635))) = Ok (str "8.512860051187751e-173") /\
  extract e "."%char TDouble (str "8.512860051187751e-173") = Ok (XFloating (double_of_bits 0x1c350e0d552e5baa)) /\
  lexi e (VDouble 0x1c350e0d552e5baa) = Ok (str "8.512860051187751e-173").
Proof. repeat (split; [vm_compute; reflexivity|]). vm_compute. reflexivity. Qed.

(** C78: a long double does not become the nearest double if and only if that double is odd and the
    long double read is the middle between it and a neighbour. *)
Theorem C78_long_double_exactly : forall e x s, nan_ok (e_float e) -> floating_ok e (VLongDouble x) -> is_finite_SF x = true ->
  let d := nearest 53 1024 (SF2R radix2 x) in
  d <> 0%R -> (Rabs d < bpow radix2 1024)%R -> lexi e (VLongDouble x) = Ok s ->
  exists u y z, bits64 u /\ double_finite u /\ double_value u = d /\
    extract e "."%char TLongDouble s = Ok (XFloating y) /\ is_finite_SF y = true /\ extract e "."%char TDouble s = Ok (XFloating z) /\
    (~ rounded 53 1024 z (sign_SF x) (SF2R radix2 x) <->
     Z.even u = false /\
     (Rabs (SF2R radix2 y) = ((Rabs d + pred radix2 (binary_format 53 1024) (Rabs d)) / 2)%R \/
      Rabs (SF2R radix2 y) = ((Rabs d + succ radix2 (binary_format 53 1024) (Rabs d)) / 2)%R)).
Proof. exact long_double_exactly. Qed.
Print Assumptions C78_long_double_exactly.

(** It does not become the nearest float if and only if the nearest double is the middle of two floats
    and of the long doubles printed and read one is rounded as the middle is and the other one is not. *)
Theorem C78_long_float_exactly : forall e x s, nan_ok (e_float e) -> floating_ok e (VLongDouble x) -> is_finite_SF x = true ->
  let d := nearest 53 1024 (SF2R radix2 x) in
  d <> 0%R -> (Rabs d < bpow radix2 1024)%R -> lexi e (VLongDouble x) = Ok s ->
  exists y z, extract e "."%char TLongDouble s = Ok (XFloating y) /\ is_finite_SF y = true /\ extract e "."%char TFloat s = Ok (XFloating z) /\
    (~ rounded 24 128 z (sign_SF x) (SF2R radix2 x) <->
     halfway 24 128 d /\ (Rabs d < bpow radix2 128)%R /\
     ~ (other_side 24 128 d (SF2R radix2 x) <-> other_side 24 128 d (SF2R radix2 y))).
Proof. exact long_float_exactly. Qed.
Print Assumptions C78_long_float_exactly.

(** The double is the middle of 16704687 and 16704688 units of 2^90 and rounded to the even one.  Read
    is a number below it; so the long double above it becomes another float, the one below does not. *)
Example C78_long_exactly_case :
  let e := linux_x86_64 zero_memory in
  lexi e (VLongDouble (S754_finite false (16704687 * 2 ^ 40 + 2 ^ 39 + 1) 50)) = Ok (str "2.06794015e34") /\
  lexi e (VLongDouble (S754_finite false (16704687 * 2 ^ 40 + 2 ^ 39 - 1) 50)) = Ok (str "2.06794015e34") /\
  extract e "."%char TLongDouble (str "2.06794015e34") = Ok (XFloating (S754_finite false (16704687 * 2 ^ 40 + 2 ^ 39 - 720) 50)) /\
  extract e "."%char TFloat (str "2.06794015e34") = Ok (XFloating (S754_finite false 16704687 90)).
Proof. repeat (split; [vm_compute; reflexivity|]). vm_compute. reflexivity. Qed.

(** C58: an integer does not become the nearest float if and only if the long double nearest to it is
    the middle of two floats and is rounded to the one on its other side. *)
Theorem C58_float_exactly : forall e point t v s, platform_ok (e_platform e) -> point_ok point -> has_int_type (e_platform e) t v ->
  lexi e (VInt t v) = Ok s ->
  exists z, extract e point TFloat s = Ok (XFloating z) /\
    (~ rounded 24 128 z (v <? 0) (IZR v) <->
     let c := nearest (ld_prec (fe_ld (e_float e))) (ld_emax (fe_ld (e_float e))) (IZR v) in
     halfway 24 128 c /\ other_side 24 128 c (IZR v)).
Proof. exact integer_float_exactly. Qed.
Print Assumptions C58_float_exactly.

(** On the other side of the middle, and next to a middle that is rounded upward. *)
Example C58_exactly_case :
  let e := windows_x64 Strict in
  extract e "."%char TFloat (str "9223372586610589697") = Ok (XFloating (S754_finite false (2 ^ 23) 40)) /\
  extract (linux_x86_64 Strict) "."%char TFloat (str "9223372586610589697") = Ok (XFloating (S754_finite false (2 ^ 23 + 1) 40)) /\
  extract e "."%char TFloat (str "9223372586610589695") = Ok (XFloating (S754_finite false (2 ^ 23) 40)) /\
  extract e "."%char TFloat (str "9223373686122217471") = Ok (XFloating (S754_finite false (2 ^ 23 + 2) 40)) /\
  extract (linux_x86_64 Strict) "."%char TFloat (str "9223373686122217471") = Ok (XFloating (S754_finite false (2 ^ 23 + 1) 40)).
Proof. repeat (split; [vm_compute; reflexivity|]). vm_compute. reflexivity. Qed.

(** C24 with the words the program configures: every double is a JSON text if these are. *)
Theorem C24_configured : forall e u s, nan_ok (e_float e) -> float_literals_ok (e_lit e) -> bits64 u -> jsonify_of e (VDouble u) = Ok s ->
  (json_text s <-> double_finite u \/ (double_nan u /\ json_text (lit_nan (e_lit e))) \/
     (double_infinity u false /\ json_text (lit_infinity (e_lit e))) \/ (double_infinity u true /\ json_text (lit_negative_infinity (e_lit e)))).
Proof. exact configured_json. Qed.
Print Assumptions C24_configured.

Example C24_configured_case :
  let l := {| lit_null := str "null"; lit_true := str "true"; lit_false := str "false"; lit_nan := str "null";
              lit_infinity := str "1e999"; lit_negative_infinity := str "-1e999" |} in
  let e := Env (e_platform (linux_x86_64 Strict)) {| fe_lit := l; fe_tc := fe_tc (e_float (linux_x86_64 Strict)); fe_ld := LD80; fe_nan := 0x7FF8000000000000 |} in
  jsonify_of e (VDouble 0x7FF8000000000001) = Ok (str "null") /\ jsonify_of e (VDouble 0xFFF0000000000000) = Ok (str "-1e999").
Proof. repeat (split; [vm_compute; reflexivity|]). vm_compute. reflexivity. Qed.

(** C75: escape adds and removes no control characters. *)
Theorem C75_escape_exactly : forall e v s t, platform_ok (e_platform e) -> nan_ok (e_float e) -> e_lit e = default_literals -> argument_ok e v ->
  lexi e v = Ok s -> escape_of e v = Ok t -> (one_line t <-> one_line s).
Proof. exact escape_lines. Qed.
Print Assumptions C75_escape_exactly.

Example C75_escape_case : escape_of (linux_x86_64 Strict) (VCString (str "a b" ++ [chr 0; chr 10])) = Ok (str "a\ b") /\
  escape_of (linux_x86_64 Strict) (VString (str "a b" ++ [chr 0; chr 10])) = Ok (str "a\ b\" ++ [chr 0] ++ str "\" ++ [chr 10]).
Proof. split; vm_compute; reflexivity. Qed.
