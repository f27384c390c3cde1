(** Property C85, and sharper theorems for C20, C30 and C59. *)
From Coq Require Import Reals Floats.SpecFloat.
From Flocq Require Import Core IEEE754.BinarySingleNaN.
From Verif Require Import Machine SpecApi SpecDecimal SpecInt SpecNumber SpecIeee SpecRead SpecMore SpecWide
  ModelItoa ModelInt ModelText ModelIeee ModelDiyfp ModelDtoa ModelFloat ModelLexi ModelPlatforms ProofRound ProofWide.
Open Scope Z_scope.

(** C20 for floats, although they are printed as doubles. *)
Theorem C20_float_round_trip : forall e u s, nan_ok (e_float e) -> bits32 u -> float_finite u -> float_value u <> 0%R ->
  lexi e (VFloat u) = Ok s ->
  exists n, json_number s n /\ (forall n', json_number s n' -> n' = n) /\
    strictly_nearest 24 128 (float_value u) (n_value n) /\ nearest 24 128 (n_value n) = float_value u.
Proof. exact float_round_trip. Qed.
Print Assumptions C20_float_round_trip.

Example C20_float_case : lexi (linux_x86_64 zero_memory) (VFloat 1) = Ok (str "1.401298464324817e-45").
Proof. vm_compute; reflexivity. Qed.

(** C30 exactly: a double is not read back if and only if its significand is odd and the long double
    read is halfway between it and a neighbour. *)
Theorem C30_exactly : forall e u s, bits64 u -> double_finite u -> double_value u <> 0%R -> lexi e (VDouble u) = Ok s ->
  exists y z, extract e "."%char TLongDouble s = Ok (XFloating y) /\ extract e "."%char TDouble s = Ok (XFloating z) /\
    is_finite_SF y = true /\
    (~ same_double z u <->
     let x := Rabs (double_value u) in
     Z.even u = false /\
     (Rabs (SF2R radix2 y) = ((x + pred radix2 (binary_format 53 1024) x) / 2)%R \/
      Rabs (SF2R radix2 y) = ((x + succ radix2 (binary_format 53 1024) x) / 2)%R)).
Proof. exact double_read_iff. Qed.
Print Assumptions C30_exactly.

(** C59 from 2^53 on: the integer read is the double again when converted to double, as long as the
    double is in the range of the type. *)
Theorem C59_wide : forall e point t u s n, platform_ok (e_platform e) -> bits64 u -> double_finite u ->
  lexi e (VDouble u) = Ok s -> json_number s n -> n_exponent n = None -> (bpow radix2 53 <= Rabs (double_value u))%R ->
  (if int_signed t then (Rabs (double_value u) < bpow radix2 (int_bits (e_platform e) t - 1))%R
   else (0 <= double_value u < bpow radix2 (int_bits (e_platform e) t))%R) ->
  exists r, extract e point (TInt t) s = Ok (XInt r) /\ has_int_type (e_platform e) t r /\ nearest 53 1024 (IZR r) = double_value u.
Proof. exact double_wide. Qed.
Print Assumptions C59_wide.

Example C59_wide_case : lexi (linux_x86_64 zero_memory) (VDouble 0x43DFFFFFFFFFFFFF) = Ok (str "9223372036854775000.0") /\
  extract (linux_x86_64 zero_memory) "."%char (TInt LLong) (str "9223372036854775000.0") = Ok (XInt 9223372036854775000) /\
  extract (linux_x86_64 zero_memory) "."%char TDouble (str "9223372036854775000") = Ok (XFloating (double_of_bits 0x43DFFFFFFFFFFFFF)) /\
  lexi (linux_x86_64 zero_memory) (VDouble 0xC340000000000001) = Ok (str "-9007199254740994.0").
Proof. repeat (split; [vm_compute; reflexivity|]). vm_compute; reflexivity. Qed.

(** C85 is false for integers beyond 2^53: doubles that large are rounded to 17 digits. *)
Theorem C85_order_refuted : exists i u s1 s2, has_int_type (e_platform (linux_x86_64 zero_memory)) LLong i /\ bits64 u /\ double_finite u /\
  (double_value u < IZR i)%R /\
  lexi (linux_x86_64 zero_memory) (VInt LLong i) = Ok s1 /\ lexi (linux_x86_64 zero_memory) (VDouble u) = Ok s2 /\
  s1 = str "1152921504606846977" /\ s2 = str "1152921504606847000.0".
Proof. exact integer_order_refuted. Qed.
Print Assumptions C85_order_refuted.

(** It holds among floats, doubles and integers up to 2^53. *)
Theorem C85_order : forall e v1 v2 x1 x2 s1 s2 n1 n2, nan_ok (e_float e) -> platform_ok (e_platform e) ->
  stands_for e v1 x1 -> stands_for e v2 x2 -> lexi e v1 = Ok s1 -> lexi e v2 = Ok s2 -> json_number s1 n1 -> json_number s2 n2 ->
  (x1 < x2 <-> n_value n1 < n_value n2)%R /\ (x1 = x2 <-> n_value n1 = n_value n2).
Proof. exact types_order. Qed.
Print Assumptions C85_order.

(** Numbers of whatever magnitude are in the right order unless they round to the same double. *)
Theorem C85_rounded : forall e v1 v2 x1 x2 s1 s2 n1 n2, nan_ok (e_float e) -> platform_ok (e_platform e) ->
  number_of e v1 x1 -> number_of e v2 x2 -> nearest 53 1024 x1 <> nearest 53 1024 x2 ->
  lexi e v1 = Ok s1 -> lexi e v2 = Ok s2 -> json_number s1 n1 -> json_number s2 n2 ->
  (x1 < x2 <-> n_value n1 < n_value n2)%R.
Proof. exact types_order_rounded. Qed.
Print Assumptions C85_rounded.

(** 2^60 - 65 rounds to the double below 2^60. *)
Example C85_rounded_case : lexi (linux_x86_64 zero_memory) (VInt LLong (2 ^ 60 - 65)) = Ok (str "1152921504606846911") /\
  lexi (linux_x86_64 zero_memory) (VDouble 0x43B0000000000000) = Ok (str "1152921504606847000.0") /\
  lexi (linux_x86_64 zero_memory) (VDouble 0x43AFFFFFFFFFFFFF) = Ok (str "1152921504606846900.0").
Proof. repeat (split; [vm_compute; reflexivity|]). vm_compute; reflexivity. Qed.

Example C85_case : lexi (linux_x86_64 zero_memory) (VInt LLong (2 ^ 53)) = Ok (str "9007199254740992") /\
  lexi (linux_x86_64 zero_memory) (VDouble 0x4340000000000000) = Ok (str "9007199254740992.0") /\
  lexi (linux_x86_64 zero_memory) (VFloat 0x5A000000) = Ok (str "9007199254740992.0") /\
  stands_for (linux_x86_64 zero_memory) (VInt LLong (2 ^ 53)) (IZR (2 ^ 53)).
Proof.
  repeat (split; [vm_compute; reflexivity|]). split; [split; [discriminate|reflexivity]|]. split; [discriminate|reflexivity].
Qed.
