(** Exactly when rounding twice goes wrong (C60, C66, C78). *)
From Coq Require Import Reals Floats.SpecFloat.
From Flocq Require Import Core IEEE754.BinarySingleNaN.
From Verif Require Import Machine SpecApi SpecDecimal SpecInt SpecNumber SpecIeee SpecRead SpecMore SpecTwice ModelInt ModelText ModelIeee ModelDtoa ModelFloat ModelLexi ModelPlatforms
  ProofTwice.
Open Scope Z_scope.

(** C66: the value extracted is not the nearest if and only if the long double is the middle of two
    values in range and is rounded to the one on the other side of it than the number. *)
Theorem C66_exactly : forall e point s v x T p q, point_ok point -> reads point s v -> denotes v x -> target_format e T = Some (p, q) ->
  exists y z, extract e point TLongDouble s = Ok (XFloating y) /\ extract e point T s = Ok (XFloating z) /\
    (~ read_as p q v z <->
     is_finite_SF y = true /\ halfway p q (SF2R radix2 y) /\ (Rabs (SF2R radix2 y) < bpow radix2 q)%R /\ other_side p q (SF2R radix2 y) x).
Proof. exact nearest_exactly. Qed.
Print Assumptions C66_exactly.

(** Both sides of the middle 2^53 + 1, which is rounded to 2^53. *)
Example C66_exactly_case :
  extract (linux_x86_64 Strict) "."%char TLongDouble (str "9007199254740993.0000000000000000001") = Ok (XFloating (S754_finite false (2 ^ 63 + 2 ^ 10) (-10))) /\
  extract (linux_x86_64 Strict) "."%char TLongDouble (str "9007199254740992.9999999999999999999") = Ok (XFloating (S754_finite false (2 ^ 63 + 2 ^ 10) (-10))) /\
  extract (linux_x86_64 Strict) "."%char TDouble (str "9007199254740993.0000000000000000001") = Ok (XFloating (S754_finite false (2 ^ 52) 1)) /\
  extract (linux_x86_64 Strict) "."%char TDouble (str "9007199254740992.9999999999999999999") = Ok (XFloating (S754_finite false (2 ^ 52) 1)) /\
  extract (windows_x64 Strict) "."%char TDouble (str "9007199254740993.0000000000000000001") = Ok (XFloating (S754_finite false (2 ^ 52 + 1) 1)).
Proof. repeat (split; [vm_compute; reflexivity|]). vm_compute. reflexivity. Qed.

(** C60: the text changes if and only if the double was not read back (C30_exactly). *)
Theorem C60_exactly : forall e u w s z, nan_ok (e_float e) -> e_lit e = default_literals -> bits64 u -> bits64 w -> double_finite u -> double_value u <> 0%R ->
  lexi e (VDouble u) = Ok s -> extract e "."%char TDouble s = Ok (XFloating z) -> double_is z w ->
  exists y, extract e "."%char TLongDouble s = Ok (XFloating y) /\ is_finite_SF y = true /\
    (lexi e (VDouble w) <> Ok s <->
     let x := Rabs (double_value u) in
     Z.even u = false /\
     (Rabs (SF2R radix2 y) = ((x + pred radix2 (binary_format 53 1024) x) / 2)%R \/
      Rabs (SF2R radix2 y) = ((x + succ radix2 (binary_format 53 1024) x) / 2)%R)).
Proof. exact stable_exactly. Qed.
Print Assumptions C60_exactly.

Example C60_exactly_case :
  lexi (linux_x86_64 zero_memory) (VDouble 0x1c350e0d552e5ba9) = Ok (str "8.51286005118775e-173") /\
  extract (linux_x86_64 zero_memory) "."%char TDouble (str "8.51286005118775e-173") = Ok (XFloating (double_of_bits 0x1c350e0d552e5baa)) /\
  lexi (linux_x86_64 zero_memory) (VDouble 0x1c350e0d552e5baa) = Ok (str "8.512860051187751e-173").
Proof. repeat (split; [vm_compute; reflexivity|]). vm_compute. reflexivity. Qed.

(** C78: a double does not become the nearest float if and only if it is the middle of two floats and
    is rounded to the one on the other side of it than the long double read. *)
Theorem C78_double_float_exactly : forall e u s, bits64 u -> double_finite u -> double_value u <> 0%R -> lexi e (VDouble u) = Ok s ->
  exists y z, extract e "."%char TLongDouble s = Ok (XFloating y) /\ extract e "."%char TFloat s = Ok (XFloating z) /\
    (~ rounded 24 128 z (double_sign u) (double_value u) <->
     halfway 24 128 (double_value u) /\ (Rabs (double_value u) < bpow radix2 128)%R /\ other_side 24 128 (double_value u) (SF2R radix2 y)).
Proof. exact double_float_exactly. Qed.
Print Assumptions C78_double_float_exactly.

Example C78_exactly_case :
  double_of_bits 0x470fdc95f0000000 = S754_finite false (16704687 * 2 ^ 29 + 2 ^ 28) (90 - 29) /\
  extract (linux_x86_64 Strict) "."%char TLongDouble (str "2.06794015e34") = Ok (XFloating (S754_finite false (16704687 * 2 ^ 40 + 2 ^ 39 - 720) 50)) /\
  lexi (linux_x86_64 Strict) (VDouble 0x470fdc95f0000000) = Ok (str "2.06794015e34").
Proof. repeat (split; [vm_compute; reflexivity|]). vm_compute. reflexivity. Qed.
