(** C105: what is printed is read back alike by every C library that follows C17, also one that does not round
    long decimals correctly. *)
From Coq Require Import Reals Floats.SpecFloat.
From Flocq Require Import Core IEEE754.BinarySingleNaN.
From Verif Require Import Machine SpecApi SpecDecimal SpecInt SpecNumber SpecIeee SpecRead SpecMore SpecReader ModelInt ModelText ModelIeee
  ModelDiyfp ModelDtoa ModelFloat ModelLexi ModelPlatforms ModelReader ProofReader.
Open Scope Z_scope.

(** A text of at most DECIMAL_DIG digits, apart from zeros at its ends. *)
Theorem C105_few : forall up e point s v T, point_ok point -> reads point s v -> short (DECIMAL_DIG (fe_ld (e_float e))) v ->
  w_extract up e point T s = extract e point T s.
Proof. exact short_same. Qed.
Print Assumptions C105_few.

Theorem C105_number : forall up e s n T, json_number s n ->
  Z.of_nat (length (significant (n_digits n))) <= DECIMAL_DIG (fe_ld (e_float e)) ->
  w_extract up e "."%char T s = extract e "."%char T s.
Proof. exact few_number. Qed.
Print Assumptions C105_number.

(** Any text: the number, or one of the two decimals of DECIMAL_DIG digits next to it, is rounded to long double. *)
Theorem C105_any : forall up e point s v, point_ok point -> reads point s v ->
  exists v' y, next_to (DECIMAL_DIG (fe_ld (e_float e))) v v' /\
    read_as (ld_prec (fe_ld (e_float e))) (ld_emax (fe_ld (e_float e))) v' y /\
    w_extract up e point TLongDouble s = Ok (XFloating y) /\
    (exists z, w_extract up e point TDouble s = Ok (XFloating z) /\ narrowed 53 1024 y z) /\
    (exists z, w_extract up e point TFloat s = Ok (XFloating z) /\ narrowed 24 128 y z).
Proof. exact any_text. Qed.
Print Assumptions C105_any.

(** The texts of floats, doubles and long doubles. *)
Theorem C105_printed : forall up e v s T, nan_ok (e_float e) -> e_lit e = default_literals -> floating_ok e v ->
  (exists u, v = VFloat u \/ v = VDouble u) \/ (exists x, v = VLongDouble x) -> lexi e v = Ok s ->
  w_extract up e "."%char T s = extract e "."%char T s.
Proof. exact printed_same. Qed.
Print Assumptions C105_printed.

Theorem C105_round_trip : forall up e u s, bits64 u -> double_finite u -> double_value u <> 0%R -> lexi e (VDouble u) = Ok s ->
  fe_ld (e_float e) <> LD80 \/ Z.even u = true ->
  exists z, w_extract up e "."%char TDouble s = Ok (XFloating z) /\ same_double z u.
Proof. exact double_round. Qed.
Print Assumptions C105_round_trip.

(** The texts of integers, where long double is wider than double or the integer has few digits. *)
Theorem C105_integer : forall up e t v s T, platform_ok (e_platform e) -> has_int_type (e_platform e) t v -> lexi e (VInt t v) = Ok s ->
  fe_ld (e_float e) <> LD64 \/ Z.abs v <= 10 ^ 17 -> w_extract up e "."%char T s = extract e "."%char T s.
Proof. exact integer_same. Qed.
Print Assumptions C105_integer.

(** Otherwise an integer may become the wrong double. *)
Theorem C105_every_integer_refuted : exists up e v s z z', has_int_type (e_platform e) LLong v /\ fe_ld (e_float e) = LD64 /\
  lexi e (VInt LLong v) = Ok s /\ extract e "."%char TDouble s = Ok (XFloating z) /\
  w_extract up e "."%char TDouble s = Ok (XFloating z') /\ z <> z'.
Proof.
  exists (fun _ => true), (windows_x64 Strict), (-4611686018427388415), (str "-4611686018427388415"), (S754_finite true (2 ^ 52) 10), (S754_finite true (2 ^ 52 + 1) 10).
  split; [vm_compute; intuition discriminate|]. repeat (split; [vm_compute; reflexivity|]). discriminate.
Qed.
Print Assumptions C105_every_integer_refuted.

(** A text a little below the middle between 1 and the next double, in 17 digits the one above is above the middle. *)
Example C105_example :
  let up (s : bytes) := true in let down (s : bytes) := false in
  let s := str "1.00000000000000011102230246251565404" in
  extract (windows_x64 Strict) "."%char TDouble s = Ok (XFloating (S754_finite false (2 ^ 52) (-52))) /\
  w_extract down (windows_x64 Strict) "."%char TDouble s = Ok (XFloating (S754_finite false (2 ^ 52) (-52))) /\
  w_extract up (windows_x64 Strict) "."%char TDouble s = Ok (XFloating (S754_finite false (2 ^ 52 + 1) (-52))) /\
  nearby 17 true 123456789012345678901 (-3) = (12345678901234568, 1) /\
  nearby 17 false 123456789012345678901 (-3) = (12345678901234567, 1) /\
  nearby 17 true 123456789012345670000 (-3) = (123456789012345670000, -3) /\
  digits_of 999 = 3 /\ digits_of 1000 = 4.
Proof. repeat (split; [vm_compute; reflexivity|]). vm_compute. reflexivity. Qed.
