(** Properties C46, C47, C63, C64: powers of ten in double precision and the decimal fast path. *)
From Coq Require Import Reals Floats.SpecFloat.
From Flocq Require Import Core IEEE754.BinarySingleNaN.
From Verif Require Import Machine SpecNumber SpecIeee SpecRead SpecBig SpecStrtod ModelFloat ModelBigint ModelStrtod ProofStrtod ProofStrtod2 ProofStrtod3.
Open Scope Z_scope.

(** C46: pow10 gives the double nearest to the power, for every index of the table, ... *)
Theorem C46_power : forall n, 0 <= n <= 308 ->
  exists x, pow10 n = Ok x /\ is_finite_SF x = true /\
            rounded 53 1024 x false (bpow radix10 n) /\ (n <= 22 -> SF2R radix2 x = bpow radix10 n).
Proof. exact pow10_correct. Qed.
Print Assumptions C46_power.

(** ... [fast] stays inside of the table for every significand (NaN and infinities too) and
    every exponent, ... *)
Theorem C46_fast_inside : forall d p, exists r, fast d p = Ok r.
Proof. exact fast_ok. Qed.
Print Assumptions C46_fast_inside.

(** ... the other callers for exponents up to 308 and only for these, ... *)
Theorem C46_inside : forall d p,
  (p <= 308 <-> exists r, fastPath d p = Ok r) /\
  (p <= 308 <-> exists r, StrtodNormalPrecision d p = Ok r).
Proof. exact callers_inside. Qed.
Print Assumptions C46_inside.

(** ... so that the claim about the callers is false: 1e309. *)
Theorem C46_refuted : exists d p, - 2 ^ 31 <= p < 2 ^ 31 /\
  fastPath d p = UB "read outside of POWER10" /\
  StrtodNormalPrecision d p = UB "read outside of POWER10".
Proof. exact outside_witness. Qed.
Print Assumptions C46_refuted.

Example C46_ex : pow10 22 = Ok (S754_finite false 4768371582031250 21).
Proof. vm_compute. reflexivity. Qed.

(** C47: a non-negative integer significand that is accepted is scaled with one rounding, ... *)
Theorem C47_integers_partial : forall d N p r,
  valid_binary 53 1024 d = true -> is_finite_SF d = true -> SF2R radix2 d = IZR N -> 0 <= N ->
  fast d p = Ok (Some r) -> rounded 53 1024 r (sign_SF d) (IZR N * bpow radix10 p).
Proof. exact fast_rounded. Qed.
Print Assumptions C47_integers_partial.

(** ... as is every finite significand, of either sign, when the exponent is at most 22. *)
Theorem C47_small_exponents : forall d p r,
  valid_binary 53 1024 d = true -> is_finite_SF d = true -> p <= 22 ->
  fast d p = Ok (Some r) -> rounded 53 1024 r (sign_SF d) (SF2R radix2 d * bpow radix10 p).
Proof. exact fast_plain. Qed.
Print Assumptions C47_small_exponents.

(** What is accepted: integers below 2^53 that can be scaled by an exact power. *)
Theorem C47_accepted : forall d N p,
  valid_binary 53 1024 d = true -> is_finite_SF d = true -> SF2R radix2 d = IZR N -> 0 <= N ->
  ((exists r, fast d p = Ok (Some r)) <->
   (-22 <= p <= 22 /\ N < 2 ^ 53) \/ (22 < p < 38 /\ N * 10 ^ (p - 22) < 2 ^ 53)).
Proof. exact fast_accepts. Qed.
Print Assumptions C47_accepted.

(** Of all finite significands, those that do not exceed the bound after the first of the two
    products, as it is rounded; ... *)
Theorem C47_accepted_all : forall d p, valid_binary 53 1024 d = true -> is_finite_SF d = true ->
  ((exists r, fast d p = Ok (Some r)) <->
   (-22 <= p <= 22 /\ (SF2R radix2 d <= IZR (2 ^ 53 - 1))%R) \/
   (22 < p < 38 /\ (nearest 53 1024 (SF2R radix2 d * bpow radix10 (p - 22)) <= IZR (2 ^ 53 - 1))%R)).
Proof. exact fast_accepts_all. Qed.
Print Assumptions C47_accepted_all.

(** ... above 22 the result is rounded twice. *)
Theorem C47_twice : forall d p r, valid_binary 53 1024 d = true -> is_finite_SF d = true -> 22 < p ->
  fast d p = Ok (Some r) ->
  rounded 53 1024 r (sign_SF d) (nearest 53 1024 (SF2R radix2 d * bpow radix10 (p - 22)) * bpow radix10 22).
Proof. exact fast_twice. Qed.
Print Assumptions C47_twice.

(** Negative significands are always accepted, however large, ... *)
Theorem C47_negative_accepted : forall d p, valid_binary 53 1024 d = true -> is_finite_SF d = true -> (SF2R radix2 d <= 0)%R ->
  ((exists r, fast d p = Ok (Some r)) <-> -22 <= p < 38).
Proof. exact fast_negative_accepted. Qed.
Print Assumptions C47_negative_accepted.

(** ... and what is accepted is right up to a relative error of 2^-50, for every significand. *)
Theorem C47_accuracy : forall d p r, valid_binary 53 1024 d = true -> is_finite_SF d = true ->
  fast d p = Ok (Some r) -> within r (sign_SF d) (SF2R radix2 d * bpow radix10 p).
Proof. exact fast_within_all. Qed.
Print Assumptions C47_accuracy.

Theorem C47_special_rejected : forall d p, d = S754_nan \/ d = S754_infinity false -> fast d p = Ok None.
Proof. exact fast_special. Qed.
Print Assumptions C47_special_rejected.

(** A negative integer significand is accepted and rounded twice. *)
Theorem C47_negative_refuted : exists d N p r,
  valid_binary 53 1024 d = true /\ is_finite_SF d = true /\ SF2R radix2 d = IZR N /\
  fast d p = Ok (Some r) /\ ~ rounded 53 1024 r true (IZR N * bpow radix10 p).
Proof. exact fast_negative_wrong. Qed.
Print Assumptions C47_negative_refuted.

(** The largest double, negated, times 10^37 is accepted and is -infinity. *)
Example C47_ex_negative : fast (S754_finite true 9007199254740991 971) 37 = Ok (Some (S754_infinity true)).
Proof. vm_compute. reflexivity. Qed.

(** The smallest double times 10^37 is accepted, 0.1 times 10^37 too, and 10 times 10^37 is not. *)
Example C47_ex_small : (exists r, fast (S754_finite false 1 (-1074)) 37 = Ok (Some r)) /\
  (exists r, fast (S754_finite false 7205759403792794 (-56)) 37 = Ok (Some r)) /\
  fast (S754_finite false 5629499534213120 (-49)) 37 = Ok None.
Proof. split; [eexists; vm_compute; reflexivity|]. split; [eexists; vm_compute; reflexivity|vm_compute; reflexivity]. Qed.

(** 123 * 10^35 is a fast path case in disguise. *)
Example C47_ex : exists r, fast (SpecFloat.binary_normalize 53 1024 123 0 false) 35 = Ok (Some r) /\
  r = round_decimal 53 1024 false 123 35.
Proof. eexists. split; vm_compute; reflexivity. Qed.

(** C63: StrtodNormalPrecision is accurate to a relative error of 2^-50, for doubles of every
    size down to the exponent -616, below that for significands up to 10^292, ... *)
Theorem C63_accuracy_partial : forall d p r,
  valid_binary 53 1024 d = true -> is_finite_SF d = true ->
  -616 <= p <= 308 \/ (p <= 308 /\ (Rabs (SF2R radix2 d) <= bpow radix10 292)%R) ->
  StrtodNormalPrecision d p = Ok r ->
  within r (sign_SF d) (SF2R radix2 d * bpow radix10 p) /\ (-616 <= p -> sign_SF r = sign_SF d).
Proof. exact normal_accuracy. Qed.
Print Assumptions C63_accuracy_partial.

(** ... below which the result is positive zero whatever the significand, ... *)
Theorem C63_zero : forall d p, p < -616 -> StrtodNormalPrecision d p = Ok (S754_zero false).
Proof. exact normal_zero. Qed.
Print Assumptions C63_zero.

(** ... but not for larger ones: 1e308 scaled by 10^-617 becomes zero. *)
Theorem C63_large_refuted : exists d p r, valid_binary 53 1024 d = true /\ is_finite_SF d = true /\ p <= 308 /\
  StrtodNormalPrecision d p = Ok r /\ ~ within r (sign_SF d) (SF2R radix2 d * bpow radix10 p).
Proof. exact normal_wrong. Qed.
Print Assumptions C63_large_refuted.

(** It is accurate exactly for exponents from -616, and for values that are so small that zero
    is close enough. *)
Theorem C63_exactly : forall d p r, valid_binary 53 1024 d = true -> is_finite_SF d = true ->
  StrtodNormalPrecision d p = Ok r ->
  let x := (SF2R radix2 d * bpow radix10 p)%R in
  (within r (sign_SF d) x <-> -616 <= p \/ ((1 - bpow radix2 (-50)) * Rabs x <= bpow radix2 (-1074))%R).
Proof. exact normal_exactly. Qed.
Print Assumptions C63_exactly.

Example C63_ex : StrtodNormalPrecision (S754_finite false 5404319552844595 (-50)) (-310) = Ok (S754_finite false 97153081587509 (-1074)).
Proof. vm_compute. reflexivity. Qed.

(** C64: the comparison with half a unit is not implemented: one is reported as half a unit
    away from itself. *)
Theorem C64_half_unit_refuted : exists b d n,
  valid_binary 53 1024 b = true /\ is_finite_SF b = true /\ holds_number (digits_ d) (count_ d) n /\
  ~ half_unit_sign (SF2R radix2 b) (IZR n * bpow radix10 0) (withinHalfULP b d 0).
Proof. exact half_ulp_wrong. Qed.
Print Assumptions C64_half_unit_refuted.

(** What it is built from: the least of three. *)
Theorem C64_least_of_three : forall a b c, let m := min3 a b c in
  m <= a /\ m <= b /\ m <= c /\ (m = a \/ m = b \/ m = c).
Proof. exact min3_ok. Qed.
Print Assumptions C64_least_of_three.

Example C64_ex : min3 5 (-2) 7 = -2.
Proof. reflexivity. Qed.
