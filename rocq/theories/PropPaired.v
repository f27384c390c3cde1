(** Property C97: numbers where long double is a pair of doubles. *)
From Coq Require Import Reals Floats.SpecFloat.
From Flocq Require Import Core IEEE754.BinarySingleNaN.
From Verif Require Import Machine SpecApi SpecDecimal SpecIeee SpecRead SpecPaired ModelItoa ModelInt ModelText
  ModelIeee ModelDiyfp ModelDtoa ModelFloat ModelLexi ModelPlatforms ModelPaired ProofFloat4 ProofRead2 ProofPaired.
Open Scope Z_scope.

(** C97 is false: this double, whose low bits cannot be as fine as the high part needs, is read back as the
    double below. *)
Theorem C97_paired_refuted : exists u s z, let e := linux_aarch64 zero_memory in
  bits64 u /\ double_finite u /\ double_value u <> 0%R /\
  d_lexi e (PDouble u) = Ok s /\ d_extract_double "."%char s = Ok z /\ ~ same_double z u.
Proof. exact pair_refuted. Qed.
Print Assumptions C97_paired_refuted.

(** The texts of floats and doubles are those of the other platforms; the text of a long double is that
    of the nearest double. *)
Theorem C97_double_text : forall e u, nan_ok (e_float e) -> bits64 u -> d_lexi e (PDouble u) = lexi e (VDouble u).
Proof. exact d_double. Qed.
Print Assumptions C97_double_text.

Theorem C97_float_text : forall e u, d_lexi e (PFloat u) = lexi e (VFloat u).
Proof. exact d_float. Qed.
Print Assumptions C97_float_text.

Theorem C97_long_double_text : forall e p, nan_ok (e_float e) -> SpecFloat.valid_binary 53 1024 (dp_hi p) = true -> is_finite_SF (dp_hi p) = true ->
  SF2R radix2 (dp_hi p) = nearest 53 1024 (SF2R radix2 (dp_hi p) + SF2R radix2 (dp_lo p)) ->
  exists u, bits64 u /\ double_finite u /\ double_value u = nearest 53 1024 (SF2R radix2 (dp_hi p) + SF2R radix2 (dp_lo p)) /\
    double_sign u = sign_SF (dp_hi p) /\ d_lexi e (PLongDouble p) = lexi e (VDouble u).
Proof. exact d_long_double. Qed.
Print Assumptions C97_long_double_text.

Theorem C97_special_text : forall e p s, e_lit e = default_literals -> nan_ok (e_float e) ->
  (dp_hi p = S754_infinity s -> d_lexi e (PLongDouble p) = Ok (str (if s then "-Infinity" else "Infinity"))) /\
  (dp_hi p = S754_nan -> d_lexi e (PLongDouble p) = Ok (str "NaN")).
Proof. exact d_special. Qed.
Print Assumptions C97_special_text.

(** So the low part is lost. *)
Theorem C97_low_part_refuted : exists p q s, let e := linux_aarch64 zero_memory in
  (SF2R radix2 (dp_hi p) + SF2R radix2 (dp_lo p) <> SF2R radix2 (dp_hi q) + SF2R radix2 (dp_lo q))%R /\
  d_lexi e (PLongDouble p) = Ok s /\ d_lexi e (PLongDouble q) = Ok s /\ d_extract_long_double "."%char s = Ok p.
Proof. exact low_lost. Qed.
Print Assumptions C97_low_part_refuted.

(** What is read from any text: the pair of the number the text denotes; its high part as a double; and
    that rounded to a float. *)
Theorem C97_reads : forall point s v, point_ok point -> reads point s v ->
  exists hi lo, pair_read_as v hi lo /\ d_extract_long_double point s = Ok (Pair hi lo) /\ d_extract_double point s = Ok hi /\
    exists z, d_extract_float point s = Ok z /\ narrowed 24 128 hi z.
Proof. exact pair_reads. Qed.
Print Assumptions C97_reads.

(** The doubles that are read back as themselves whatever their digits ... *)
Theorem C97_double_round_trip : forall e u s, nan_ok (e_float e) -> bits64 u -> double_finite u -> double_value u <> 0%R -> d_lexi e (PDouble u) = Ok s ->
  (Rabs (double_value u) < bpow radix2 (-1021))%R \/ (bpow radix2 (-1001) <= Rabs (double_value u))%R \/ Z.even u = true ->
  exists z, d_extract_double "."%char s = Ok z /\ same_double z u.
Proof. exact pair_round_trip. Qed.
Print Assumptions C97_double_round_trip.

(** ... and exactly when one is not; it is then read as one of its neighbours. *)
Theorem C97_double_exactly : forall e u s, nan_ok (e_float e) -> bits64 u -> double_finite u -> double_value u <> 0%R -> d_lexi e (PDouble u) = Ok s ->
  exists hi lo, d_extract_long_double "."%char s = Ok (Pair hi lo) /\ d_extract_double "."%char s = Ok hi /\
    SpecFloat.valid_binary 53 1024 hi = true /\ is_finite_SF hi = true /\ sign_SF hi = double_sign u /\
    let x := Rabs (double_value u) in let y := Rabs (SF2R radix2 hi + SF2R radix2 lo) in
    (pred radix2 (binary_format 53 1024) x <= Rabs (SF2R radix2 hi) <= succ radix2 (binary_format 53 1024) x)%R /\
    (~ same_double hi u <-> Z.even u = false /\ (y = (x + pred radix2 (binary_format 53 1024) x) / 2 \/ y = (x + succ radix2 (binary_format 53 1024) x) / 2)%R).
Proof. exact pair_or_tie. Qed.
Print Assumptions C97_double_exactly.

(** Floats are always read back. *)
Theorem C97_float_round_trip : forall e u s, nan_ok (e_float e) -> bits32 u -> float_finite u -> float_value u <> 0%R -> d_lexi e (PFloat u) = Ok s ->
  exists z, d_extract_float "."%char s = Ok z /\ same_float z u.
Proof. exact pair_float_round_trip. Qed.
Print Assumptions C97_float_round_trip.

(** 0.1 has a low part; the text of its high part gives the same pair; a number above the largest double
    whose high part is rounded to it; one that is rounded to infinity; and the smallest numbers. *)
Example C97_case : let e := linux_aarch64 zero_memory in let dot := "."%char in
  d_extract_long_double dot (str "0.1") = Ok (Pair (S754_finite false 7205759403792794 (-56)) (S754_finite true 7205759403792794 (-110))) /\
  d_lexi e (PLongDouble (Pair (S754_finite false 7205759403792794 (-56)) (S754_finite true 7205759403792794 (-110)))) = Ok (str "0.1") /\
  d_extract_long_double dot (str "1.7976931348623158e308") = Ok (Pair (S754_finite false 9007199254740991 971) (S754_finite false 8290781717170078 917)) /\
  d_extract_double dot (str "-1.797693134862315808e308") = Ok (S754_infinity true) /\
  d_extract_long_double dot (str "5e-324") = Ok (Pair (S754_finite false 1 (-1074)) (S754_zero false)) /\
  d_extract_float dot (str "-1e-60") = Ok (S754_zero true) /\ d_extract_double dot (str "") = Ok (S754_zero false) /\
  d_extract_double dot (str "-inf") = Ok (S754_infinity true) /\
  d_lexi e (PDouble 9327455228242893) = Ok (str "4.76660266577987e-308") /\
  d_extract_long_double dot (str "4.76660266577987e-308") = Ok (Pair (double_of_bits 9327455228242892) (S754_finite false 1 (-1074))).
Proof. cbv zeta. repeat (split; [vm_compute; reflexivity|]). vm_compute. reflexivity. Qed.
