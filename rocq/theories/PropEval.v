(** Property C87: the decimal fast path in every rounding direction and in wider formats. *)
From Coq Require Import Reals Floats.SpecFloat.
From Flocq Require Import Core IEEE754.BinarySingleNaN.
From Verif Require Import Machine SpecNumber SpecIeee SpecRead SpecMore SpecDirected SpecTwice ModelFloat ModelDirected ModelStrtod ModelEval ProofEval.
Open Scope Z_scope.

(** The functions of ModelStrtod are those of the default evaluation. *)
Theorem C87_model : forall d p, valid_binary 53 1024 d = true ->
  e_fast (Evaluation ToNearest LD64) d p = fast d p /\
  e_StrtodNormalPrecision (Evaluation ToNearest LD64) d p = StrtodNormalPrecision d p.
Proof. exact plain_same. Qed.
Print Assumptions C87_model.

(** What is accepted does not depend on the direction and the format, ... *)
Theorem C87_accepted : forall ev d N p,
  valid_binary 53 1024 d = true -> is_finite_SF d = true -> SF2R radix2 d = IZR N -> 0 <= N ->
  ((exists r, e_fast ev d p = Ok (Some r)) <->
   (-22 <= p <= 22 /\ N < 2 ^ 53) \/ (22 < p < 38 /\ N * 10 ^ (p - 22) < 2 ^ 53)).
Proof. exact e_fast_accepts. Qed.
Print Assumptions C87_accepted.

(** ... and in the directed modes is correctly rounded, in every format, ... *)
Theorem C87_directed : forall ev d N p r, ev_direction ev <> ToNearest ->
  valid_binary 53 1024 d = true -> is_finite_SF d = true -> SF2R radix2 d = IZR N -> 0 <= N ->
  e_fast ev d p = Ok (Some r) ->
  directed (ev_direction ev) 53 1024 r (IZR N * bpow radix10 p) /\ sign_SF r = sign_SF d.
Proof. exact fast_directed. Qed.
Print Assumptions C87_directed.

(** ... also for significands that are negative or not integers, when the exponent is at most 22. *)
Theorem C87_directed_small : forall ev d p r, ev_direction ev <> ToNearest ->
  valid_binary 53 1024 d = true -> is_finite_SF d = true -> p <= 22 ->
  e_fast ev d p = Ok (Some r) ->
  directed (ev_direction ev) 53 1024 r (SF2R radix2 d * bpow radix10 p) /\ sign_SF r = sign_SF d.
Proof. exact fast_directed_small. Qed.
Print Assumptions C87_directed_small.

(** To nearest that is false of the x87 unit: 10375e22 is rounded twice. *)
Theorem C87_extended_refuted : exists d N p r,
  valid_binary 53 1024 d = true /\ is_finite_SF d = true /\ SF2R radix2 d = IZR N /\ 0 <= N /\
  e_fast (Evaluation ToNearest LD80) d p = Ok (Some r) /\ ~ rounded 53 1024 r false (IZR N * bpow radix10 p).
Proof. exact fast_extended_wrong. Qed.
Print Assumptions C87_extended_refuted.

(** Exactly when: the product in the wide format is in the middle of two doubles, and is rounded to
    the other side of it than the exact product. *)
Theorem C87_exactly : forall ev d N p r, ev_direction ev = ToNearest -> ev_format ev <> LD64 ->
  valid_binary 53 1024 d = true -> is_finite_SF d = true -> SF2R radix2 d = IZR N -> 0 <= N ->
  e_fast ev d p = Ok (Some r) ->
  let x := (IZR N * bpow radix10 p)%R in
  exists y, rounded (ld_prec (ev_format ev)) (ld_emax (ev_format ev)) y (sign_SF d) x /\
    (~ rounded 53 1024 r (sign_SF d) x <->
     is_finite_SF y = true /\ halfway 53 1024 (SF2R radix2 y) /\ (Rabs (SF2R radix2 y) < bpow radix2 1024)%R /\
     other_side 53 1024 (SF2R radix2 y) x).
Proof. exact fast_nearest_exactly. Qed.
Print Assumptions C87_exactly.

(** Scaling multiplies or divides by the double nearest to the power, rounded in the direction. *)
Theorem C87_scaling : forall ev d p, ev_direction ev <> ToNearest ->
  valid_binary 53 1024 d = true -> is_finite_SF d = true -> -308 <= p <= 308 ->
  exists r, e_StrtodNormalPrecision ev d p = Ok r /\ sign_SF r = sign_SF d /\
    directed (ev_direction ev) 53 1024 r
      (if 0 <=? p then SF2R radix2 d * nearest 53 1024 (bpow radix10 p)
       else SF2R radix2 d / nearest 53 1024 (bpow radix10 (- p)))%R.
Proof. exact scaling_directed. Qed.
Print Assumptions C87_scaling.

(** 1e-1 and 1e23 in each direction; 10375e22 in each format; an overflow. *)
Definition of_int (n : Z) : spec_float := SpecFloat.binary_normalize 53 1024 n 0 false.
Example C87_case :
  e_fast (Evaluation Downward LD64) (of_int 1) (-1) = Ok (Some (S754_finite false 7205759403792793 (-56))) /\
  e_fast (Evaluation TowardZero LD80) (of_int 1) (-1) = Ok (Some (S754_finite false 7205759403792793 (-56))) /\
  e_fast (Evaluation Upward LD80) (of_int 1) (-1) = Ok (Some (S754_finite false 7205759403792794 (-56))) /\
  e_fast (Evaluation ToNearest LD64) (of_int 1) 23 = Ok (Some (S754_finite false 5960464477539062 24)) /\
  e_fast (Evaluation Upward LD128) (of_int 1) 23 = Ok (Some (S754_finite false 5960464477539063 24)) /\
  e_fast (Evaluation Downward LD128) (of_int (-1)) 23 = Ok (Some (S754_finite true 5960464477539063 24)) /\
  e_fast (Evaluation ToNearest LD64) (of_int 10375) 22 = fast (of_int 10375) 22 /\
  e_fast (Evaluation ToNearest LD128) (of_int 10375) 22 = fast (of_int 10375) 22 /\
  e_fast (Evaluation ToNearest LD80) (of_int 10375) 22 <> fast (of_int 10375) 22 /\
  e_fast (Evaluation Downward LD64) (of_int (2 ^ 53)) 0 = Ok None /\
  e_StrtodNormalPrecision (Evaluation TowardZero LD64) (of_int 2) 308 = Ok (S754_finite false 9007199254740991 971) /\
  e_StrtodNormalPrecision (Evaluation ToNearest LD80) (of_int 2) 308 = Ok (S754_infinity false) /\
  e_StrtodNormalPrecision (Evaluation Upward LD80) (of_int 1) (-400) = Ok (S754_finite false 1 (-1074)) /\
  e_StrtodNormalPrecision (Evaluation Downward LD80) (of_int 1) (-400) = Ok (S754_zero false).
Proof.
  repeat (split; [first [vm_compute; reflexivity|vm_compute; intros H; discriminate H]|]). vm_compute. reflexivity.
Qed.
