(** C110: the numbers that a DiyFp stands for. *)
From Coq Require Import Reals.
From Flocq Require Import Core.
From Verif Require Import Machine SpecIeee SpecDiy ModelIeee ModelDiyfp ProofDiy.
Open Scope Z_scope.

(** A product is the nearest number with its exponent, upwards from the middle, and never overflows. *)
Theorem C110_product : forall cc x y, is_word (df x) -> is_word (df y) ->
  is_word (df (mul cc x y)) /\ de (mul cc x y) = de x + de y + 64 /\
  df x * df y - 2 ^ 63 < df (mul cc x y) * 2 ^ 64 <= df x * df y + 2 ^ 63 /\
  (Rabs (binary_value (df (mul cc x y)) (de (mul cc x y)) - binary_value (df x) (de x) * binary_value (df y) (de y))
     <= bpow radix2 (de (mul cc x y)) / 2)%R.
Proof. exact diy_product. Qed.
Print Assumptions C110_product.

(** A difference is exact if and only if it is not negative. *)
Theorem C110_difference : forall x y, is_word (df x) -> is_word (df y) -> de x = de y ->
  (binary_value (df (DiyFp_sub x y)) (de (DiyFp_sub x y)) = binary_value (df x) (de x) - binary_value (df y) (de y) <-> (df y <= df x)%Z)%R.
Proof. exact diy_difference. Qed.
Print Assumptions C110_difference.

(** Otherwise it is too large by 2^64 units. *)
Theorem C110_negative : forall x y, is_word (df x) -> is_word (df y) -> de x = de y -> df x < df y ->
  (binary_value (df (DiyFp_sub x y)) (de (DiyFp_sub x y)) = binary_value (df x) (de x) - binary_value (df y) (de y) + bpow radix2 (64 + de x))%R.
Proof. exact diy_negative. Qed.
Print Assumptions C110_negative.

(** Normalisation keeps the number and sets the first bit: exactly for significands below 2^53 in the generic version,
    and for all but zero in the others ... *)
Theorem C110_normalize : forall cc x, is_word (df x) -> df x <> 0 ->
  ((exists z, normalize cc x = Ok z /\ is_normal (df z) /\ binary_value (df z) (de z) = binary_value (df x) (de x)) <->
   (cc = Generic -> df x < 2 ^ 53)).
Proof. exact diy_normalize. Qed.
Print Assumptions C110_normalize.

(** ... and below 2^54 for boundaries, but for Microsoft's compiler. *)
Theorem C110_boundary : forall cc x, is_word (df x) -> df x <> 0 ->
  ((exists z, normalizeBoundary cc x = Ok z /\ is_normal (df z) /\ binary_value (df z) (de z) = binary_value (df x) (de x)) <->
   (cc <> MSVC64 -> df x < 2 ^ 54)).
Proof. exact diy_boundary. Qed.
Print Assumptions C110_boundary.

(** Zero cannot be normalised: undefined, or a loop that does not end. *)
Theorem C110_zero : forall x, df x = 0 ->
  (exists w, normalize MSVC64 x = UB w) /\ (exists w, normalize GNUC64 x = UB w) /\
  (forall fuel, shift_until fuel HIDDEN_BIT x = NoFuel).
Proof. exact diy_zero. Qed.
Print Assumptions C110_zero.

(** So not every number can be normalised: the loop of the generic version does not end for 2^53. *)
Theorem C110_normalize_refuted : exists x, is_word (df x) /\ df x <> 0 /\
  normalize Generic x = NoFuel /\ forall fuel, shift_until fuel HIDDEN_BIT x = NoFuel.
Proof.
  exists (MkDiyFp (2 ^ 53) 0). split; [split; [discriminate|reflexivity]|]. split; [discriminate|].
  split; [vm_compute; reflexivity|exact diy_for_ever].
Qed.
Print Assumptions C110_normalize_refuted.

(** The constructor from a double is exact, with a significand that every version can normalise. *)
Theorem C110_double : forall u, bits64 u -> double_finite u ->
  binary_value (df (DiyFp_of_double u)) (de (DiyFp_of_double u)) = Rabs (double_value u) /\
  0 <= df (DiyFp_of_double u) < 2 ^ 53 /\ (2 ^ 52 <= df (DiyFp_of_double u) \/ de (DiyFp_of_double u) = -1074).
Proof. exact diy_of_double. Qed.
Print Assumptions C110_double.

(** The boundaries of a double are the ends of the interval that rounds to it, with one exponent. *)
Theorem C110_boundaries : forall cc u, bits64 u -> double_finite u -> double_value u <> 0%R ->
  exists m p, normalizedBoundaries cc (DiyFp_of_double u) = Ok (m, p) /\ de m = de p /\ is_word (df m) /\ is_normal (df p) /\
    binary_value (df m) (de m) = lower_end (Rabs (double_value u)) /\
    binary_value (df p) (de p) = upper_end (Rabs (double_value u)).
Proof. exact diy_boundaries. Qed.
Print Assumptions C110_boundaries.

(** 3/2 squared, the largest significands, and 1.0 with its boundaries. *)
Example C110_case : let x := MkDiyFp 0xC000000000000000 (-63) in let m := MkDiyFp (2 ^ 64 - 1) 0 in
  mul GNUC64 x x = MkDiyFp 0x9000000000000000 (-62) /\ mul Generic m m = MkDiyFp (2 ^ 64 - 2) 64 /\
  normalize Generic (MkDiyFp 3 0) = Ok (MkDiyFp 0xC000000000000000 (-62)) /\
  DiyFp_of_double 0x3FF0000000000000 = MkDiyFp (2 ^ 52) (-52) /\
  normalizedBoundaries Generic (DiyFp_of_double 0x3FF0000000000000) =
    Ok (MkDiyFp (2 ^ 63 - 2 ^ 9) (-63), MkDiyFp (2 ^ 63 + 2 ^ 10) (-63)).
Proof. cbv zeta. repeat (split; [vm_compute; reflexivity|]). vm_compute. reflexivity. Qed.
