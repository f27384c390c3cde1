(** Proofs about the numbers that a DiyFp stands for. *)
From Coq Require Import Reals Lra Lia.
From Flocq Require Import Core.
From Verif Require Import Machine LibMachine SpecApi SpecDecimal SpecNumber SpecIeee SpecDiy ModelIeee ModelDiyfp ModelDtoa
  ProofDiyfp ProofCached ProofDigits ProofGrisu ProofLayout ProofIeee ProofDtoa ProofNumber ProofShort ProofStrict ProofUnique
  ProofFloat ProofFloat2 ProofFloat3 ProofFloat4 ProofClose ProofOverrun ProofRead3 ProofWindow.
Open Scope Z_scope.
Ltac Zify.zify_post_hook ::= idtac.

Lemma value_shift f e n : 0 <= n -> binary_value (f * 2 ^ n) (e - n) = binary_value f e.
Proof.
  intros N. unfold binary_value. rewrite mult_IZR, pow2_bpow, Rmult_assoc, <- bpow_plus by exact N. do 2 f_equal. lia.
Qed.
Lemma value_same f e f' e' : binary_value f e = binary_value f' e' -> e' <= e -> f' = f * 2 ^ (e - e').
Proof.
  intros E L. rewrite <- (value_shift f e (e - e')) in E by lia. replace (e - (e - e')) with e' in E by lia.
  unfold binary_value in E. apply Rmult_eq_reg_r in E; [|apply Rgt_not_eq, bpow_gt_0]. symmetry. apply eq_IZR. exact E.
Qed.

(** ** Products and differences *)
Theorem diy_product : forall cc x y, is_word (df x) -> is_word (df y) ->
  is_word (df (mul cc x y)) /\ de (mul cc x y) = de x + de y + 64 /\
  df x * df y - 2 ^ 63 < df (mul cc x y) * 2 ^ 64 <= df x * df y + 2 ^ 63 /\
  (Rabs (binary_value (df (mul cc x y)) (de (mul cc x y)) - binary_value (df x) (de x) * binary_value (df y) (de y))
     <= bpow radix2 (de (mul cc x y)) / 2)%R.
Proof.
  intros cc x y X Y. unfold is_word in *. rewrite mul_ok by assumption. cbn [df de].
  pose proof (Z.div_mod (df x * df y + 2 ^ 63) (2 ^ 64) ltac:(lia)) as D.
  pose proof (Z.mod_pos_bound (df x * df y + 2 ^ 63) (2 ^ 64) ltac:(lia)) as M.
  fold (mul_high (df x) (df y)) in D.
  assert (P : 0 <= df x * df y <= (2 ^ 64 - 1) * (2 ^ 64 - 1)) by nia.
  split; [nia|]. split; [reflexivity|]. split; [lia|].
  pose proof (mul_high_R (df x) (df y) ltac:(lia) ltac:(lia)) as R. unfold binary_value.
  replace (IZR (mul_high (df x) (df y)) * bpow radix2 (de x + de y + 64) - IZR (df x) * bpow radix2 (de x) * (IZR (df y) * bpow radix2 (de y)))%R
    with ((IZR (mul_high (df x) (df y)) - IZR (df x) * IZR (df y) * bpow radix2 (-64)) * bpow radix2 (de x + de y + 64))%R.
  - rewrite Rabs_mult, (Rabs_pos_eq (bpow _ _)) by apply bpow_ge_0.
    pose proof (bpow_gt_0 radix2 (de x + de y + 64)). nra.
  - rewrite Rmult_minus_distr_r. f_equal.
    replace (bpow radix2 (de x + de y + 64)) with (bpow radix2 (de x) * bpow radix2 (de y) * bpow radix2 64)%R by (rewrite <- !bpow_plus; reflexivity).
    assert (O : (bpow radix2 (-64) * bpow radix2 64 = 1)%R) by (rewrite <- bpow_plus; reflexivity).
    transitivity (IZR (df x) * IZR (df y) * bpow radix2 (de x) * bpow radix2 (de y) * (bpow radix2 (-64) * bpow radix2 64))%R; [ring|].
    rewrite O. ring.
Qed.

Theorem diy_difference : forall x y, is_word (df x) -> is_word (df y) -> de x = de y ->
  (binary_value (df (DiyFp_sub x y)) (de (DiyFp_sub x y)) = binary_value (df x) (de x) - binary_value (df y) (de y) <-> (df y <= df x)%Z)%R.
Proof.
  intros x y X Y E. unfold is_word in *. unfold DiyFp_sub. cbn [df de]. unfold binary_value. rewrite <- E.
  rewrite <- Rmult_minus_distr_r, <- minus_IZR. split.
  - intros V. apply Rmult_eq_reg_r in V; [|apply Rgt_not_eq, bpow_gt_0]. apply eq_IZR in V.
    unfold u64 in V. pose proof (Z.mod_pos_bound (df x - df y) (2 ^ 64) ltac:(lia)). lia.
  - intros L. rewrite u64_small by lia. reflexivity.
Qed.

Theorem diy_negative : forall x y, is_word (df x) -> is_word (df y) -> de x = de y -> df x < df y ->
  (binary_value (df (DiyFp_sub x y)) (de (DiyFp_sub x y)) = binary_value (df x) (de x) - binary_value (df y) (de y) + bpow radix2 (64 + de x))%R.
Proof.
  intros x y X Y E L. unfold is_word in *. unfold DiyFp_sub. cbn [df de]. unfold binary_value. rewrite <- E.
  assert (M : u64 (df x - df y) = df x - df y + 2 ^ 64).
  { unfold u64. symmetry. apply (Z.mod_unique_pos _ _ (-1)); lia. }
  rewrite M, plus_IZR, minus_IZR, bpow_plus. change (IZR (2 ^ 64)) with (bpow radix2 64). ring.
Qed.

(** ** Normalisation *)
Lemma normalized_value x : 0 < df x < 2 ^ 64 -> is_normal (df (normalized x)) /\
  binary_value (df (normalized x)) (de (normalized x)) = binary_value (df x) (de x).
Proof.
  intros H. cbn [normalized df de]. split; [apply lead_shift_value; exact H|]. apply value_shift.
  pose proof (lead_shift_bounds (df x) 64 ltac:(lia) ltac:(lia) ltac:(lia)). lia.
Qed.

Lemma shift_until_e fuel mask : forall x z, shift_until fuel mask x = Ok z -> de z <= de x.
Proof.
  induction fuel as [|fuel IH]; intros x z; cbn [shift_until]; destruct (_ =? 0); try discriminate.
  - intros [= <-]. lia.
  - intros E. apply IH in E. cbn [de] in E. lia.
  - intros [= <-]. lia.
Qed.

Lemma generic_lossy n mask x z : 0 <= n < 64 -> 2 ^ (64 - n) <= df x ->
  (let* res := shift_until 64 mask x in let* f := shl64 (df res) n in Ok (MkDiyFp f (de res - n))) = Ok z ->
  is_normal (df z) -> binary_value (df z) (de z) = binary_value (df x) (de x) -> False.
Proof.
  intros N L E NZ V. destruct (shift_until 64 mask x) as [res| | |] eqn:S; try discriminate E. cbn [bind] in E.
  apply shift_until_e in S. destruct (shl64 (df res) n) as [f| | |]; try discriminate E. cbn [bind] in E. injection E as <-.
  cbn [df de] in *. symmetry in V. apply value_same in V; [|lia].
  unfold is_normal in NZ. assert (2 ^ n <= 2 ^ (de x - (de res - n))) by (apply Z.pow_le_mono_r; lia).
  assert (P : 2 ^ 64 = 2 ^ (64 - n) * 2 ^ n) by (rewrite <- Z.pow_add_r by lia; f_equal; lia).
  assert (0 < 2 ^ n) by (apply Z.pow_pos_nonneg; lia). assert (0 < 2 ^ (64 - n)) by (apply Z.pow_pos_nonneg; lia). nia.
Qed.

Lemma normalize_lossy x z : 2 ^ 53 <= df x -> normalize_generic x = Ok z ->
  is_normal (df z) -> binary_value (df z) (de z) = binary_value (df x) (de x) -> False.
Proof.
  intros L. unfold normalize_generic. apply (generic_lossy (DIY_SIGNIFICAND_SIZE - DP_SIGNIFICAND_SIZE - 1) HIDDEN_BIT x z);
    [split; [discriminate|reflexivity]|exact L].
Qed.
Lemma boundary_lossy x z : 2 ^ 54 <= df x -> normalizeBoundary_generic x = Ok z ->
  is_normal (df z) -> binary_value (df z) (de z) = binary_value (df x) (de x) -> False.
Proof.
  intros L. unfold normalizeBoundary_generic.
  apply (generic_lossy (DIY_SIGNIFICAND_SIZE - DP_SIGNIFICAND_SIZE - 2) (Z.shiftl HIDDEN_BIT 1) x z);
    [split; [discriminate|reflexivity]|exact L].
Qed.

Theorem diy_normalize : forall cc x, is_word (df x) -> df x <> 0 ->
  ((exists z, normalize cc x = Ok z /\ is_normal (df z) /\ binary_value (df z) (de z) = binary_value (df x) (de x)) <->
   (cc = Generic -> df x < 2 ^ 53)).
Proof.
  intros cc x X NZ. unfold is_word in X. split.
  - intros (z & E & A & B) ->. destruct (Z_lt_le_dec (df x) (2 ^ 53)) as [L|L]; [exact L|exfalso].
    assert (E' : normalize_generic x = Ok z) by (rewrite <- E; cbn [normalize]; reflexivity). exact (normalize_lossy x z L E' A B).
  - intros C. exists (normalized x). destruct (normalized_value x ltac:(lia)) as [A B]. split; [|auto].
    destruct cc; [apply normalize_msvc_ok; lia|apply normalize_gnuc_ok; lia|apply normalize_ok; specialize (C eq_refl); lia].
Qed.

Theorem diy_boundary : forall cc x, is_word (df x) -> df x <> 0 ->
  ((exists z, normalizeBoundary cc x = Ok z /\ is_normal (df z) /\ binary_value (df z) (de z) = binary_value (df x) (de x)) <->
   (cc <> MSVC64 -> df x < 2 ^ 54)).
Proof.
  intros cc x X NZ. unfold is_word in X. split.
  - intros (z & E & A & B) C. destruct (Z_lt_le_dec (df x) (2 ^ 54)) as [L|L]; [exact L|exfalso].
    assert (E' : normalizeBoundary_generic x = Ok z) by (destruct cc; [congruence|rewrite <- E; cbn [normalizeBoundary]; reflexivity..]).
    exact (boundary_lossy x z L E' A B).
  - intros C. exists (normalized x). destruct (normalized_value x ltac:(lia)) as [A B]. split; [|auto].
    destruct cc; [apply normalize_msvc_ok; lia|apply normalizeBoundary_ok; assert (df x < 2 ^ 54) by (apply C; discriminate); lia..].
Qed.

(** A loop that has shifted out every bit goes on for ever. *)
Lemma shift_zero mask e fuel : shift_until fuel mask (MkDiyFp 0 e) = NoFuel.
Proof. revert e; induction fuel as [|fuel IH]; intros e; cbn [shift_until df de]; [reflexivity|apply IH]. Qed.

Theorem diy_zero : forall x, df x = 0 ->
  (exists w, normalize MSVC64 x = UB w) /\ (exists w, normalize GNUC64 x = UB w) /\
  (forall fuel, shift_until fuel HIDDEN_BIT x = NoFuel).
Proof.
  intros [f e]. cbn [df]. intros ->. split; [eexists; reflexivity|]. split; [eexists; reflexivity|].
  intros fuel. apply shift_zero.
Qed.

Theorem diy_for_ever : forall fuel, shift_until fuel HIDDEN_BIT (MkDiyFp (2 ^ 53) 0) = NoFuel.
Proof.
  intros fuel. do 11 (destruct fuel as [|fuel]; [reflexivity|cbn [shift_until df de]; change (Z.land _ HIDDEN_BIT =? 0) with true; cbn iota]).
  change (u64 (Z.shiftl _ 1)) with 0. apply shift_zero.
Qed.

(** ** Doubles and their boundaries *)
Theorem diy_of_double : forall u, bits64 u -> double_finite u ->
  binary_value (df (DiyFp_of_double u)) (de (DiyFp_of_double u)) = Rabs (double_value u) /\
  0 <= df (DiyFp_of_double u) < 2 ^ 53 /\ (2 ^ 52 <= df (DiyFp_of_double u) \/ de (DiyFp_of_double u) = -1074).
Proof.
  intros u H F. rewrite DiyFp_of_double_eq. cbn [df de].
  destruct (dbl_range u ltac:(unfold bits64 in H; lia) (proj1 (double_finite_iff u H) F)) as (A & _ & B).
  split; [|auto]. rewrite double_value_eq by assumption. change (binary_value (dbl_f u) (dbl_e u)) with (dbl_R u).
  assert (0 <= dbl_R u)%R by (unfold dbl_R; apply Rmult_le_pos; [apply IZR_le; lia|apply bpow_ge_0]).
  destruct (sign_field u); [rewrite Rabs_Ropp|]; rewrite Rabs_pos_eq; auto.
Qed.

Theorem diy_boundaries : forall cc u, bits64 u -> double_finite u -> double_value u <> 0%R ->
  exists m p, normalizedBoundaries cc (DiyFp_of_double u) = Ok (m, p) /\ de m = de p /\ is_word (df m) /\ is_normal (df p) /\
    binary_value (df m) (de m) = lower_end (Rabs (double_value u)) /\
    binary_value (df p) (de p) = upper_end (Rabs (double_value u)).
Proof.
  intros cc u H F N.
  assert (FP : finite_pos (u mod 2 ^ 63)) by (apply abs_finite; [exact H|apply double_finite_iff; assumption|apply nonzero_field; assumption]).
  rewrite abs_double by assumption. rewrite DiyFp_of_double_eq.
  assert (DM : dbl_f (u mod 2 ^ 63) = dbl_f u /\ dbl_e (u mod 2 ^ 63) = dbl_e u) by (destruct (dbl_mod u H) as [-> ->]; auto).
  destruct DM as [<- <-]. set (v := u mod 2 ^ 63) in *.
  destruct (finite_pos_f v FP) as [Hf He]. destruct (boundary_gaps (dbl_f v) Hf) as (_ & _ & _ & _ & G1 & _ & G2).
  eexists _, _. split; [apply normalizedBoundaries_ok; exact Hf|]. cbn [df de]. fold (norm_e v).
  split; [reflexivity|]. split; [unfold is_word; lia|]. split; [apply plus_f_range; exact Hf|].
  unfold binary_value. split.
  - rewrite minus_f_R by exact FP. symmetry. apply lower_end_eq. exact FP.
  - rewrite plus_f_R by exact FP. unfold upper_end. rewrite upper_is_mid by exact FP. reflexivity.
Qed.
