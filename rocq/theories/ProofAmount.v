(** Decimals with few places, read as double and printed (C79). *)
From Coq Require Import Reals Lra Psatz Floats.SpecFloat.
From Flocq Require Import Core Relative.
From Flocq Require IEEE754.Binary IEEE754.Bits.
From Flocq Require Import IEEE754.BinarySingleNaN.
From Verif Require Import Machine LibMachine SpecApi SpecDecimal SpecInt SpecNumber SpecIeee SpecString SpecLayout SpecJson SpecRead SpecMore SpecAmount
  ModelItoa ModelInt ModelText ModelIeee ModelDiyfp ModelDtoa
  ModelFloat ModelLexi ModelPlatforms ProofDiyfp ProofCached ProofDigits ProofGrisu ProofLayout ProofText ProofInt ProofIeee ProofDtoa ProofNumber
  ProofRound ProofStrict ProofUnique ProofShort ProofApi ProofFloat ProofFloat2 ProofFloat3 ProofFloat4 ProofRead ProofRead2 ProofRead3 ProofMore ProofMore3 ProofMore5.
Open Scope Z_scope.
Ltac Zify.zify_post_hook ::= idtac.

Open Scope R_scope.

(** A decimal with [k] places is not close to an odd multiple of a smaller power of two. *)
Lemma odd_apart D k m x : (0 <= k)%Z -> (x + k < 0)%Z ->
  bpow radix2 x / IZR (5 ^ k) <= Rabs (IZR D / IZR (10 ^ k) - IZR (2 * m + 1) * bpow radix2 x).
Proof.
  intros K X.
  set (j := (D * 2 ^ (- x - k) - (2 * m + 1) * 5 ^ k)%Z).
  assert (O : (1 <= Z.abs j)%Z).
  { assert (J : Z.odd j = true).
    { unfold j. rewrite Z.odd_sub, !Z.odd_mul. 
      assert (O5 : Z.odd (5 ^ k) = true) by (destruct (Z.eq_dec k 0) as [->|]; [reflexivity|rewrite Z.odd_pow by lia; reflexivity]). rewrite O5.
      replace (- x - k)%Z with (Z.succ (- x - k - 1)) by lia. rewrite Z.pow_succ_r by lia. rewrite Z.odd_mul.
      replace (Z.odd (2 * m + 1)) with true by (rewrite Z.odd_add, Z.odd_mul; reflexivity).
      cbn. rewrite Bool.andb_false_r. reflexivity. }
    destruct (Z.eq_dec j 0) as [E|E]; [rewrite E in J; discriminate J|lia]. }
  assert (P5 : 0 < IZR (5 ^ k)) by (apply IZR_lt, Z.pow_pos_nonneg; lia).
  assert (P2 : 0 < IZR (2 ^ k)) by (apply IZR_lt, Z.pow_pos_nonneg; lia).
  assert (T : (10 ^ k = 2 ^ k * 5 ^ k)%Z) by (rewrite <- Z.pow_mul_l; reflexivity).
  pose proof (bpow_gt_0 radix2 x) as PB.
  assert (B : IZR (2 ^ (- x - k)) * bpow radix2 x * IZR (2 ^ k) = 1).
  { change 2%Z with (radix_val radix2). rewrite !IZR_Zpower by lia. rewrite <- !bpow_plus.
    replace (- x - k + x + k)%Z with 0%Z by lia. reflexivity. }
  assert (E : IZR D / IZR (10 ^ k) - IZR (2 * m + 1) * bpow radix2 x = IZR j * (bpow radix2 x / IZR (5 ^ k))).
  { unfold j. rewrite minus_IZR, !(mult_IZR _ (5 ^ k)), (mult_IZR D), T, (mult_IZR (2 ^ k)).
    apply Rmult_eq_reg_r with (IZR (2 ^ k) * IZR (5 ^ k)); [|nra].
    replace ((IZR D / (IZR (2 ^ k) * IZR (5 ^ k)) - IZR (2 * m + 1) * bpow radix2 x) * (IZR (2 ^ k) * IZR (5 ^ k)))
      with (IZR D * 1 - IZR (2 * m + 1) * bpow radix2 x * (IZR (2 ^ k) * IZR (5 ^ k))) by (field; lra).
    rewrite <- B. field. lra. }
  rewrite E, Rabs_mult. assert (Q : 0 < bpow radix2 x / IZR (5 ^ k)) by (apply Rdiv_lt_0_compat; assumption).
  rewrite (Rabs_pos_eq (bpow radix2 x / IZR (5 ^ k))) by lra.
  rewrite <- abs_IZR. assert (1 <= IZR (Z.abs j)) by (apply IZR_le; exact O). nra.
Qed.

Lemma five_power k : (0 <= k <= 3)%Z -> 1 <= IZR (5 ^ k) <= 125.
Proof. intros H. assert (C : (k = 0 \/ k = 1 \/ k = 2 \/ k = 3)%Z) by lia. destruct C as [->|[->|[->| ->]]]; cbn; lra. Qed.

Lemma apart_250 D k m x : (0 <= k <= 3)%Z -> (x < -3)%Z ->
  bpow radix2 x / 125 <= Rabs (IZR D / IZR (10 ^ k) - IZR (2 * m + 1) * bpow radix2 x).
Proof.
  intros K X. pose proof (odd_apart D k m x ltac:(lia) ltac:(lia)) as A. destruct (five_power k K) as [F1 F2].
  eapply Rle_trans; [|exact A]. pose proof (bpow_gt_0 radix2 x) as P. unfold Rdiv. apply Rmult_le_compat_l; [lra|].
  apply Rinv_le; lra.
Qed.

Lemma amount_bounds D k : (0 < D < 10 ^ 15)%Z -> (0 <= k <= 3)%Z ->
  / 1000 <= IZR D / IZR (10 ^ k) <= IZR (10 ^ 15).
Proof.
  intros HD HK. assert (A : 1 <= IZR D <= IZR (10 ^ 15)) by (split; apply IZR_le; lia). set (M := IZR (10 ^ 15)) in *. clearbody M.
  assert (C : (k = 0 \/ k = 1 \/ k = 2 \/ k = 3)%Z) by lia. destruct C as [->|[->|[->| ->]]];
    [change (IZR (10 ^ 0)) with 1|change (IZR (10 ^ 1)) with 10|change (IZR (10 ^ 2)) with 100|change (IZR (10 ^ 3)) with 1000]; lra.
Qed.

(** The unit of doubles that large. *)
Lemma small_unit v : finite_pos v -> dbl_R v < bpow radix2 50 -> bpow radix2 (-1022) <= dbl_R v -> (dbl_e v <= -3)%Z.
Proof.
  intros FP B N. pose proof (normal_significand v FP N) as S.
  destruct (Z.le_gt_cases (dbl_e v) (-3)) as [|C]; [assumption|exfalso].
  assert (X : bpow radix2 52 * bpow radix2 (-2) <= dbl_R v).
  { unfold dbl_R. change (bpow radix2 52) with (IZR (2 ^ 52)). apply Rmult_le_compat; [apply IZR_le; lia|apply bpow_ge_0|apply IZR_le; exact S|apply bpow_le; lia]. }
  rewrite <- bpow_plus in X. change (52 + -2)%Z with 50%Z in X. lra.
Qed.

(** The nearest double of an amount is not near the middle to a neighbour. *)
Lemma amount_inside v D k : finite_pos v -> (0 < D < 10 ^ 15)%Z -> (0 <= k <= 3)%Z ->
  nearest 53 1024 (IZR D / IZR (10 ^ k)) = dbl_R v ->
  bpow radix2 (-1022) <= dbl_R v /\
  lower_R v + bpow radix2 (dbl_e v) / 500 <= IZR D / IZR (10 ^ k) <= upper_R v - bpow radix2 (dbl_e v) / 500.
Proof.
  intros FP HD HK NE. destruct (amount_bounds D k HD HK) as [A1 A2]. set (y := IZR D / IZR (10 ^ k)) in *.
  assert (G50 : IZR (10 ^ 15) < bpow radix2 50 - 1) by (change (IZR (10 ^ 15)) with 1000000000000000; change (bpow radix2 50) with 1125899906842624; lra).
  assert (N1 : bpow radix2 (-1022) <= dbl_R v).
  { rewrite <- NE. apply Rle_trans with (bpow radix2 (-10)); [apply bpow_le; lia|].
    unfold nearest. apply round_ge_generic; [apply FLT_exp_valid; reflexivity|typeclasses eauto|apply generic_format_FLT_bpow; [reflexivity|lia]|].
    cbn. lra. }
  assert (N2 : dbl_R v < bpow radix2 50).
  { apply Rle_lt_trans with (IZR (10 ^ 15)); [|lra]. rewrite <- NE. unfold nearest.
    apply round_le_generic; [apply FLT_exp_valid; reflexivity|typeclasses eauto| |exact A2].
    apply (integer_format 53 1024); lia. }
  split; [exact N1|]. pose proof (small_unit v FP N2 N1) as SE. pose proof (normal_significand v FP N1) as SF.
  destruct (finite_pos_f v FP) as [Hf He]. pose proof (dbl_R_pos v FP) as PV. pose proof (dbl_format v FP) as FF.
  pose proof (bpow_gt_0 radix2 (dbl_e v)) as PB.
  assert (B1 : bpow radix2 (dbl_e v - 1) = bpow radix2 (dbl_e v) / 2).
  { replace (dbl_e v - 1)%Z with (dbl_e v + -1)%Z by lia. rewrite bpow_plus. reflexivity. }
  assert (B2 : bpow radix2 (dbl_e v - 2) = bpow radix2 (dbl_e v) / 4).
  { replace (dbl_e v - 2)%Z with (dbl_e v + -2)%Z by lia. rewrite bpow_plus. reflexivity. }
  assert (U : y <= upper_R v).
  { destruct (Rle_or_lt y (upper_R v)) as [|C]; [assumption|exfalso]. rewrite (upper_is_mid v FP) in C.
    assert (X : succ radix2 fexp64 (dbl_R v) <= nearest 53 1024 y).
    { apply (round_N_ge_midp radix2 fexp64); [apply generic_format_succ; [typeclasses eauto|exact FF]|].
      rewrite pred_succ by (try typeclasses eauto; exact FF). lra. }
    rewrite NE in X. pose proof (succ_gt_id radix2 fexp64 (dbl_R v)). lra. }
  assert (L : lower_R v <= y).
  { destruct (Rle_or_lt (lower_R v) y) as [|C]; [assumption|exfalso].
    assert (LE : lower_R v = (dbl_R v + pred radix2 fexp64 (dbl_R v)) / 2).
    { rewrite <- lower_end_eq by exact FP. unfold lower_end. rewrite Req_bool_false; [reflexivity|].
      intros E. pose proof (round_ge_generic radix2 fexp64 ZnearestE (bpow radix2 (-10)) y) as R.
      assert (bpow radix2 (-10) <= dbl_R v).
      { rewrite <- NE. apply R; [apply generic_format_FLT_bpow; [reflexivity|lia]|cbn; lra]. }
      pose proof (bpow_lt radix2 (-1022) (-10) ltac:(lia)). lra. }
    rewrite LE in C.
    assert (X : nearest 53 1024 y <= pred radix2 fexp64 (dbl_R v)).
    { apply (round_N_le_midp radix2 fexp64); [apply generic_format_pred; [typeclasses eauto|exact FF]|].
      rewrite succ_pred by (try typeclasses eauto; exact FF). lra. }
    rewrite NE in X. pose proof (pred_lt_id radix2 fexp64 (dbl_R v) ltac:(lra)). lra. }
  split.
  - unfold lower_R in *. destruct (dbl_f v =? 2 ^ 52)%Z.
    + pose proof (apart_250 D k (2 * dbl_f v - 1) (dbl_e v - 2) HK ltac:(lia)) as A. fold y in A.
      replace (2 * (2 * dbl_f v - 1) + 1)%Z with (4 * dbl_f v - 1)%Z in A by lia. rewrite Rabs_pos_eq in A by lra. lra.
    + pose proof (apart_250 D k (dbl_f v - 1) (dbl_e v - 1) HK ltac:(lia)) as A. fold y in A.
      replace (2 * (dbl_f v - 1) + 1)%Z with (2 * dbl_f v - 1)%Z in A by lia. rewrite Rabs_pos_eq in A by lra. lra.
  - unfold upper_R in *. pose proof (apart_250 D k (dbl_f v) (dbl_e v - 1) HK ltac:(lia)) as A. fold y in A.
    rewrite Rabs_minus_sym, Rabs_pos_eq in A by lra. lra.
Qed.

Lemma ten_inverse D k : (0 <= k)%Z -> IZR D * bpow radix10 (- k) = IZR D / IZR (10 ^ k).
Proof. intros H. rewrite bpow_opp, <- IZR_Zpower by exact H. reflexivity. Qed.

Lemma amount_abs x : amount x -> exists D k, (0 < D < 10 ^ 15)%Z /\ (0 <= k <= 3)%Z /\ Rabs x = IZR D / IZR (10 ^ k).
Proof.
  intros (D & k & HD & HK & ->). exists (Z.abs D), k. split; [exact HD|]. split; [exact HK|].
  assert (P : 0 < IZR (10 ^ k)) by (apply IZR_lt, Z.pow_pos_nonneg; lia).
  unfold Rdiv. rewrite Rabs_mult, abs_IZR, (Rabs_pos_eq (/ _)); [reflexivity|]. left. apply Rinv_0_lt_compat. exact P.
Qed.

Lemma nearest_abs p q x : (0 < p)%Z -> nearest p q (Rabs x) = Rabs (nearest p q x).
Proof.
  intros P. unfold Rabs at 1. destruct (Rcase_abs x) as [H|H].
  - pose proof (nearest_neg p q true x) as E. cbn [neg_if] in E. rewrite E.
    pose proof (nearest_le p q x 0 P ltac:(lra)) as X. rewrite nearest_zero in X by exact P. rewrite Rabs_left1 by exact X. reflexivity.
  - pose proof (nearest_le p q 0 x P ltac:(lra)) as X. rewrite nearest_zero in X by exact P. rewrite Rabs_pos_eq by exact X. reflexivity.
Qed.

(** What is printed for the nearest double of an amount. *)
Lemma amount_printed e u s n x : bits64 u -> double_finite u -> lexi e (VDouble u) = Ok s -> json_number s n ->
  amount x -> double_value u = nearest 53 1024 x -> n_value n = x.
Proof.
  intros H Fi L J AX NX. destruct (amount_abs x AX) as (D & k & HD & HK & EX).
  destruct (amount_bounds D k HD HK) as [A1 A2].
  assert (ND : nearest 53 1024 (IZR D / IZR (10 ^ k)) = Rabs (double_value u)) by (rewrite <- EX, nearest_abs, NX by lia; reflexivity).
  assert (N : double_value u <> 0).
  { intros Z0. rewrite Z0, Rabs_R0 in ND.
    assert (bpow radix2 (-10) <= nearest 53 1024 (IZR D / IZR (10 ^ k))).
    { unfold nearest. apply round_ge_generic; [apply FLT_exp_valid; reflexivity|typeclasses eauto|apply generic_format_FLT_bpow; [reflexivity|lia]|].
      change (bpow radix2 (-10)) with (/ 1024). lra. }
    pose proof (bpow_gt_0 radix2 (-10)). lra. }
  destruct (finite_number e u s H Fi N L) as (ds & K & F0 & E & kk & kap & FP & G & GD & GE & Es & J' & M & V & Bn & DV).
  pose proof (dbl_R_pos _ FP) as PV.
  assert (EA : Rabs (double_value u) = dbl_R (u mod 2 ^ 63)) by (rewrite DV; apply Rabs_neg_if; lra).
  rewrite EA in ND. destruct (amount_inside _ D k FP HD HK ND) as [I1 I2].
  pose proof (json_number_unique _ _ _ J J') as ->.
  assert (MM : n_magnitude (layout_number (sign_field u) ds K) = IZR D * bpow radix10 (- k)).
  { apply (short_decimal_back e u s _ D (- k)%Z H Fi L J HD); rewrite EA; [exact I1|].
    rewrite lower_end_eq, dbl_ulp by exact FP. unfold upper_end. rewrite <- upper_is_mid by exact FP.
    rewrite ten_inverse by lia. exact I2. }
  rewrite V, <- M, MM, ten_inverse, <- EX by lia.
  assert (X0 : 0 < Rabs x) by (rewrite EX; lra).
  rewrite DV in NX. destruct (sign_field u); cbn [neg_if] in *.
  - destruct (Rle_or_lt 0 x) as [C|C]; [exfalso|rewrite Rabs_left by exact C; ring].
    pose proof (nearest_le 53 1024 0 x ltac:(lia) C) as Q. rewrite nearest_zero in Q by lia. lra.
  - destruct (Rle_or_lt 0 x) as [C|C]; [apply Rabs_pos_eq; exact C|exfalso].
    pose proof (nearest_le 53 1024 x 0 ltac:(lia) ltac:(lra)) as Q. rewrite nearest_zero in Q by lia. lra.
Qed.

(** ** Reading *)

Lemma halfway_odd w : halfway 53 1024 w -> exists m c, Rabs w = IZR (2 * m + 1) * bpow radix2 (c - 1) /\ (0 <= m < 2 ^ 53)%Z /\
  (-1074 <= c)%Z /\ ((2 ^ 52 <= m)%Z \/ c = (-1074)%Z).
Proof.
  intros (a & F & A & ->). rewrite succ_eq_pos by exact A.
  destruct (Req_dec a 0) as [->|N].
  - exists 0%Z, (-1074)%Z. unfold binary_format. rewrite ulp_FLT_0 by reflexivity. split; [|split; [lia|split; [lia|right; reflexivity]]].
    change (3 - 1024 - 53)%Z with (-1074)%Z. change (-1074 - 1)%Z with (-1074 + -1)%Z. rewrite bpow_plus.
    change (bpow radix2 (-1)) with (/ 2). change (2 * 0 + 1)%Z with 1%Z. field.
  - rewrite ulp_neq_0 by exact N. set (c := cexp radix2 (binary_format 53 1024) a).
    exists (Ztrunc (scaled_mantissa radix2 (binary_format 53 1024) a)), c.
    assert (E : a = IZR (Ztrunc (scaled_mantissa radix2 (binary_format 53 1024) a)) * bpow radix2 c) by exact F.
    set (m := Ztrunc (scaled_mantissa radix2 (binary_format 53 1024) a)) in *. clearbody m.
    assert (B1 : bpow radix2 (c - 1) = bpow radix2 c / 2).
    { replace (c - 1)%Z with (c + -1)%Z by lia. rewrite bpow_plus. reflexivity. }
    pose proof (bpow_gt_0 radix2 c) as PC. pose proof (bpow_mag_gt radix2 a) as U. pose proof (bpow_mag_le radix2 a N) as W.
    rewrite Rabs_pos_eq in U, W by exact A.
    split; [|split; [split|split]].
    + rewrite B1, plus_IZR, mult_IZR. rewrite E. field.
    + apply le_IZR. apply Rmult_le_reg_r with (bpow radix2 c); [exact PC|]. lra.
    + apply lt_IZR. apply Rmult_lt_reg_r with (bpow radix2 c); [exact PC|]. rewrite <- E. change (IZR (2 ^ 53)) with (bpow radix2 53).
      rewrite <- bpow_plus. eapply Rlt_le_trans; [exact U|]. apply bpow_le. unfold c, cexp, binary_format, FLT_exp. lia.
    + unfold c, cexp, binary_format, FLT_exp. lia.
    + destruct (Z_le_gt_dec (mag radix2 a - 53) (-1074)) as [C|C]; [right; unfold c, cexp, binary_format, FLT_exp; lia|left].
      apply le_IZR. apply Rmult_le_reg_r with (bpow radix2 c); [exact PC|]. rewrite <- E. change (IZR (2 ^ 52)) with (bpow radix2 52).
      rewrite <- bpow_plus. eapply Rle_trans; [|exact W]. apply bpow_le. unfold c, cexp, binary_format, FLT_exp. lia.
Qed.

Lemma amount_no_tie p q x w : (64 <= p)%Z -> (1024 <= q)%Z -> amount x -> halfway 53 1024 w ->
  Rabs (x - w) <= ulp radix2 (binary_format p q) x / 2 -> False.
Proof.
  intros HP HQ AX HW B. destruct (amount_abs x AX) as (D & k & HD & HK & EX). destruct (amount_bounds D k HD HK) as [A1 A2].
  rewrite <- EX in A1, A2. destruct (halfway_odd w HW) as (m & c & EW & Hm & Hc & Hn).
  assert (B' : Rabs (Rabs x - Rabs w) <= Rabs x * bpow radix2 (-64)).
  { eapply Rle_trans; [apply Rabs_triang_inv2|]. eapply Rle_trans; [exact B|].
    assert (U : ulp radix2 (binary_format p q) x <= Rabs x * bpow radix2 (1 - p)).
    { assert (PG : Prec_gt_0 p) by (unfold Prec_gt_0; lia). unfold binary_format. apply ulp_FLT_le. eapply Rle_trans; [|exact A1].
      apply Rle_trans with (bpow radix2 (-10)); [apply bpow_le; lia|]. change (bpow radix2 (-10)) with (/ 1024). lra. }
    assert (Q : bpow radix2 (1 - p) <= bpow radix2 (-63)) by (apply bpow_le; lia).
    change (-63)%Z with (1 + -64)%Z in Q. rewrite bpow_plus in Q. change (bpow radix2 1) with 2 in Q. nra. }
  set (t := bpow radix2 (-64)) in *. set (W := Rabs w) in *. set (b := bpow radix2 (c - 1)) in *.
  assert (T : t * bpow radix2 54 = / 1024) by (unfold t; rewrite <- bpow_plus; reflexivity).
  assert (T0 : 0 < t) by apply bpow_gt_0. assert (B0 : 0 < b) by apply bpow_gt_0.
  change (bpow radix2 54) with 18014398509481984 in T. change (IZR (10 ^ 15)) with 1000000000000000 in A2.
  assert (M1 : IZR (2 * m + 1) <= 18014398509481984).
  { change 18014398509481984 with (IZR (2 ^ 54)). apply IZR_le. lia. }
  assert (T1 : t <= / 1000000000000000000) by lra.
  assert (BX := B'). apply Rabs_le_inv in BX.
  assert (C : (c - 1 < -3)%Z).
  { destruct Hn as [Hn| ->]; [|lia]. apply (lt_bpow radix2). fold b. change (bpow radix2 (-3)) with (/ 8).
    assert (M2 : 9007199254740992 <= IZR (2 * m + 1)) by (change 9007199254740992 with (IZR (2 ^ 53)); apply IZR_le; lia).
    assert (W <= 1000000000000001) by nra. assert (9007199254740992 * b <= W) by (rewrite EW; apply Rmult_le_compat_r; lra). lra. }
  pose proof (apart_250 D k m (c - 1) HK C) as AP. fold b in AP. rewrite <- EX, <- EW in AP.
  assert (W2 : W <= 18014398509481984 * b) by (rewrite EW; apply Rmult_le_compat_r; lra).
  assert (Y2 : Rabs x <= 2 * W) by nra.
  assert (Y3 : Rabs x * t <= 2 * (18014398509481984 * b) * t) by (apply Rmult_le_compat_r; lra).
  replace (2 * (18014398509481984 * b) * t) with (2 * b * (t * 18014398509481984)) in Y3 by ring. rewrite T in Y3. lra.
Qed.

Lemma amount_read e s n : json_number s n -> amount (n_value n) ->
  exists z, extract e "."%char TDouble s = Ok (XFloating z) /\ rounded 53 1024 z (n_negative n) (n_value n).
Proof.
  intros J A. pose proof (json_reads s n J) as R. pose proof (signed_value n) as SV.
  assert (RA : forall z, read_as 53 1024 (whole_number n) z -> rounded 53 1024 z (n_negative n) (n_value n)).
  { intros z X. unfold whole_number in X. cbn [read_as] in X. rewrite SV in X. exact X. }
  assert (D : denotes (whole_number n) (n_value n)) by (symmetry; exact SV).
  destruct (fe_ld (e_float e)) eqn:EL.
  - destruct (nearest_direct e "."%char s _ TDouble 53 1024 dot_ok R eq_refl (or_intror (conj eq_refl EL))) as (z & Ez & Rz). eauto.
  - destruct (nearest_or_tie e "."%char s _ _ TDouble 53 1024 dot_ok R D eq_refl) as (y & z & _ & Ez & [Rz|(_ & HW & _ & B)]); [eauto|exfalso].
    rewrite EL in B. exact (amount_no_tie (ld_prec LD80) (ld_emax LD80) _ _ ltac:(cbn; lia) ltac:(cbn; lia) A HW B).
  - destruct (nearest_or_tie e "."%char s _ _ TDouble 53 1024 dot_ok R D eq_refl) as (y & z & _ & Ez & [Rz|(_ & HW & _ & B)]); [eauto|exfalso].
    rewrite EL in B. exact (amount_no_tie (ld_prec LD128) (ld_emax LD128) _ _ ltac:(cbn; lia) ltac:(cbn; lia) A HW B).
Qed.

Lemma amount_small x : amount x -> Rabs (nearest 53 1024 x) < bpow radix2 1024.
Proof.
  intros A. destruct (amount_abs x A) as (D & k & HD & HK & EX). destruct (amount_bounds D k HD HK) as [_ A2].
  rewrite <- nearest_abs, EX by lia. apply Rle_lt_trans with (bpow radix2 50); [|apply bpow_lt; lia].
  unfold nearest. apply round_le_generic; [apply FLT_exp_valid; reflexivity|typeclasses eauto|apply generic_format_FLT_bpow; [reflexivity|lia]|].
  change (IZR (10 ^ 15)) with 1000000000000000 in A2. change (bpow radix2 50) with 1125899906842624. lra.
Qed.

(** From text to text. *)
Lemma amount_same e s n z u s' : json_number s n -> amount (n_value n) -> extract e "."%char TDouble s = Ok (XFloating z) ->
  bits64 u -> double_finite u -> same_double z u -> lexi e (VDouble u) = Ok s' ->
  exists n', json_number s' n' /\ n_value n' = n_value n.
Proof.
  intros J A X H F S L. destruct (amount_read e s n J A) as (z' & X' & V & R). rewrite X in X'. injection X' as <-.
  rewrite Rlt_bool_true in R by (apply amount_small; exact A). destruct R as (R & _ & _). destruct S as (_ & _ & S & _).
  assert (VU : double_value u = nearest 53 1024 (n_value n)) by congruence.
  assert (N : double_value u <> 0).
  { intros Z0. destruct (amount_abs _ A) as (D & k & HD & HK & EX). destruct (amount_bounds D k HD HK) as [A1 _].
    assert (Q : nearest 53 1024 (Rabs (n_value n)) = 0) by (rewrite nearest_abs, <- VU, Z0, Rabs_R0 by lia; reflexivity).
    assert (bpow radix2 (-10) <= nearest 53 1024 (Rabs (n_value n))).
    { unfold nearest. apply round_ge_generic; [apply FLT_exp_valid; reflexivity|typeclasses eauto|apply generic_format_FLT_bpow; [reflexivity|lia]|].
      rewrite EX. change (bpow radix2 (-10)) with (/ 1024). lra. }
    pose proof (bpow_gt_0 radix2 (-10)). lra. }
  destruct (finite_number e u s' H F N L) as (ds & K & F0 & E & kk & kap & FP & G & GD & GE & Es & J' & _).
  exists (layout_number (sign_field u) ds K). split; [exact J'|]. exact (amount_printed e u s' _ _ H F L J' A VU).
Qed.

(** ** The same text *)

Open Scope Z_scope.

Lemma digits_same l1 l2 : Forall is_digit l1 -> Forall is_digit l2 -> length l1 = length l2 -> numeral_value l1 = numeral_value l2 -> l1 = l2.
Proof.
  intros D1 D2 L E.
  assert (X : "1"%char :: l1 = "1"%char :: l2); [|injection X; auto].
  assert (ONE : is_digit "1") by (unfold is_digit; cbn; lia).
  apply (canonical_natural_unique _ _ (numeral_value ("1"%char :: l1))).
  - split; [discriminate|]. split; [constructor; assumption|]. split; [reflexivity|]. intros r X. discriminate X.
  - split; [discriminate|]. split; [constructor; assumption|]. split; [|intros r X; discriminate X].
    rewrite !numeral_value_cons, L, E. reflexivity.
Qed.

Definition tail_ok (f : bytes) : Prop := f = ["0"%char] \/ exists g d, f = g ++ [d] /\ d <> "0"%char.

Lemma ordinary_parts i f i' f' : canonical_natural i (numeral_value i) -> canonical_natural i' (numeral_value i') ->
  Forall is_digit f -> Forall is_digit f' -> tail_ok f -> tail_ok f' ->
  numeral_value (i ++ f) * 10 ^ Z.of_nat (length f') = numeral_value (i' ++ f') * 10 ^ Z.of_nat (length f) -> i = i' /\ f = f'.
Proof.
  revert i f i' f'.
  assert (W : forall i f i' f', canonical_natural i (numeral_value i) -> canonical_natural i' (numeral_value i') ->
    Forall is_digit f -> Forall is_digit f' -> tail_ok f -> tail_ok f' -> (length f <= length f')%nat ->
    numeral_value (i ++ f) * 10 ^ Z.of_nat (length f') = numeral_value (i' ++ f') * 10 ^ Z.of_nat (length f) -> i = i' /\ f = f').
  { intros i f i' f' CI CI' DF DF' TF TF' LE E.
    set (k := Z.of_nat (length f') - Z.of_nat (length f)). assert (K : 0 <= k) by lia.
    set (g := f ++ zeros k).
    assert (DZ : Forall is_digit (zeros k)).
    { apply Forall_forall. intros c Hc. apply repeat_spec in Hc. subst c. unfold is_digit. cbn. lia. }
    assert (DG : Forall is_digit g) by (apply Forall_app; split; assumption).
    assert (LG : Z.of_nat (length g) = Z.of_nat (length f')) by (unfold g; rewrite app_length, Nat2Z.inj_add, zeros_length by lia; lia).
    assert (EG : numeral_value (i ++ g) = numeral_value (i' ++ f')).
    { unfold g. rewrite app_assoc, numeral_value_zeros by exact K.
      replace (Z.of_nat (length f')) with (k + Z.of_nat (length f)) in E by lia. rewrite Z.pow_add_r in E by lia.
      apply Z.mul_reg_r with (10 ^ Z.of_nat (length f)); [apply Z.pow_nonzero; lia|]. rewrite <- E. ring. }
    rewrite !numeral_value_app, LG in EG.
    pose proof (numeral_value_bounds g DG) as BG. pose proof (numeral_value_bounds f' DF') as BF. rewrite LG in BG.
    assert (P : 0 < 10 ^ Z.of_nat (length f')) by (apply Z.pow_pos_nonneg; lia).
    assert (EI : numeral_value i = numeral_value i') by nia. assert (EF : numeral_value g = numeral_value f') by nia.
    split; [rewrite EI in CI; exact (canonical_natural_unique _ _ _ CI CI')|].
    assert (GF : g = f') by (apply digits_same; [assumption|assumption|lia|assumption]).
    destruct (Z.eq_dec k 0) as [Z0|NZ]; [unfold g in GF; rewrite Z0 in GF; cbn in GF; rewrite app_nil_r in GF; exact GF|exfalso].
    assert (T0 : exists h, f' = h ++ ["0"%char]).
    { exists (f ++ zeros (k - 1)). rewrite <- GF. unfold g. rewrite <- app_assoc. f_equal. unfold zeros.
      replace (Z.to_nat k) with (Z.to_nat (k - 1) + 1)%nat by lia. rewrite repeat_app. reflexivity. }
    destruct T0 as (h & T0). destruct TF' as [TF'|(h' & d & TF' & ND)].
    - rewrite TF' in LE. cbn in LE. assert (NF : f <> []).
      { destruct TF as [->|(? & ? & -> & _)]; [discriminate|]. intros X. apply app_eq_nil in X. destruct X as [_ X]. discriminate X. }
      assert (length f <> 0%nat) by (intros X; apply length_zero_iff_nil in X; contradiction).
      unfold k in NZ. rewrite TF' in NZ. cbn [length] in NZ. lia.
    - rewrite T0 in TF'. apply app_inj_tail in TF'. destruct TF' as [_ TF']. congruence. }
  intros i f i' f' CI CI' DF DF' TF TF' E. destruct (Nat.le_ge_cases (length f) (length f')) as [L|L].
  - apply W; assumption.
  - destruct (W i' f' i f CI' CI DF' DF TF' TF L (eq_sym E)) as [-> ->]. auto.
Qed.

Lemma ordinary_json s neg i f : ordinary s neg i f -> json_number s (Number neg i (Some f) None).
Proof.
  intros (E & (NI & DI & _ & ZI) & DF & TF). split; [|split; [|split; [|split; [|split]]]]; cbn [n_negative n_integer n_fraction n_exponent optional].
  - exists "e"%char. split; [left; reflexivity|]. rewrite app_nil_r. exact E.
  - exact NI.
  - exact DI.
  - exact ZI.
  - intros g X. injection X as <-. split; [|exact DF]. destruct TF as [->|(? & ? & -> & _)]; [discriminate|].
    intros X. apply app_eq_nil in X. destruct X as [_ X]. discriminate X.
  - intros ? ? X. discriminate X.
Qed.

Lemma ordinary_value s neg i f : ordinary s neg i f ->
  n_value (Number neg i (Some f) None) = neg_if neg (IZR (numeral_value (i ++ f)) / IZR (10 ^ Z.of_nat (length f)))%R.
Proof.
  intros _. unfold n_value, n_magnitude, n_digits, n_scale, n_exponent_value. cbn [n_negative n_integer n_fraction n_exponent optional].
  replace (0 - Z.of_nat (length f)) with (- Z.of_nat (length f)) by lia. rewrite ten_inverse by lia. reflexivity.
Qed.

Lemma ordinary_unique s neg i f s' neg' i' f' : ordinary s neg i f -> ordinary s' neg' i' f' -> 0 < numeral_value (i ++ f) ->
  n_value (Number neg i (Some f) None) = n_value (Number neg' i' (Some f') None) -> s = s'.
Proof.
  intros O O' P E. rewrite (ordinary_value _ _ _ _ O), (ordinary_value _ _ _ _ O') in E.
  destruct O as (-> & CI & DF & TF). destruct O' as (-> & CI' & DF' & TF').
  assert (Q : (0 < IZR (10 ^ Z.of_nat (length f)))%R) by (apply IZR_lt, Z.pow_pos_nonneg; lia).
  assert (Q' : (0 < IZR (10 ^ Z.of_nat (length f')))%R) by (apply IZR_lt, Z.pow_pos_nonneg; lia).
  assert (V : (0 < IZR (numeral_value (i ++ f)) / IZR (10 ^ Z.of_nat (length f)))%R) by (apply Rdiv_lt_0_compat; [apply IZR_lt; exact P|exact Q]).
  assert (N' : 0 <= numeral_value (i' ++ f')) by (apply numeral_value_bounds, Forall_app; split; [apply CI'|exact DF']).
  assert (V' : (0 <= IZR (numeral_value (i' ++ f')) / IZR (10 ^ Z.of_nat (length f')))%R).
  { apply Rmult_le_pos; [apply IZR_le; exact N'|]. left. apply Rinv_0_lt_compat. exact Q'. }
  assert (EV : neg = neg' /\ (IZR (numeral_value (i ++ f)) / IZR (10 ^ Z.of_nat (length f)) = IZR (numeral_value (i' ++ f')) / IZR (10 ^ Z.of_nat (length f')))%R).
  { destruct neg, neg'; cbn [neg_if] in E; split; try reflexivity; lra. }
  destruct EV as [-> EV].
  assert (X : numeral_value (i ++ f) * 10 ^ Z.of_nat (length f') = numeral_value (i' ++ f') * 10 ^ Z.of_nat (length f)).
  { apply eq_IZR. rewrite !mult_IZR. apply Rmult_eq_reg_r with (/ IZR (10 ^ Z.of_nat (length f)) * / IZR (10 ^ Z.of_nat (length f')))%R.
    - transitivity (IZR (numeral_value (i ++ f)) / IZR (10 ^ Z.of_nat (length f)))%R; [field; lra|]. rewrite EV. field. lra.
    - apply Rmult_integral_contrapositive_currified; apply Rinv_neq_0_compat; lra. }
  destruct (ordinary_parts i f i' f' CI CI' DF DF' TF TF' X) as [-> ->]. reflexivity.
Qed.

Lemma all_zeros_digits z : all_zeros z -> Forall is_digit z.
Proof. intros H. eapply Forall_impl; [|exact H]. intros c ->. unfold is_digit. cbn. lia. Qed.

Lemma no_trailing D : D <> [] -> (forall g, D <> g ++ ["0"%char]) -> exists g d, D = g ++ [d] /\ d <> "0"%char.
Proof.
  intros N T. destruct (exists_last N) as (g & d & ->). exists g, d. split; [reflexivity|]. intros ->. exact (T g eq_refl).
Qed.

(** The text printed for an amount is written in the ordinary way. *)
Lemma amount_ordinary e u s x : bits64 u -> double_finite u -> lexi e (VDouble u) = Ok s -> amount x -> double_value u = nearest 53 1024 x ->
  exists neg i f, ordinary s neg i f.
Proof.
  intros H Fi L AX NX. destruct (amount_abs x AX) as (A & k & HA & HK & EX). destruct (amount_bounds A k HA HK) as [A1 A2].
  assert (ND : nearest 53 1024 (IZR A / IZR (10 ^ k))%R = Rabs (double_value u)) by (rewrite <- EX, nearest_abs, NX by lia; reflexivity).
  assert (N : double_value u <> 0%R).
  { intros Z0. rewrite Z0, Rabs_R0 in ND.
    assert (bpow radix2 (-10) <= nearest 53 1024 (IZR A / IZR (10 ^ k)))%R.
    { unfold nearest. apply round_ge_generic; [apply FLT_exp_valid; reflexivity|typeclasses eauto|apply generic_format_FLT_bpow; [reflexivity|lia]|].
      change (bpow radix2 (-10)) with (/ 1024)%R. lra. }
    pose proof (bpow_gt_0 radix2 (-10)). lra. }
  destruct (finite_number e u s H Fi N L) as (ds & K & F0 & E & kk & kap & FP & G & GD & GE & Es & J' & M & V & Bn & DV).
  pose proof (amount_printed e u s _ x H Fi L J' AX NX) as PX. clear J'.
  pose proof (dbl_R_pos _ FP) as PV.
  assert (EA : Rabs (double_value u) = dbl_R (u mod 2 ^ 63)) by (rewrite DV; apply Rabs_neg_if; lra).
  rewrite EA in ND. destruct (amount_inside _ A k FP HA HK ND) as [I1 I2]. rewrite <- EX in *.
  assert (DX : digits_R ds K = Rabs x).
  { rewrite <- PX, V. symmetry. apply Rabs_neg_if. pose proof (lower_positive _ FP). pose proof (bpow_gt_0 radix2 (-1076)). lra. }
  pose proof (layout_written ds K GD GE) as W. set (D := map dchr ds) in *.
  pose proof GD as [HD (d & r & Eds & Hd)].
  assert (Dd : 1 <= d < 10) by (rewrite Eds in HD; inversion_clear HD; unfold digit in *; lia).
  assert (DD : Forall is_digit D) by (apply digits_map; exact HD).
  assert (ND0 : D <> []) by (unfold D; rewrite Eds; discriminate).
  assert (ZD : forall q, D <> "0"%char :: q).
  { intros q X. unfold D in X. rewrite Eds in X. cbn [map] in X. injection X as X _. exact (dchr_not_zero d Dd X). }
  assert (VD : numeral_value D = nval ds) by (apply numeral_value_dchr; exact HD).
  assert (LD : length D = length ds) by apply map_length.
  destruct (nval_bounds ds GD) as [NB1 NB2].
  (* no trailing zero *)
  assert (TD : forall g, D <> g ++ ["0"%char]).
  { intros g X.
    assert (DG : Forall is_digit g) by (rewrite X in DD; apply Forall_app in DD; apply DD).
    assert (NG : nval ds = 10 * numeral_value g).
    { rewrite <- VD, X, numeral_value_app. cbn [length]. change (numeral_value ["0"%char]) with 0. change (10 ^ Z.of_nat 1) with 10. lia. }
    assert (LG : Z.of_nat (length g) = Z.of_nat (length ds) - 1) by (rewrite <- LD, X, app_length; cbn [length]; lia).
    pose proof (numeral_value_bounds g DG) as BG. rewrite LG in BG.
    assert (P10 : 0 < 10 ^ (Z.of_nat (length ds) - 1)) by (apply Z.pow_pos_nonneg; lia).
    apply (fewest_digits (u mod 2 ^ 63) ds K F0 E kk kap (numeral_value g) (K + 1) FP G); [lia|].
    replace (IZR (numeral_value g) * bpow radix10 (K + 1))%R with (Rabs x).
    2:{ rewrite <- DX. unfold digits_R. rewrite NG, mult_IZR, (Z.add_comm K), bpow_plus. change (bpow radix10 1) with 10%R. ring. }
    apply (interval_covers _ ds K F0 E kk kap _ FP G I2). }
  pose proof (no_trailing D ND0 TD) as TL.
  (* the size of the number *)
  assert (SZ : (-6 < Z.of_nat (length ds) + K <= 21)).
  { assert (P : (IZR (10 ^ 15) < bpow radix10 20)%R) by (change (bpow radix10 20) with (IZR (10 ^ 20)); apply IZR_lt; reflexivity).
    unfold digits_R in DX. pose proof (bpow_gt_0 radix10 K) as PK.
    split; [apply Z.nle_gt|apply Z.nlt_ge]; intros C.
    - assert (X : (IZR (nval ds) * bpow radix10 K < bpow radix10 (Z.of_nat (length ds)) * bpow radix10 K)%R).
      { apply Rmult_lt_compat_r; [exact PK|]. rewrite <- IZR_Zpower by lia. apply IZR_lt. exact NB2. }
      rewrite <- bpow_plus in X. pose proof (bpow_le radix10 _ _ C) as Y. change (bpow radix10 (-6)) with (/ 1000000)%R in Y. lra.
    - assert (X : (bpow radix10 (Z.of_nat (length ds) - 1) * bpow radix10 K <= IZR (nval ds) * bpow radix10 K)%R).
      { apply Rmult_le_compat_r; [lra|]. rewrite <- IZR_Zpower; [apply IZR_le; exact NB1|]. rewrite Eds. cbn [length]. lia. }
      rewrite <- bpow_plus in X. assert (Y : (bpow radix10 20 <= bpow radix10 (Z.of_nat (length ds) - 1 + K))%R) by (apply bpow_le; lia). lra. }
  exists (sign_field u). set (t := layout ds K) in *.
  assert (ES : s = (if sign_field u then ["-"%char] else []) ++ t) by (rewrite Es; reflexivity).
  clear Es G. revert ES. inversion W as [z HN HZ HL|a b HN HD' HA' HB HL|z HN HZ HL|d' q HN HD' HC|d' r' q HN HD' HR HC]; intros ES.
  - exists (D ++ z), (str "0"). split; [rewrite ES, <- app_assoc; reflexivity|]. split; [|split].
    + split; [intros X; apply app_eq_nil in X; destruct X; contradiction|]. split; [apply Forall_app; split; [exact DD|apply all_zeros_digits; exact HZ]|].
      split; [reflexivity|]. intros q X. destruct D as [|c D']; [contradiction|]. cbn in X. injection X as -> _. exfalso. exact (ZD _ eq_refl).
    + repeat constructor; cbn; lia.
    + left. reflexivity.
  - exists a, b. rewrite HD' in DD. apply Forall_app in DD. destruct DD as [DA DB]. split; [exact ES|]. split; [|split; [exact DB|]].
    + split; [exact HA'|]. split; [exact DA|]. split; [reflexivity|]. intros q X. exfalso. apply (ZD (q ++ b)). rewrite HD', X. reflexivity.
    + right. apply no_trailing; [exact HB|]. intros g X. apply (TD (a ++ g)). rewrite HD', X, app_assoc. reflexivity.
  - exists (str "0"), (z ++ D). split; [rewrite ES; reflexivity|]. split; [|split].
    + split; [discriminate|]. split; [repeat constructor; cbn; lia|]. split; [reflexivity|]. intros q X. injection X as <-. reflexivity.
    + apply Forall_app. split; [apply all_zeros_digits; exact HZ|exact DD].
    + right. destruct TL as (g & c & -> & NC). exists (z ++ g), c. rewrite app_assoc. auto.
  - exfalso. lia.
  - exfalso. lia.
Qed.

Lemma amount_text e s neg i f z u s' : ordinary s neg i f -> (length f <= 3)%nat -> 0 < numeral_value (i ++ f) < 10 ^ 15 ->
  extract e "."%char TDouble s = Ok (XFloating z) -> bits64 u -> double_finite u -> same_double z u -> lexi e (VDouble u) = Ok s' ->
  s' = s.
Proof.
  intros O LF HV X H F S L. pose proof (ordinary_json _ _ _ _ O) as J. set (n := Number neg i (Some f) None) in *.
  assert (A : amount (n_value n)).
  { exists (if neg then - numeral_value (i ++ f) else numeral_value (i ++ f)), (Z.of_nat (length f)).
    split; [destruct neg; lia|]. split; [lia|]. unfold n. rewrite (ordinary_value _ _ _ _ O). destruct neg; cbn [neg_if]; [rewrite opp_IZR; unfold Rdiv; ring|reflexivity]. }
  destruct (amount_same e s n z u s' J A X H F S L) as (n' & J' & E).
  destruct (amount_read e s n J A) as (z' & X' & _ & R). rewrite X in X'. injection X' as <-.
  rewrite Rlt_bool_true in R by (apply amount_small; exact A). destruct R as (R & _ & _). pose proof S as (_ & _ & SV & _).
  destruct (amount_ordinary e u s' (n_value n) H F L A) as (neg' & i' & f' & O'); [congruence|].
  rewrite (json_number_unique _ _ _ J' (ordinary_json _ _ _ _ O')) in E.
  symmetry. apply (ordinary_unique s neg i f s' neg' i' f' O O'); [lia|symmetry; exact E].
Qed.
