(** The accuracy of StrtodNormalPrecision. *)
From Coq Require Import Reals Lra Psatz Floats.SpecFloat.
From Flocq Require Import Core IEEE754.BinarySingleNaN.
From Flocq Require Import Relative.
From Verif Require Import Machine SpecDecimal SpecNumber SpecIeee SpecRead SpecBig SpecStrtod ModelFloat ModelBigint ModelStrtod
  ProofDiyfp ProofCached ProofDigits ProofGrisu ProofIeee ProofRound ProofStrtod ProofBig ProofBig2 ProofBig3 ProofBig4.
Open Scope Z_scope.
Ltac Zify.zify_post_hook ::= idtac.

Notation unit := (bpow radix2 (-53)).
Notation tiny := (bpow radix2 (-1075)).

Lemma unit_small : (0 < unit <= 1 / 1000)%R.
Proof.
  split; [apply bpow_gt_0|]. apply Rle_trans with (bpow radix2 (-10)); [apply bpow_le; lia|]. cbn. lra.
Qed.

Lemma nearest_error x : exists a b, nearest 53 1024 x = (x * (1 + a) + b)%R /\ (Rabs a <= unit)%R /\ (Rabs b <= tiny)%R.
Proof.
  destruct (error_N_FLT radix2 (-1074) 53 ltac:(lia) (fun n => negb (Z.even n)) x) as (a & b & A & B & _ & E).
  exists a, b. split; [exact E|]. split.
  - eapply Rle_trans; [exact A|]. rewrite bpow_plus. change (bpow radix2 1) with 2%R. change (bpow radix2 (- (53))) with unit. lra.
  - eapply Rle_trans; [exact B|]. replace (bpow radix2 (-1074)) with (tiny * 2)%R by (change 2%R with (bpow radix2 1); rewrite <- bpow_plus; reflexivity). lra.
Qed.

Lemma nearest_relative x : (1 <= Rabs x)%R -> exists a, nearest 53 1024 x = (x * (1 + a))%R /\ (Rabs a <= unit)%R.
Proof.
  intros H. destruct (relative_error_N_FLT_ex radix2 (-1074) 53 ltac:(lia) (fun n => negb (Z.even n)) x) as (a & A & E).
  - eapply Rle_trans; [|exact H]. change 1%R with (bpow radix2 0). apply bpow_le. lia.
  - exists a. split; [exact E|]. eapply Rle_trans; [exact A|]. rewrite bpow_plus. change (bpow radix2 1) with 2%R. change (bpow radix2 (- (53))) with unit. lra.
Qed.

(** ** One step *)

Definition scaled (z : spec_float) (neg : bool) (x : R) (p : Z) : Prop :=
  dvalid z = true /\
  ((is_finite_SF z = true /\ sign_SF z = neg /\
    exists a b, dvalue z = (x * (1 + a) + b)%R /\ (Rabs a <= 3 * unit)%R /\ (Rabs b <= tiny)%R) \/
   (z = S754_infinity neg /\ 0 < p /\ (bpow radix2 1024 <= Rabs x * (1 + 3 * unit) + tiny)%R)).

Lemma times u a b : (0 < u <= 1 / 1000)%R -> (Rabs a <= u)%R -> (Rabs b <= u)%R -> (Rabs ((1 + a) * (1 + b) - 1) <= 3 * u)%R.
Proof. intros U A B. apply Rabs_le_inv in A. apply Rabs_le_inv in B. apply Rabs_le. split; nra. Qed.

Lemma over u a b : (0 < u <= 1 / 1000)%R -> (Rabs a <= u)%R -> (Rabs b <= u)%R -> (Rabs ((1 + b) / (1 + a) - 1) <= 3 * u)%R.
Proof.
  intros U A B. apply Rabs_le_inv in A. apply Rabs_le_inv in B.
  replace ((1 + b) / (1 + a) - 1)%R with ((b - a) * / (1 + a))%R by (field; lra).
  assert (I : (0 < / (1 + a) <= 11 / 10)%R).
  { split; [apply Rinv_0_lt_compat; lra|]. replace (11 / 10)%R with (/ (10 / 11))%R by lra. apply Rinv_le; lra. }
  apply Rabs_le. split; nra.
Qed.

Lemma ten_big n : 0 <= n -> (1 <= bpow radix10 n)%R.
Proof. intros H. change 1%R with (bpow radix10 0). apply bpow_le. exact H. Qed.

Lemma xorb_false_r b : xorb b false = b.
Proof. destruct b; reflexivity. Qed.

Lemma fastPath_scaled d p : dvalid d = true -> is_finite_SF d = true -> -308 <= p <= 308 ->
  exists z, fastPath d p = Ok z /\ scaled z (sign_SF d) (dvalue d * bpow radix10 p) p.
Proof.
  intros V F P. unfold fastPath. rewrite (proj2 (Z.ltb_ge p (-308))) by lia. pose proof unit_small as U.
  destruct (Z.leb_spec 0 p) as [L|L].
  - rewrite pow10_in by lia. cbn [bind]. eexists. split; [reflexivity|].
    destruct (literal_facts p ltac:(lia)) as (Vq & Fq & Sq & Eq).
    destruct (nearest_relative (bpow radix10 p)) as (a & Ea & A); [rewrite Rabs_pos_eq by apply bpow_ge_0; apply ten_big; exact L|].
    rewrite Ea in Eq. destruct (mul_rounded d (literal p) V Vq F Fq) as [VR R]. rewrite Sq, xorb_false_r in R.
    split; [exact VR|]. destruct (nearest_error (dvalue d * dvalue (literal p))) as (b & h & Eb & B & H).
    assert (X : nearest 53 1024 (dvalue d * dvalue (literal p)) = (dvalue d * bpow radix10 p * (1 + ((1 + a) * (1 + b) - 1)) + h)%R)
      by (rewrite Eb, Eq; ring).
    pose proof (times unit a b U A B) as T.
    destruct (Rlt_bool_spec (Rabs (nearest 53 1024 (dvalue d * dvalue (literal p)))) (bpow radix2 1024)) as [Y|Y].
    + left. destruct R as (R1 & R2 & R3). split; [exact R2|]. split; [exact R3|].
      exists ((1 + a) * (1 + b) - 1)%R, h. split; [rewrite R1; exact X|]. split; assumption.
    + right. split; [exact R|]. split.
      * destruct (Z.eq_dec p 0) as [->|]; [exfalso|lia].
        rewrite literal_exact in Y by lia. change (bpow radix10 0) with 1%R in Y. rewrite Rmult_1_r in Y.
        unfold nearest in Y. rewrite round_generic in Y; [|apply valid_rnd_N|exact (proj1 (sf_format 53 1024 d double_good V F))].
        pose proof (proj2 (sf_format 53 1024 d double_good V F)). lra.
      * rewrite X in Y. eapply Rle_trans; [exact Y|]. eapply Rle_trans; [apply Rabs_triang|]. apply Rplus_le_compat; [|exact H].
        rewrite Rabs_mult. apply Rmult_le_compat_l; [apply Rabs_pos|]. apply Rabs_le_inv in T. apply Rabs_le. lra.
  - rewrite pow10_in by lia. cbn [bind]. eexists. split; [reflexivity|].
    destruct (literal_facts (- p) ltac:(lia)) as (Vq & Fq & Sq & Eq).
    destruct (nearest_relative (bpow radix10 (- p))) as (a & Ea & A); [rewrite Rabs_pos_eq by apply bpow_ge_0; apply ten_big; lia|].
    rewrite Ea in Eq. pose proof (ten_big (- p) ltac:(lia)) as G. pose proof (Rabs_le_inv _ _ A) as A'.
    assert (Q1 : (1 <= dvalue (literal (- p)))%R).
    { rewrite Eq, <- Ea. change 1%R with (bpow radix2 0). apply round_ge_generic; [apply FLT_exp_valid; reflexivity|apply valid_rnd_N| |exact G].
      apply generic_format_bpow. unfold binary_format, FLT_exp. lia. }
    destruct (div_rounded_double d (literal (- p)) V Vq F Fq ltac:(lra)) as [VR R]. rewrite Sq, xorb_false_r in R.
    split; [exact VR|]. left.
    assert (Y : (Rabs (nearest 53 1024 (dvalue d / dvalue (literal (- p)))) < bpow radix2 1024)%R).
    { apply Rle_lt_trans with (Rabs (dvalue d)); [|exact (proj2 (sf_format 53 1024 d double_good V F))].
      apply abs_round_le_generic; [apply FLT_exp_valid; reflexivity|apply valid_rnd_N|apply generic_format_abs, (sf_format 53 1024 d double_good V F)|].
      unfold Rdiv. rewrite Rabs_mult, Rabs_inv by lra. rewrite (Rabs_pos_eq (dvalue (literal (- p)))) by lra.
      rewrite <- (Rmult_1_r (Rabs (dvalue d))) at 2. apply Rmult_le_compat_l; [apply Rabs_pos|].
      rewrite <- Rinv_1. apply Rinv_le; lra. }
    rewrite Rlt_bool_true in R by exact Y. destruct R as (R1 & R2 & R3). split; [exact R2|]. split; [exact R3|].
    destruct (nearest_error (dvalue d / dvalue (literal (- p)))) as (b & h & Eb & B & H).
    exists ((1 + b) / (1 + a) - 1)%R, h. split; [|split; [apply over; assumption|exact H]].
    rewrite R1, Eb, Eq. replace (bpow radix10 p) with (/ bpow radix10 (- p))%R by (rewrite <- bpow_opp; f_equal; lia).
    field. lra.
Qed.

(** ** The whole function *)

Lemma fifty : bpow radix2 (-50) = (8 * unit)%R.
Proof. change 8%R with (bpow radix2 3). rewrite <- bpow_plus. reflexivity. Qed.
Lemma last_place : bpow radix2 (-1074) = (2 * tiny)%R.
Proof. change 2%R with (bpow radix2 1). rewrite <- bpow_plus. reflexivity. Qed.
Lemma tiny_small : (0 < tiny <= unit)%R.
Proof. split; [apply bpow_gt_0|apply bpow_le; lia]. Qed.

Lemma scaled_within z neg x p : scaled z neg x p -> within z neg x.
Proof.
  intros [V H]. split; [exact V|]. pose proof unit_small as U. pose proof tiny_small as T. rewrite fifty, last_place.
  destruct H as [(F & S & a & b & E & A & B)|(E & _ & L)].
  - left. split; [exact F|]. rewrite E. replace (x * (1 + a) + b - x)%R with (x * a + b)%R by ring.
    eapply Rle_trans; [apply Rabs_triang|]. rewrite Rabs_mult. pose proof (Rabs_pos x). nra.
  - right. split; [exact E|]. assert (X : (1 <= bpow radix2 1024)%R) by (change 1%R with (bpow radix2 0); apply bpow_le; lia).
    set (M := bpow radix2 1024) in *. set (u := unit) in *. set (t := tiny) in *. clearbody M u t.
    apply Rmult_le_reg_r with (1 + 3 * u)%R; [lra|]. apply Rle_trans with (M - t)%R; [|lra]. nra.
Qed.

Lemma normal_accuracy d p r : dvalid d = true -> is_finite_SF d = true -> -616 <= p <= 308 \/ (p <= 308 /\ (Rabs (dvalue d) <= bpow radix10 292)%R) ->
  StrtodNormalPrecision d p = Ok r ->
  within r (sign_SF d) (dvalue d * bpow radix10 p) /\ (-616 <= p -> sign_SF r = sign_SF d).
Proof.
  intros V F P E. unfold StrtodNormalPrecision in E. destruct (Z.ltb_spec p (-308)) as [L|L].
  - destruct (fastPath_scaled d (-308) V F ltac:(lia)) as (z & Ez & SZ). rewrite Ez in E. cbn [bind] in E.
    destruct SZ as [VZ [(FZ & SZ & a & b & EZ & A & B)|(_ & X & _)]]; [|lia].
    destruct (Z.lt_ge_cases p (-616)) as [L2|L2].
    + unfold fastPath in E. rewrite (proj2 (Z.ltb_lt (p + 308) (-308))) in E by lia. injection E as <-.
      split; [|lia]. split; [reflexivity|]. left. split; [reflexivity|]. cbn [SF2R]. rewrite Rminus_0_l, Rabs_Ropp.
      destruct P as [P|[_ P]]; [lia|]. apply Rle_trans with (bpow radix2 (-1074)).
      * rewrite Rabs_mult, (Rabs_pos_eq (bpow radix10 p)) by apply bpow_ge_0.
        apply Rle_trans with (bpow radix10 292 * bpow radix10 (-617))%R.
        { apply Rmult_le_compat; [apply Rabs_pos|apply bpow_ge_0|exact P|apply bpow_le; lia]. }
        rewrite <- bpow_plus. change (292 + -617) with (- (325)). change (-1074) with (- (1074)). rewrite !bpow_opp.
        apply Rinv_le; [apply bpow_gt_0|]. rewrite <- !IZR_Zpower by lia. apply IZR_le. vm_compute. discriminate.
      * pose proof (bpow_ge_0 radix2 (-50)). pose proof (Rabs_pos (dvalue d * bpow radix10 p)). nra.
    + destruct (fastPath_scaled z (p + 308) VZ FZ ltac:(lia)) as (w & Ew & W). rewrite Ew in E. injection E as <-.
      destruct W as [VW [(FW & SW & a' & b' & EW & A' & B')|(_ & X & _)]]; [|lia]. split; [|intros _; congruence].
      split; [exact VW|]. left. split; [exact FW|]. rewrite EW, EZ, fifty, last_place.
      set (x := (dvalue d * bpow radix10 p)%R).
      assert (K : (0 < bpow radix10 (p + 308) <= / 10)%R).
      { split; [apply bpow_gt_0|]. change (/ 10)%R with (bpow radix10 (-1)). apply bpow_le. lia. }
      replace ((dvalue d * bpow radix10 (-308) * (1 + a) + b) * bpow radix10 (p + 308) * (1 + a') + b' - x)%R
        with (x * ((1 + a) * (1 + a') - 1) + (b * (bpow radix10 (p + 308) * (1 + a')) + b'))%R.
      2:{ unfold x. replace (bpow radix10 p) with (bpow radix10 (-308) * bpow radix10 (p + 308))%R by (rewrite <- bpow_plus; f_equal; lia). ring. }
      pose proof unit_small as U. pose proof tiny_small as T. set (u := unit) in *. set (t := tiny) in *. set (k := bpow radix10 (p + 308)) in *.
      clearbody u t k x. eapply Rle_trans; [apply Rabs_triang|]. rewrite Rabs_mult.
      assert (M1 : (Rabs ((1 + a) * (1 + a') - 1) <= 8 * u)%R).
      { apply Rabs_le_inv in A. apply Rabs_le_inv in A'. apply Rabs_le. split; nra. }
      assert (M2 : (Rabs (b * (k * (1 + a')) + b') <= 2 * t)%R).
      { eapply Rle_trans; [apply Rabs_triang|]. rewrite Rabs_mult. apply Rabs_le_inv in A'.
        assert (Rabs (k * (1 + a')) <= 1)%R by (apply Rabs_le; split; nra). pose proof (Rabs_pos b). pose proof (Rabs_pos (k * (1 + a'))). nra. }
      pose proof (Rabs_pos x). nra.
  - destruct (fastPath_scaled d p V F ltac:(lia)) as (z & Ez & SZ). rewrite Ez in E. injection E as <-.
    split; [exact (scaled_within _ _ _ _ SZ)|]. intros _. destruct SZ as [_ [(_ & S & _)|(-> & _)]]; [exact S|reflexivity].
Qed.

(** 1e308 * 10^-617 is 10^-309, which is not close to zero for a double. *)
Lemma normal_wrong : exists d p r, dvalid d = true /\ is_finite_SF d = true /\ p <= 308 /\ StrtodNormalPrecision d p = Ok r /\
  ~ within r (sign_SF d) (dvalue d * bpow radix10 p).
Proof.
  exists (literal 308), (-617), (S754_zero false). destruct (literal_facts 308 ltac:(lia)) as (V & F & S & E).
  split; [exact V|]. split; [exact F|]. split; [lia|]. split; [vm_compute; reflexivity|].
  intros [_ [[_ X]|[X _]]]; [|discriminate X]. cbn [SF2R] in X. rewrite Rminus_0_l, Rabs_Ropp in X.
  destruct (nearest_relative (bpow radix10 308)) as (a & Ea & A); [rewrite Rabs_pos_eq by apply bpow_ge_0; apply ten_big; lia|].
  rewrite Ea in E. rewrite E in X. apply Rabs_le_inv in A. pose proof unit_small as U.
  replace (bpow radix10 308 * (1 + a) * bpow radix10 (-617))%R with (bpow radix10 (-309) * (1 + a))%R in X
    by (replace (-309) with (308 + -617) by lia; rewrite bpow_plus; ring).
  pose proof (bpow_gt_0 radix10 (-309)) as G. rewrite Rabs_pos_eq in X by nra. rewrite fifty in X.
  assert (T : (bpow radix2 (-1074) < bpow radix10 (-310))%R).
  { change (-310) with (- (310)). change (-1074) with (- (1074)). rewrite !bpow_opp. apply Rinv_lt; [apply bpow_gt_0|].
    rewrite <- !IZR_Zpower by lia. apply IZR_lt. vm_compute. reflexivity. }
  replace (bpow radix10 (-309)) with (10 * bpow radix10 (-310))%R in * by (change 10%R with (bpow radix10 1); rewrite <- bpow_plus; reflexivity).
  set (g := bpow radix10 (-310)) in *. set (u := unit) in *. set (h := bpow radix2 (-1074)) in *. clearbody g u h.
  assert (W : (999 / 1000 * g <= g * (1 + a))%R) by nra. replace (10 * g * (1 + a))%R with (10 * (g * (1 + a)))%R in X by ring.
  set (v := (g * (1 + a))%R) in *. clearbody v. assert (Y : (u * v <= v / 1000)%R) by nra. lra.
Qed.

(** Below -616 the result is zero, whatever the significand. *)
Lemma normal_zero d p : p < -616 -> StrtodNormalPrecision d p = Ok (S754_zero false).
Proof.
  intros H. unfold StrtodNormalPrecision. rewrite (proj2 (Z.ltb_lt p (-308))) by lia.
  destruct (fastPath_ok d (-308) ltac:(lia)) as [r ->]. cbn [bind]. unfold fastPath.
  rewrite (proj2 (Z.ltb_lt (p + 308) (-308))) by lia. reflexivity.
Qed.

(** ** The fast path for significands of either sign *)

(** One multiplication by an exact power, of a number that is zero or not small. *)
Lemma exact_step d k neg y : dvalid d = true -> is_finite_SF d = true -> sign_SF d = neg -> dvalue d = y ->
  0 <= k <= 22 -> (y = 0 \/ 1 <= Rabs y)%R ->
  let z := dmul d (literal k) in dvalid z = true /\
  ((is_finite_SF z = true /\ sign_SF z = neg /\ exists a, dvalue z = (y * bpow radix10 k * (1 + a))%R /\ (Rabs a <= unit)%R) \/
   (z = S754_infinity neg /\ (bpow radix2 1024 <= Rabs (y * bpow radix10 k) * (1 + unit))%R)).
Proof.
  intros V F S E K Y z. destruct (literal_facts k ltac:(lia)) as (Vl & Fl & Sl & _).
  destruct (mul_rounded d (literal k) V Vl F Fl) as [VR R]. rewrite Sl, xorb_false_r, literal_exact, E, S in R by lia.
  split; [exact VR|]. set (x := (y * bpow radix10 k)%R) in *.
  assert (A : exists a, nearest 53 1024 x = (x * (1 + a))%R /\ (Rabs a <= unit)%R).
  { destruct Y as [Y|Y].
    - exists 0%R. unfold x. rewrite Y, !Rmult_0_l. split; [apply round_0, valid_rnd_N|rewrite Rabs_R0; apply bpow_ge_0].
    - apply nearest_relative. unfold x. rewrite Rabs_mult, (Rabs_pos_eq (bpow radix10 k)) by apply bpow_ge_0.
      pose proof (ten_big k ltac:(lia)). nra. }
  destruct A as (a & EA & A).
  destruct (Rlt_bool_spec (Rabs (nearest 53 1024 x)) (bpow radix2 1024)) as [L|L].
  - left. destruct R as (R1 & R2 & R3). split; [exact R2|]. split; [exact R3|]. exists a. split; [rewrite <- EA; exact R1|exact A].
  - right. split; [exact R|]. rewrite EA, Rabs_mult in L. eapply Rle_trans; [exact L|].
    apply Rmult_le_compat_l; [apply Rabs_pos|]. apply Rabs_le_inv in A. pose proof unit_small. apply Rabs_le. lra.
Qed.

Lemma large_enough x : (bpow radix2 1024 <= x * (1 + 3 * unit))%R -> ((1 - 8 * unit) * bpow radix2 1024 <= x)%R.
Proof.
  intros H. pose proof unit_small as U. pose proof (bpow_gt_0 radix2 1024) as P. set (M := bpow radix2 1024) in *. set (u := unit) in *. clearbody M u.
  apply Rmult_le_reg_r with (1 + 3 * u)%R; [lra|]. apply Rle_trans with M; [|lra]. nra.
Qed.

Lemma fast_within d N p r : dvalid d = true -> is_finite_SF d = true -> dvalue d = IZR N ->
  fast d p = Ok (Some r) -> within r (sign_SF d) (IZR N * bpow radix10 p).
Proof.
  intros V F E X. unfold fast in X. pose proof unit_small as U.
  destruct ((22 <? p) && (p <? 22 + 16)) eqn:C.
  - rewrite pow10_in in X by lia. cbn [bind] in X.
    destruct ((-22 <=? 22) && (22 <=? 22) && dle (dmul d (literal (p - 22))) max_significand); [|discriminate X].
    unfold fastPath in X. cbn [Z.ltb Z.compare Z.leb] in X. rewrite pow10_in in X by lia. cbn [bind] in X. injection X as <-.
    assert (Y : (IZR N = 0 \/ 1 <= Rabs (IZR N))%R).
    { destruct (Z.eq_dec N 0) as [->|NZ]; [left; reflexivity|right]. rewrite <- abs_IZR. apply IZR_le. lia. }
    destruct (exact_step d (p - 22) (sign_SF d) (IZR N) V F eq_refl E ltac:(lia) Y) as [V1 [(F1 & S1 & a & E1 & A)|(E1 & L)]].
    + assert (Y1 : (dvalue (dmul d (literal (p - 22))) = 0 \/ 1 <= Rabs (dvalue (dmul d (literal (p - 22)))))%R).
      { rewrite E1. destruct Y as [Y|Y]; [left; rewrite Y; ring|right].
        destruct (Z.eq_dec N 0) as [->|NZ]; [rewrite Rabs_R0 in Y; lra|].
        rewrite !Rabs_mult, (Rabs_pos_eq (bpow radix10 (p - 22))) by apply bpow_ge_0. apply Rabs_le_inv in A.
        rewrite (Rabs_pos_eq (1 + a)) by lra.
        assert (T : (10 <= bpow radix10 (p - 22))%R) by (change 10%R with (bpow radix10 1); apply bpow_le; lia).
        assert (T2 : (10 <= Rabs (IZR N) * bpow radix10 (p - 22))%R) by nra. nra. }
      destruct (exact_step _ 22 (sign_SF d) _ V1 F1 S1 eq_refl ltac:(lia) Y1) as [V2 G].
      split; [exact V2|]. rewrite fifty.
      assert (EX : forall b, (dvalue (dmul d (literal (p - 22))) * bpow radix10 22 * (1 + b) = IZR N * bpow radix10 p * ((1 + a) * (1 + b)))%R).
      { intros b. rewrite E1. replace p with ((p - 22) + 22)%Z at 2 by lia. rewrite bpow_plus. ring. }
      destruct G as [(F2 & S2 & b & E2 & B)|(E2 & L)].
      * left. split; [exact F2|]. rewrite E2, EX. set (x := (IZR N * bpow radix10 p)%R).
        replace (x * ((1 + a) * (1 + b)) - x)%R with (x * ((1 + a) * (1 + b) - 1))%R by ring. rewrite Rabs_mult.
        pose proof (times unit a b U A B) as T. pose proof (Rabs_pos x). pose proof (bpow_ge_0 radix2 (-1074)). nra.
      * right. split; [exact E2|]. apply large_enough. eapply Rle_trans; [exact L|].
        rewrite <- (Rmult_1_r (dvalue _ * bpow radix10 22)). rewrite <- (Rplus_0_r 1) at 1. rewrite EX.
        rewrite Rplus_0_r, Rmult_1_r, Rabs_mult, Rmult_assoc. apply Rmult_le_compat_l; [apply Rabs_pos|].
        apply Rabs_le_inv in A. rewrite Rabs_pos_eq by lra. nra.
    + rewrite E1. replace (dmul (S754_infinity (sign_SF d)) (literal 22)) with (S754_infinity (sign_SF d)).
      2:{ destruct (sign_SF d); vm_compute; reflexivity. }
      split; [reflexivity|]. right. split; [reflexivity|]. rewrite fifty. apply large_enough. eapply Rle_trans; [exact L|].
      apply Rmult_le_compat; [apply Rabs_pos|lra| |lra]. rewrite !Rabs_mult. apply Rmult_le_compat_l; [apply Rabs_pos|].
      rewrite !Rabs_pos_eq by apply bpow_ge_0. apply bpow_le. lia.
  - cbn [bind] in X. destruct ((-22 <=? p) && (p <=? 22) && dle d max_significand) eqn:D; [|discriminate X].
    destruct (fastPath_scaled d p V F ltac:(lia)) as (z & Ez & SZ). rewrite Ez in X. injection X as <-.
    rewrite <- E. apply (scaled_within _ _ _ _ SZ).
Qed.

Lemma fast_negative_accepted d p : dvalid d = true -> is_finite_SF d = true -> (dvalue d <= 0)%R ->
  ((exists r, fast d p = Ok (Some r)) <-> -22 <= p < 38).
Proof.
  intros V F E. unfold fast. destruct max_facts as (Vm & Fm & Em).
  destruct ((22 <? p) && (p <? 22 + 16)) eqn:C.
  - rewrite pow10_in by lia. cbn [bind]. destruct (literal_facts (p - 22) ltac:(lia)) as (Vl & Fl & Sl & _).
    assert (D : dle (dmul d (literal (p - 22))) max_significand = true).
    { destruct (mul_rounded d (literal (p - 22)) V Vl F Fl) as [VR R]. rewrite Sl, xorb_false_r, literal_exact in R by lia.
      destruct (Rlt_bool_spec (Rabs (nearest 53 1024 (dvalue d * bpow radix10 (p - 22)))) (bpow radix2 1024)) as [L|L].
      - destruct R as (R1 & R2 & R3). rewrite dle_finite, R1, Em by assumption. apply Rle_bool_true.
        apply Rle_trans with 0%R; [|apply IZR_le; lia]. apply round_le_generic; [apply FLT_exp_valid; reflexivity|apply valid_rnd_N|apply generic_format_0|].
        pose proof (bpow_ge_0 radix10 (p - 22)). nra.
      - rewrite R. replace (sign_SF d) with true; [vm_compute; reflexivity|]. destruct d as [s|s| |s m ex]; try discriminate F.
        + exfalso. cbn [SF2R] in L. rewrite Rmult_0_l in L. unfold nearest in L. rewrite round_0, Rabs_R0 in L by apply valid_rnd_N.
          pose proof (bpow_gt_0 radix2 1024). lra.
        + destruct s; [reflexivity|exfalso]. revert E. cbn [SF2R]. apply Rlt_not_le, F2R_gt_0. reflexivity. }
    rewrite D. cbn [Z.leb Z.compare andb Z.opp Pos.compare Pos.compare_cont].
    destruct (fastPath_ok (dmul d (literal (p - 22))) 22) as [r ->]; [lia|]. cbn [bind]. split; [intros _; lia|eauto].
  - cbn [bind]. assert (D : dle d max_significand = true).
    { rewrite dle_finite, Em by assumption. apply Rle_bool_true. apply Rle_trans with 0%R; [exact E|apply IZR_le; lia]. }
    rewrite D, andb_true_r. destruct ((-22 <=? p) && (p <=? 22)) eqn:G.
    + destruct (fastPath_ok d p) as [r ->]; [lia|]. cbn [bind]. split; [intros _; lia|eauto].
    + split; [intros [r Q]; discriminate Q|lia].
Qed.

(** ** withinHalfULP *)

Lemma half_ulp_wrong : exists b d n, dvalid b = true /\ is_finite_SF b = true /\ holds_number (digits_ d) (count_ d) n /\
  ~ half_unit_sign (dvalue b) (IZR n * bpow radix10 0) (withinHalfULP b d 0).
Proof.
  destruct (every_number 1) as (d & Hd); [rewrite LIMIT_415; pose proof (Wp_pos 415); assert (2 < W) by reflexivity; nia|].
  exists (literal 0), d, 1. destruct (literal_facts 0 ltac:(lia)) as (V & F & _ & _).
  split; [exact V|]. split; [exact F|]. split; [exact Hd|].
  rewrite literal_exact by lia. change (bpow radix10 0) with 1%R. unfold withinHalfULP. intros (_ & [H _] & _).
  specialize (H eq_refl). rewrite Rmult_1_r, Rminus_eq_0, Rabs_R0 in H.
  pose proof (ulp_ge_0 radix2 (binary_format 53 1024) 1) as G.
  assert (Z0 : ulp radix2 (binary_format 53 1024) 1 = 0%R) by lra.
  rewrite ulp_neq_0 in Z0 by lra. pose proof (bpow_gt_0 radix2 (cexp radix2 (binary_format 53 1024) 1)). lra.
Qed.
