(** The decimal fast path for every finite significand, and when StrtodNormalPrecision is
    accurate. *)
From Coq Require Import Reals Lra Psatz Floats.SpecFloat.
From Flocq Require Import Core IEEE754.BinarySingleNaN.
From Flocq Require Import Relative.
From Verif Require Import Machine SpecDecimal SpecNumber SpecIeee SpecRead SpecBig SpecStrtod ModelFloat ModelBigint ModelStrtod
  ProofDiyfp ProofCached ProofDigits ProofGrisu ProofIeee ProofRound ProofStrtod ProofStrtod2.
Open Scope Z_scope.
Ltac Zify.zify_post_hook ::= idtac.

(** Doubles are multiples of the smallest one, and so are their products with integers; these
    are rounded with a small relative error however small they are. *)
Lemma double_multiple d : dvalid d = true -> is_finite_SF d = true -> exists M, dvalue d = (IZR M * bpow radix2 (-1074))%R.
Proof.
  intros V F. destruct d as [s|s| |s m e]; try discriminate F.
  - exists 0. cbn [SF2R]. now rewrite Rmult_0_l.
  - cbn [SpecFloat.valid_binary] in V. unfold SpecFloat.bounded, SpecFloat.canonical_mantissa in V.
    apply andb_prop in V as [V _]. apply Zeq_bool_eq in V. unfold SpecFloat.fexp, SpecFloat.emin in V.
    exists (cond_Zopp s (Zpos m) * 2 ^ (e + 1074)). cbn [SF2R]. unfold F2R. cbn [Fnum Fexp].
    rewrite mult_IZR. change (2 ^ (e + 1074)) with (Zpower radix2 (e + 1074)). rewrite IZR_Zpower by lia. rewrite Rmult_assoc, <- bpow_plus.
    f_equal. f_equal. lia.
Qed.
Lemma nearest_multiple M : let x := (IZR M * bpow radix2 (-1074))%R in
  exists a, nearest 53 1024 x = (x * (1 + a))%R /\ (Rabs a <= unit)%R.
Proof.
  intros x. destruct (Rle_lt_dec (bpow radix2 (-1022)) (Rabs x)) as [L|L].
  - destruct (relative_error_N_FLT_ex radix2 (-1074) 53 ltac:(lia) (fun n => negb (Z.even n)) x L) as (a & A & E).
    exists a. split; [exact E|]. eapply Rle_trans; [exact A|]. rewrite bpow_plus. change (bpow radix2 1) with 2%R. change (bpow radix2 (- (53))) with unit. lra.
  - exists 0%R. rewrite Rabs_R0, Rplus_0_r, Rmult_1_r. split; [|apply bpow_ge_0].
    apply nearest_exact; [lia|]. apply generic_format_FLT. exists (Float radix2 M (-1074)); [reflexivity| |cbn; lia].
    cbn [Fnum]. apply lt_IZR. rewrite abs_IZR. unfold x in L.
    rewrite Rabs_mult, (Rabs_pos_eq (bpow radix2 (-1074))) in L by apply bpow_ge_0.
    apply Rmult_lt_reg_r with (bpow radix2 (-1074)); [apply bpow_gt_0|]. eapply Rlt_le_trans; [exact L|].
    change (radix_val radix2 ^ 53) with (Zpower radix2 53). rewrite IZR_Zpower, <- bpow_plus by lia. apply bpow_le. lia.
Qed.

Lemma product_relative d k : dvalid d = true -> is_finite_SF d = true -> 0 <= k ->
  exists a, nearest 53 1024 (dvalue d * bpow radix10 k) = (dvalue d * bpow radix10 k * (1 + a))%R /\ (Rabs a <= unit)%R.
Proof.
  intros V F K. destruct (double_multiple d V F) as [M E].
  replace (dvalue d * bpow radix10 k)%R with (IZR (M * 10 ^ k) * bpow radix2 (-1074))%R; [apply nearest_multiple|].
  rewrite E, mult_IZR. change (10 ^ k) with (Zpower radix10 k). rewrite IZR_Zpower by lia. ring.
Qed.

Lemma any_step d k : dvalid d = true -> is_finite_SF d = true -> 0 <= k <= 22 ->
  let z := dmul d (literal k) in dvalid z = true /\
  ((is_finite_SF z = true /\ sign_SF z = sign_SF d /\ dvalue z = nearest 53 1024 (dvalue d * bpow radix10 k)) \/
   (z = S754_infinity (sign_SF d) /\ (bpow radix2 1024 <= Rabs (nearest 53 1024 (dvalue d * bpow radix10 k)))%R)).
Proof.
  intros V F K z. destruct (literal_facts k ltac:(lia)) as (Vl & Fl & Sl & _).
  destruct (mul_rounded d (literal k) V Vl F Fl) as [VR R]. rewrite Sl, xorb_false_r, literal_exact in R by lia.
  split; [exact VR|]. destruct (Rlt_bool_spec (Rabs (nearest 53 1024 (dvalue d * bpow radix10 k))) (bpow radix2 1024)) as [L|L].
  - left. destruct R as (R1 & R2 & R3). easy.
  - right. split; [exact R|exact L].
Qed.
Lemma sign_value d : is_finite_SF d = true -> if sign_SF d then (dvalue d <= 0)%R else (0 <= dvalue d)%R.
Proof.
  intros F. destruct d as [s|s| |s m e]; try discriminate F; cbn [sign_SF SF2R].
  - destruct s; lra.
  - destruct s; [apply Rlt_le, F2R_lt_0|apply Rlt_le, F2R_gt_0]; reflexivity.
Qed.
Lemma nearest_sign x : ((0 <= x -> 0 <= nearest 53 1024 x) /\ (x <= 0 -> nearest 53 1024 x <= 0))%R.
Proof.
  split; intros H; [apply round_ge_generic|apply round_le_generic]; try apply valid_rnd_N; try apply generic_format_0; try exact H;
    apply FLT_exp_valid; reflexivity.
Qed.

(** What is accepted. *)
Lemma fast_accepts_all d p : dvalid d = true -> is_finite_SF d = true ->
  ((exists r, fast d p = Ok (Some r)) <->
   (-22 <= p <= 22 /\ (dvalue d <= IZR (2 ^ 53 - 1))%R) \/
   (22 < p < 38 /\ (nearest 53 1024 (dvalue d * bpow radix10 (p - 22)) <= IZR (2 ^ 53 - 1))%R)).
Proof.
  intros V F. unfold fast. destruct max_facts as (Vm & Fm & Em).
  destruct ((22 <? p) && (p <? 22 + 16)) eqn:C.
  - rewrite pow10_in by lia. cbn [bind]. destruct (any_step d (p - 22) V F ltac:(lia)) as [V1 G].
    set (z := dmul d (literal (p - 22))) in *.
    assert (D : dle z max_significand = true <-> (nearest 53 1024 (dvalue d * bpow radix10 (p - 22)) <= IZR (2 ^ 53 - 1))%R).
    { destruct G as [(F1 & _ & E1)|(E1 & L)].
      - rewrite dle_finite, Em, E1 by assumption. destruct (Rle_bool_spec (nearest 53 1024 (dvalue d * bpow radix10 (p - 22))) (IZR (2 ^ 53 - 1))).
        + tauto. + split; [discriminate|lra].
      - rewrite E1. pose proof (sign_value d F) as S. pose proof (bpow_ge_0 radix10 (p - 22)) as P.
        destruct (nearest_sign (dvalue d * bpow radix10 (p - 22))) as [N1 N2]. destruct (sign_SF d).
        + split; [intros _|reflexivity]. apply Rle_trans with 0%R; [apply N2; nra|apply IZR_le; lia].
        + split; [discriminate|]. intros X. exfalso. rewrite Rabs_pos_eq in L by (apply N1; nra).
          assert (B : (IZR (2 ^ 53 - 1) < bpow radix2 1024)%R); [|lra].
          apply Rlt_le_trans with (bpow radix2 53); [|apply bpow_le; lia]. rewrite <- IZR_Zpower by lia. apply IZR_lt. reflexivity. }
    change ((-22 <=? 22) && (22 <=? 22)) with true. cbn [andb]. destruct (dle z max_significand).
    + destruct (fastPath_ok z 22) as [r ->]; [lia|]. cbn [bind]. split; [|eauto]. intros _. right. split; [lia|now apply D].
    + split; [intros [r X]; discriminate X|]. intros [[X _]|[_ X]]; [lia|]. apply D in X. discriminate X.
  - cbn [bind]. rewrite dle_finite, Em by assumption.
    destruct (Rle_bool_spec (dvalue d) (IZR (2 ^ 53 - 1))) as [L|L].
    + rewrite andb_true_r. destruct ((-22 <=? p) && (p <=? 22)) eqn:G.
      * destruct (fastPath_ok d p) as [r ->]; [lia|]. cbn [bind]. split; [|eauto]. intros _. left. split; [lia|exact L].
      * split; [intros [r X]; discriminate X|]. intros [[X _]|[X _]]; lia.
    + rewrite andb_false_r. split; [intros [r X]; discriminate X|]. intros [[_ X]|[X _]]; [lra|lia].
Qed.

(** The second step: what is scaled by 10^22 is the product of the first. *)
Lemma far_out y : (bpow radix2 1024 <= Rabs y)%R -> (bpow radix2 1024 <= Rabs (nearest 53 1024 (y * bpow radix10 22)))%R.
Proof.
  intros H. apply abs_round_ge_generic; [apply FLT_exp_valid; reflexivity|apply valid_rnd_N| |].
  - apply generic_format_bpow. unfold binary_format, FLT_exp. lia.
  - rewrite Rabs_mult, (Rabs_pos_eq (bpow radix10 22)) by apply bpow_ge_0. pose proof (ten_big 22 ltac:(lia)).
    pose proof (bpow_ge_0 radix2 1024). nra.
Qed.
Lemma fast_twice d p r : dvalid d = true -> is_finite_SF d = true -> 22 < p -> fast d p = Ok (Some r) ->
  rounded 53 1024 r (sign_SF d) (nearest 53 1024 (dvalue d * bpow radix10 (p - 22)) * bpow radix10 22).
Proof.
  intros V F P X. assert (A : exists r, fast d p = Ok (Some r)) by eauto. apply (fast_accepts_all d p V F) in A.
  destruct A as [[A _]|[A _]]; [lia|]. unfold fast in X. replace ((22 <? p) && (p <? 22 + 16)) with true in X by lia.
  rewrite pow10_in in X by lia. cbn [bind] in X.
  destruct ((-22 <=? 22) && (22 <=? 22) && dle (dmul d (literal (p - 22))) max_significand); [|discriminate X].
  destruct (any_step d (p - 22) V F ltac:(lia)) as [V1 [(F1 & S1 & E1)|(E1 & L)]].
  - destruct (fastPath_small _ 22 V1 F1) as (r' & E' & R); [lia|]. rewrite E' in X. cbn [bind] in X. injection X as <-.
    rewrite S1, E1 in R. exact R.
  - unfold fastPath in X. cbn [Z.ltb Z.compare Z.leb] in X. rewrite pow10_in in X by lia. cbn [bind] in X. injection X as <-. rewrite E1.
    replace (dmul (S754_infinity (sign_SF d)) (literal 22)) with (S754_infinity (sign_SF d))
      by (destruct (sign_SF d); vm_compute; reflexivity).
    split; [reflexivity|]. rewrite Rlt_bool_false by (apply far_out; exact L). reflexivity.
Qed.

Lemma fast_within_all d p r : dvalid d = true -> is_finite_SF d = true ->
  fast d p = Ok (Some r) -> within r (sign_SF d) (dvalue d * bpow radix10 p).
Proof.
  intros V F X. pose proof unit_small as U. destruct (Z.le_gt_cases p 22) as [P|P].
  - unfold fast in X. replace ((22 <? p) && (p <? 22 + 16)) with false in X by lia. cbn [bind] in X.
    destruct ((-22 <=? p) && (p <=? 22) && dle d max_significand) eqn:D; [|discriminate X].
    destruct (fastPath_scaled d p V F ltac:(lia)) as (z & Ez & SZ). rewrite Ez in X. injection X as <-. exact (scaled_within _ _ _ _ SZ).
  - pose proof (fast_twice d p r V F P X) as [VR R]. destruct (product_relative d (p - 22) V F ltac:(lia)) as (a & Ea & A).
    assert (Y : exists b, nearest 53 1024 (nearest 53 1024 (dvalue d * bpow radix10 (p - 22)) * bpow radix10 22) =
                (nearest 53 1024 (dvalue d * bpow radix10 (p - 22)) * bpow radix10 22 * (1 + b))%R /\ (Rabs b <= unit)%R).
    { assert (M : exists M, nearest 53 1024 (dvalue d * bpow radix10 (p - 22)) = (IZR M * bpow radix2 (-1074))%R).
      { assert (G : generic_format radix2 (binary_format 53 1024) (nearest 53 1024 (dvalue d * bpow radix10 (p - 22))))
          by (apply generic_format_round; [apply FLT_exp_valid; reflexivity|apply valid_rnd_N]).
        apply FLT_format_generic in G; [|reflexivity]. destruct G as [[m e] G1 G2 G3]. cbn [Fnum Fexp] in *.
        exists (m * 2 ^ (e + 1074)). rewrite G1. unfold F2R. cbn [Fnum Fexp]. rewrite mult_IZR.
        change (2 ^ (e + 1074)) with (Zpower radix2 (e + 1074)). change (3 - 1024 - 53) with (-1074) in G3. rewrite IZR_Zpower by lia.
        rewrite Rmult_assoc, <- bpow_plus. f_equal. f_equal. lia. }
      destruct M as [M ->].
      replace (IZR M * bpow radix2 (-1074) * bpow radix10 22)%R with (IZR (M * 10 ^ 22) * bpow radix2 (-1074))%R; [apply nearest_multiple|].
      rewrite mult_IZR. change (10 ^ 22) with (Zpower radix10 22). rewrite IZR_Zpower by lia. ring. }
    destruct Y as (b & Eb & B). rewrite Eb, Ea in R.
    replace (dvalue d * bpow radix10 (p - 22) * (1 + a) * bpow radix10 22 * (1 + b))%R
      with (dvalue d * bpow radix10 p * ((1 + a) * (1 + b)))%R in R.
    2:{ replace p with ((p - 22) + 22) at 1 by lia. rewrite bpow_plus. ring. }
    split; [exact VR|]. set (x := (dvalue d * bpow radix10 p)%R) in *. rewrite fifty.
    pose proof (times unit a b U A B) as T.
    destruct (Rlt_bool_spec (Rabs (x * ((1 + a) * (1 + b)))) (bpow radix2 1024)) as [L|L].
    + left. destruct R as (R1 & R2 & R3). split; [exact R2|]. rewrite R1.
      replace (x * ((1 + a) * (1 + b)) - x)%R with (x * ((1 + a) * (1 + b) - 1))%R by ring. rewrite Rabs_mult.
      pose proof (Rabs_pos x). pose proof (bpow_ge_0 radix2 (-1074)). nra.
    + right. split; [exact R|]. apply large_enough. eapply Rle_trans; [exact L|]. rewrite Rabs_mult.
      apply Rmult_le_compat_l; [apply Rabs_pos|]. apply Rabs_le_inv in T. apply Rabs_le. lra.
Qed.

(** StrtodNormalPrecision is accurate exactly where the exponent is not too low, or the value
    so small that zero is close enough. *)
Lemma normal_exactly d p r : dvalid d = true -> is_finite_SF d = true -> StrtodNormalPrecision d p = Ok r ->
  let x := (dvalue d * bpow radix10 p)%R in
  (within r (sign_SF d) x <-> -616 <= p \/ ((1 - bpow radix2 (-50)) * Rabs x <= bpow radix2 (-1074))%R).
Proof.
  intros V F E x. assert (P : p <= 308).
  { destruct (Z.le_gt_cases p 308) as [L|L]; [exact L|]. rewrite normal_out in E by lia. discriminate E. }
  destruct (Z.le_gt_cases (-616) p) as [L|L].
  - split; [now left|]. intros _. apply (normal_accuracy d p r V F (or_introl (conj L P)) E).
  - rewrite normal_zero in E by lia. injection E as <-. unfold within. cbn [is_finite_SF SF2R].
    rewrite Rminus_0_l, Rabs_Ropp. split.
    + intros [_ [[_ H]|[H _]]]; [|discriminate H]. right. lra.
    + intros [H|H]; [lia|]. split; [reflexivity|]. left. split; [reflexivity|]. lra.
Qed.
