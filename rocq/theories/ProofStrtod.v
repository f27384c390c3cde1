(** Proofs about powers of ten in double precision and the decimal fast path. *)
From Coq Require Import Reals Lra Psatz Floats.SpecFloat.
From Flocq Require Import Core IEEE754.BinarySingleNaN.
From Verif Require Import Machine SpecDecimal SpecNumber SpecIeee SpecRead ModelFloat ModelStrtod
  ProofDiyfp ProofCached ProofDigits ProofGrisu ProofIeee ProofRound.
Open Scope Z_scope.
Ltac Zify.zify_post_hook ::= idtac.

Notation dvalid := (SpecFloat.valid_binary 53 1024).
Notation dvalue := (SF2R radix2).

(** ** Arithmetic on doubles is correctly rounded *)

Lemma rounded_zero prec emax s : good_format prec emax -> rounded prec emax (S754_zero s) s 0.
Proof.
  intros G. split; [reflexivity|].
  assert (N : nearest prec emax 0 = 0%R) by (apply round_0; apply valid_rnd_N).
  rewrite N, Rabs_R0, Rlt_bool_true by apply bpow_gt_0. repeat split; reflexivity.
Qed.

Lemma mul_rounded a b : dvalid a = true -> dvalid b = true ->
  is_finite_SF a = true -> is_finite_SF b = true ->
  rounded 53 1024 (dmul a b) (xorb (sign_SF a) (sign_SF b)) (dvalue a * dvalue b).
Proof.
  intros Va Vb Fa Fb.
  destruct a as [sa|sa| |sa ma ea]; try discriminate Fa;
  destruct b as [sb|sb| |sb mb eb]; try discriminate Fb;
  cbn [SF2R sign_SF]; rewrite ?Rmult_0_l, ?Rmult_0_r; try apply (rounded_zero _ _ _ double_good).
  unfold dmul, SFmul. rewrite binary_round_aux_equiv.
  exact (@BinarySingleNaN.Bmult_correct_aux 53 1024 eq_refl eq_refl mode_NE sa ma ea Va sb mb eb Vb).
Qed.

Lemma div_rounded_double a b : dvalid a = true -> dvalid b = true ->
  is_finite_SF a = true -> is_finite_SF b = true -> dvalue b <> 0%R ->
  rounded 53 1024 (ddiv a b) (xorb (sign_SF a) (sign_SF b)) (dvalue a / dvalue b).
Proof.
  intros Va Vb Fa Fb Nb.
  destruct a as [sa|sa| |sa ma ea]; try discriminate Fa;
  destruct b as [sb|sb| |sb mb eb]; try discriminate Fb; try (exfalso; apply Nb; reflexivity);
  cbn [SF2R sign_SF].
  - unfold Rdiv. rewrite Rmult_0_l. apply (rounded_zero _ _ _ double_good).
  - unfold ddiv, SFdiv.
    pose proof (@BinarySingleNaN.Bdiv_correct_aux 53 1024 eq_refl eq_refl mode_NE sa ma ea sb mb eb) as H.
    cbv zeta in H.
    destruct (SFdiv_core_binary 53 1024 (Z.pos ma) ea (Z.pos mb) eb) as [[m e] l].
    rewrite binary_round_aux_equiv. exact H.
Qed.

Lemma dle_finite a b : dvalid a = true -> dvalid b = true ->
  is_finite_SF a = true -> is_finite_SF b = true ->
  dle a b = Rle_bool (dvalue a) (dvalue b).
Proof.
  intros Va Vb Fa Fb. unfold dle, SFleb.
  pose proof (BinarySingleNaN.Bcompare_correct 53 1024 (SF2B a Va) (SF2B b Vb)) as H.
  rewrite !is_finite_SF2B, !B2R_SF2B in H. specialize (H Fa Fb).
  unfold BinarySingleNaN.Bcompare in H. rewrite !B2SF_SF2B in H. rewrite H.
  destruct (Rcompare_spec (dvalue a) (dvalue b)).
  - rewrite Rle_bool_true; [reflexivity|lra].
  - rewrite Rle_bool_true; [reflexivity|lra].
  - rewrite Rle_bool_false; [reflexivity|lra].
Qed.

(** ** The table *)

Lemma pow_exponents_eq : pow_exponents = map Z.of_nat (seq 0 309).
Proof. vm_compute. reflexivity. Qed.

Lemma pow10_in n : 0 <= n <= 308 -> pow10 n = Ok (literal n).
Proof.
  intros H. unfold pow10.
  replace (in_range n 309) with true by (unfold in_range; lia). f_equal.
  unfold POWER10. rewrite pow_exponents_eq, map_map.
  rewrite (nth_indep _ S754_nan (literal (Z.of_nat 0))) by (rewrite map_length, seq_length; lia).
  rewrite (map_nth (fun x => literal (Z.of_nat x))), seq_nth by lia.
  f_equal. lia.
Qed.

Lemma pow10_out n : ~ (0 <= n <= 308) -> pow10 n = UB "read outside of POWER10".
Proof. intros H. unfold pow10. now replace (in_range n 309) with false by (unfold in_range; lia). Qed.

Lemma decimal_one n : decimal_R false 1 n = bpow radix10 n.
Proof. unfold decimal_R. cbn [cond_Zopp]. apply Rmult_1_l. Qed.

Lemma literal_rounded n : rounded 53 1024 (literal n) false (bpow radix10 n).
Proof. rewrite <- decimal_one. apply round_decimal_rounded; [exact double_good|lia]. Qed.

(** Integers up to 2^53 are doubles. *)
Lemma small_format N : Z.abs N <= 2 ^ 53 -> generic_format radix2 (binary_format 53 1024) (IZR N).
Proof.
  intros H. destruct (Z.eq_dec (Z.abs N) (2 ^ 53)) as [E|E].
  - assert (X : IZR N = bpow radix2 53 \/ IZR N = (- bpow radix2 53)%R).
    { destruct (Zabs_spec N) as [[_ Y]|[_ Y]]; rewrite Y in E.
      - left. rewrite E. reflexivity.
      - right. replace N with (- 2 ^ 53) by lia. rewrite opp_IZR. reflexivity. }
    assert (G : generic_format radix2 (binary_format 53 1024) (bpow radix2 53)).
    { apply generic_format_bpow. vm_compute. discriminate. }
    destruct X as [-> | ->]; [exact G|]. apply generic_format_opp. exact G.
  - apply generic_format_FLT. exists (Float radix2 N 0).
    + unfold F2R. cbn. ring.
    + change (Z.abs N < 2 ^ 53). lia.
    + cbn. lia.
Qed.

Lemma pow5_bound n : 0 <= n <= 22 -> 5 ^ n <= 2 ^ 53.
Proof.
  intros H. apply Z.le_trans with (5 ^ 22); [apply Z.pow_le_mono_r; lia|].
  vm_compute. discriminate.
Qed.

Lemma pow10_format n : 0 <= n <= 22 -> generic_format radix2 (binary_format 53 1024) (bpow radix10 n).
Proof.
  intros H.
  assert (P5 : 5 ^ n < 2 ^ 53).
  { apply Z.le_lt_trans with (5 ^ 22); [apply Z.pow_le_mono_r; lia|]. reflexivity. }
  apply generic_format_FLT. exists (Float radix2 (5 ^ n) n).
  - rewrite <- pow10_bpow by lia. unfold F2R. cbn [Fnum Fexp].
    rewrite <- IZR_Zpower by lia. rewrite <- mult_IZR. f_equal.
    change (radix_val radix2) with 2. rewrite <- Z.pow_mul_l. reflexivity.
  - cbn [Fnum]. rewrite Z.abs_eq by (apply Z.pow_nonneg; lia). exact P5.
  - cbn [Fexp]. lia.
Qed.

Lemma literal_facts n : 0 <= n <= 308 ->
  dvalid (literal n) = true /\ is_finite_SF (literal n) = true /\ sign_SF (literal n) = false /\
  dvalue (literal n) = nearest 53 1024 (bpow radix10 n).
Proof.
  intros H. destruct (literal_rounded n) as [V F].
  rewrite Rlt_bool_true in F; [tauto|].
  (* round 10^308 is below 2^1024 *)
  apply Rle_lt_trans with (bpow radix2 1023 * 1.5)%R.
  - assert (G : generic_format radix2 (binary_format 53 1024) (bpow radix2 1023 * 1.5)%R).
    { apply generic_format_FLT. exists (Float radix2 3 1022).
      - unfold F2R. cbn [Fnum Fexp]. change 1023%Z with (1022 + 1)%Z. rewrite bpow_plus.
        change (bpow radix2 1) with 2%R. lra.
      - reflexivity.
      - vm_compute. discriminate. }
    assert (P : (0 <= bpow radix10 n)%R) by apply bpow_ge_0.
    assert (N0 : (0 <= nearest 53 1024 (bpow radix10 n))%R)
      by (apply round_ge_generic; [apply FLT_exp_valid; reflexivity|apply valid_rnd_N|apply generic_format_0|exact P]).
    rewrite Rabs_pos_eq by exact N0.
    apply round_le_generic; [apply FLT_exp_valid; reflexivity|apply valid_rnd_N|exact G|].
    apply Rle_trans with (bpow radix10 308); [apply bpow_le; lia|].
    rewrite <- pow10_bpow by lia. rewrite <- IZR_Zpower by lia. change (radix_val radix2) with 2.
    apply Rmult_le_reg_r with 2%R; [lra|].
    replace (IZR (2 ^ 1023) * 1.5 * 2)%R with (IZR (2 ^ 1023 * 3)) by (rewrite mult_IZR; lra).
    rewrite <- mult_IZR. apply IZR_le. vm_compute. discriminate.
  - change 1024%Z with (1023 + 1)%Z. rewrite bpow_plus. change (bpow radix2 1) with 2%R.
    pose proof (bpow_gt_0 radix2 1023). lra.
Qed.

Lemma literal_exact n : 0 <= n <= 22 -> dvalue (literal n) = bpow radix10 n.
Proof.
  intros H. destruct (literal_facts n) as (_ & _ & _ & E); [lia|]. rewrite E.
  apply nearest_exact; [lia|]. now apply pow10_format.
Qed.

(** ** fastPath *)

Lemma fastPath_ok d p : p <= 308 -> exists r, fastPath d p = Ok r.
Proof.
  intros H. unfold fastPath. destruct (Z.ltb_spec p (-308)); [eauto|].
  destruct (Z.leb_spec 0 p); rewrite pow10_in by lia; cbn; eauto.
Qed.

Lemma fastPath_out d p : 308 < p -> fastPath d p = UB "read outside of POWER10".
Proof.
  intros H. unfold fastPath. destruct (Z.ltb_spec p (-308)); [lia|].
  destruct (Z.leb_spec 0 p); [|lia]. now rewrite pow10_out by lia.
Qed.

Lemma normal_ok d p : p <= 308 -> exists r, StrtodNormalPrecision d p = Ok r.
Proof.
  intros H. unfold StrtodNormalPrecision. destruct (Z.ltb_spec p (-308)).
  - destruct (fastPath_ok d (-308)) as [r ->]; [lia|]. cbn [bind]. apply fastPath_ok. lia.
  - now apply fastPath_ok.
Qed.

Lemma normal_out d p : 308 < p -> StrtodNormalPrecision d p = UB "read outside of POWER10".
Proof.
  intros H. unfold StrtodNormalPrecision. destruct (Z.ltb_spec p (-308)); [lia|].
  now apply fastPath_out.
Qed.

Lemma fast_ok d p : exists r, fast d p = Ok r.
Proof.
  unfold fast. destruct ((22 <? p) && (p <? 22 + 16)) eqn:C.
  - rewrite pow10_in by lia. cbn [bind].
    destruct ((-22 <=? 22) && (22 <=? 22) && dle (dmul d (literal (p - 22))) max_significand); [|eauto].
    destruct (fastPath_ok (dmul d (literal (p - 22))) 22) as [r ->]; [lia|]. cbn. eauto.
  - cbn [bind]. destruct ((-22 <=? p) && (p <=? 22) && dle d max_significand) eqn:D; [|eauto].
    destruct (fastPath_ok d p) as [r ->]; [lia|]. cbn. eauto.
Qed.

Lemma fastPath_small d p : dvalid d = true -> is_finite_SF d = true -> -22 <= p <= 22 ->
  exists r, fastPath d p = Ok r /\ rounded 53 1024 r (sign_SF d) (dvalue d * bpow radix10 p).
Proof.
  intros V F H. unfold fastPath. destruct (Z.ltb_spec p (-308)); [lia|].
  destruct (Z.leb_spec 0 p).
  - rewrite pow10_in by lia. cbn [bind]. eexists; split; [reflexivity|].
    destruct (literal_facts p) as (Vl & Fl & Sl & _); [lia|].
    pose proof (mul_rounded d (literal p) V Vl F Fl) as R.
    rewrite Sl, xorb_false_r, literal_exact in R by lia. exact R.
  - rewrite pow10_in by lia. cbn [bind]. eexists; split; [reflexivity|].
    destruct (literal_facts (- p)) as (Vl & Fl & Sl & _); [lia|].
    assert (N : dvalue (literal (- p)) <> 0%R).
    { rewrite literal_exact by lia. apply Rgt_not_eq, bpow_gt_0. }
    pose proof (div_rounded_double d (literal (- p)) V Vl F Fl N) as R.
    rewrite Sl, xorb_false_r, literal_exact in R by lia.
    unfold Rdiv in R. rewrite <- bpow_opp, Z.opp_involutive in R. exact R.
Qed.

Lemma max_facts : dvalid max_significand = true /\ is_finite_SF max_significand = true /\
  dvalue max_significand = IZR (2 ^ 53 - 1).
Proof.
  split; [reflexivity|]. split; [reflexivity|]. vm_compute max_significand.
  unfold SF2R, F2R. cbn. lra.
Qed.

(** In the plain case the one rounding is the final one. *)
Lemma fast_plain d p r : dvalid d = true -> is_finite_SF d = true -> p <= 22 ->
  fast d p = Ok (Some r) -> rounded 53 1024 r (sign_SF d) (dvalue d * bpow radix10 p).
Proof.
  intros V F Hp E. unfold fast in E.
  replace ((22 <? p) && (p <? 22 + 16)) with false in E by lia. cbn [bind] in E.
  destruct ((-22 <=? p) && (p <=? 22) && dle d max_significand) eqn:C; [|discriminate E].
  destruct (fastPath_small d p V F) as (r' & E' & R); [lia|]. rewrite E' in E. cbn in E.
  injection E as <-. exact R.
Qed.

(** The product in the disguised case: exact, or above the bound. *)
Lemma product_exact d N k : dvalid d = true -> is_finite_SF d = true -> dvalue d = IZR N ->
  0 <= k <= 22 -> Z.abs (N * 10 ^ k) <= 2 ^ 53 ->
  let x := dmul d (literal k) in
  dvalid x = true /\ is_finite_SF x = true /\ sign_SF x = sign_SF d /\ dvalue x = IZR (N * 10 ^ k).
Proof.
  intros V F E Hk B. cbv zeta.
  destruct (literal_facts k) as (Vl & Fl & Sl & _); [lia|].
  destruct (mul_rounded d (literal k) V Vl F Fl) as [Vx H].
  rewrite Sl, xorb_false_r, literal_exact, E, <- pow10_bpow, <- mult_IZR in H by lia.
  pose proof (small_format _ B) as G. rewrite (nearest_exact 53 1024 _ ltac:(lia) G) in H.
  rewrite Rlt_bool_true in H; [tauto|].
  rewrite <- abs_IZR. apply Rle_lt_trans with (IZR (2 ^ 53)); [now apply IZR_le|].
  rewrite <- IZR_Zpower by lia. apply IZR_lt. reflexivity.
Qed.

Lemma product_above d N k : dvalid d = true -> is_finite_SF d = true -> dvalue d = IZR N ->
  0 <= k <= 22 -> 2 ^ 53 <= N * 10 ^ k ->
  dle (dmul d (literal k)) max_significand = false.
Proof.
  intros V F E Hk B.
  destruct (literal_facts k) as (Vl & Fl & Sl & _); [lia|].
  destruct (mul_rounded d (literal k) V Vl F Fl) as [Vx H].
  rewrite Sl, xorb_false_r, literal_exact, E, <- pow10_bpow, <- mult_IZR in H by lia.
  assert (G : (IZR (2 ^ 53) <= nearest 53 1024 (IZR (N * 10 ^ k)))%R).
  { apply round_ge_generic; [apply FLT_exp_valid; reflexivity|apply valid_rnd_N| |now apply IZR_le].
    apply small_format. rewrite Z.abs_eq by lia. lia. }
  destruct max_facts as (Vm & Fm & Em).
  destruct (Rlt_bool_spec (Rabs (nearest 53 1024 (IZR (N * 10 ^ k)))) (bpow radix2 1024)).
  - destruct H as (H1 & H2 & H3). rewrite dle_finite by assumption. rewrite H1, Em.
    apply Rle_bool_false. apply Rlt_le_trans with (IZR (2 ^ 53)); [|exact G].
    apply IZR_lt. lia.
  - rewrite H.
    assert (S : sign_SF d = false).
    { destruct d as [s|s| |s m e]; try discriminate F.
      - cbn in E. assert (N = 0) by (apply eq_IZR; symmetry; exact E). subst N. lia.
      - destruct s; [|reflexivity]. exfalso.
        assert (NP : 0 < N) by (pose proof (Z.pow_pos_nonneg 10 k); nia).
        apply (Rlt_irrefl 0). apply Rlt_trans with (IZR N); [now apply IZR_lt|].
        rewrite <- E. apply F2R_lt_0. cbn. lia. }
    rewrite S. reflexivity.
Qed.

Lemma dle_max d N : dvalid d = true -> is_finite_SF d = true -> dvalue d = IZR N ->
  dle d max_significand = (N <? 2 ^ 53).
Proof.
  intros V F E. destruct max_facts as (Vm & Fm & Em).
  rewrite dle_finite, E, Em by assumption.
  destruct (Z.ltb_spec N (2 ^ 53)).
  - apply Rle_bool_true, IZR_le. lia.
  - apply Rle_bool_false, IZR_lt. lia.
Qed.

(** What is accepted. *)
Lemma fast_accepts d N p : dvalid d = true -> is_finite_SF d = true -> dvalue d = IZR N -> 0 <= N ->
  ((exists r, fast d p = Ok (Some r)) <->
   (-22 <= p <= 22 /\ N < 2 ^ 53) \/ (22 < p < 38 /\ N * 10 ^ (p - 22) < 2 ^ 53)).
Proof.
  intros V F E HN. unfold fast.
  destruct ((22 <? p) && (p <? 22 + 16)) eqn:C.
  - rewrite pow10_in by lia. cbn [bind].
    destruct (Z_lt_le_dec (N * 10 ^ (p - 22)) (2 ^ 53)) as [L|L].
    + assert (B : Z.abs (N * 10 ^ (p - 22)) <= 2 ^ 53).
      { pose proof (Z.pow_pos_nonneg 10 (p - 22)). rewrite Z.abs_eq by nia. lia. }
      destruct (product_exact d N (p - 22) V F E ltac:(lia) B) as (Vx & Fx & Sx & Ex).
      rewrite (dle_max _ _ Vx Fx Ex). replace (N * 10 ^ (p - 22) <? 2 ^ 53) with true by lia.
      cbn [Z.leb Z.compare andb Z.opp Pos.compare Pos.compare_cont].
      destruct (fastPath_ok (dmul d (literal (p - 22))) 22) as [r ->]; [lia|]. cbn [bind].
      split; [intros _; right; split; [lia|exact L]|eauto].
    + rewrite (product_above d N (p - 22) V F E) by lia. rewrite andb_false_r.
      split; [intros [r X]; discriminate X|]. intros [[X _]|[_ X]]; [lia|].
      exfalso. clear - X L. lia.
  - cbn [bind]. rewrite (dle_max d N V F E).
    destruct ((-22 <=? p) && (p <=? 22) && (N <? 2 ^ 53)) eqn:D.
    + destruct (fastPath_ok d p) as [r ->]; [lia|]. cbn [bind].
      split; [intros _; left; lia|eauto].
    + split; [intros [r X]; discriminate X|]. intros [X|[X _]]; lia.
Qed.

Lemma fast_rounded d N p r : dvalid d = true -> is_finite_SF d = true -> dvalue d = IZR N -> 0 <= N ->
  fast d p = Ok (Some r) -> rounded 53 1024 r (sign_SF d) (IZR N * bpow radix10 p).
Proof.
  intros V F E HN Ef.
  assert (A : exists r, fast d p = Ok (Some r)) by eauto.
  apply (fast_accepts d N p V F E HN) in A. destruct A as [[A _]|[A L]].
  - rewrite <- E. apply (fast_plain d p r V F); [lia|exact Ef].
  - assert (B : Z.abs (N * 10 ^ (p - 22)) <= 2 ^ 53).
    { pose proof (Z.pow_pos_nonneg 10 (p - 22)). rewrite Z.abs_eq by nia. lia. }
    destruct (product_exact d N (p - 22) V F E ltac:(lia) B) as (Vx & Fx & Sx & Ex).
    unfold fast in Ef. replace ((22 <? p) && (p <? 22 + 16)) with true in Ef by lia.
    rewrite pow10_in in Ef by lia. cbn [bind] in Ef.
    destruct ((-22 <=? 22) && (22 <=? 22) && dle (dmul d (literal (p - 22))) max_significand);
      [|discriminate Ef].
    destruct (fastPath_small _ 22 Vx Fx) as (r' & E' & R); [lia|]. rewrite E' in Ef. cbn in Ef.
    injection Ef as <-. rewrite Sx, Ex, mult_IZR, Rmult_assoc, (pow10_bpow (p - 22)), <- bpow_plus in R by lia.
    replace (p - 22 + 22) with p in R by lia. exact R.
Qed.

(** Infinities above and NaN are never accepted. *)
Lemma fast_special d p : d = S754_nan \/ d = S754_infinity false -> fast d p = Ok None.
Proof.
  intros H. unfold fast. destruct ((22 <? p) && (p <? 22 + 16)) eqn:C.
  - rewrite pow10_in by lia. cbn [bind].
    replace (dle (dmul d (literal (p - 22))) max_significand) with false; [now rewrite andb_false_r|].
    destruct (literal_facts (p - 22)) as (_ & Fl & Sl & _); [lia|].
    destruct (literal_exact (p - 22)) ; [lia|].
    destruct H as [-> | ->]; [reflexivity|].
    destruct (literal (p - 22)) as [s|s| |s m e]; try discriminate Fl; cbn in Sl; subst s; reflexivity.
  - cbn [bind]. replace (dle d max_significand) with false; [now rewrite andb_false_r|].
    now destruct H as [-> | ->].
Qed.

(** Negative significands pass the bound whatever their size, and are then rounded twice. *)
Lemma fast_negative_wrong :
  exists d N p r, dvalid d = true /\ is_finite_SF d = true /\ dvalue d = IZR N /\
    fast d p = Ok (Some r) /\ ~ rounded 53 1024 r true (IZR N * bpow radix10 p).
Proof.
  exists (SpecFloat.binary_normalize 53 1024 (-2235605297855) 0 true), (-2235605297855), 30.
  eexists. split; [reflexivity|]. split; [reflexivity|]. split.
  { vm_compute SpecFloat.binary_normalize. unfold SF2R, F2R. cbn. lra. }
  split; [vm_compute; reflexivity|].
  intros R. pose proof (round_decimal_rounded 53 1024 true 2235605297855 30 double_good eq_refl) as Q.
  unfold decimal_R in Q. cbn [cond_Zopp Z.opp] in Q.
  pose proof (rounded_unique _ _ _ _ _ _ R Q) as X. vm_compute in X. discriminate X.
Qed.

Lemma min3_ok a b c : let m := min3 a b c in
  m <= a /\ m <= b /\ m <= c /\ (m = a \/ m = b \/ m = c).
Proof. unfold min3. cbv zeta. destruct (Z.ltb_spec c b); [destruct (Z.ltb_spec c a)|destruct (Z.ltb_spec b a)]; lia. Qed.

Lemma pow10_correct n : 0 <= n <= 308 ->
  exists x, pow10 n = Ok x /\ is_finite_SF x = true /\
            rounded 53 1024 x false (bpow radix10 n) /\ (n <= 22 -> SF2R radix2 x = bpow radix10 n).
Proof.
  intros H. exists (literal n). split; [now apply pow10_in|].
  destruct (literal_facts n H) as (_ & F & _). split; [exact F|].
  split; [apply literal_rounded|]. intros H'. apply literal_exact. lia.
Qed.

Lemma callers_inside d p :
  (p <= 308 <-> exists r, fastPath d p = Ok r) /\
  (p <= 308 <-> exists r, StrtodNormalPrecision d p = Ok r).
Proof.
  split; (split; [intros H|intros [r H]]).
  - now apply fastPath_ok.
  - destruct (Z_le_gt_dec p 308); [assumption|]. rewrite fastPath_out in H by lia. discriminate H.
  - now apply normal_ok.
  - destruct (Z_le_gt_dec p 308); [assumption|]. rewrite normal_out in H by lia. discriminate H.
Qed.

Lemma outside_witness : exists d p, - 2 ^ 31 <= p < 2 ^ 31 /\
  fastPath d p = UB "read outside of POWER10" /\
  StrtodNormalPrecision d p = UB "read outside of POWER10".
Proof. exists (literal 0), 309. split; [lia|]. split; vm_compute; reflexivity. Qed.
