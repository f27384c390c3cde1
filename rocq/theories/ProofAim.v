(** The text of a double whatever lies behind the table POWER10. *)
From Coq Require Import Reals Lra Psatz.
From Flocq Require Import Core.
From Verif Require Import Machine LibMachine SpecApi SpecDecimal SpecNumber SpecIeee SpecLayout SpecOverrun SpecGrisu SpecBehind
  ModelIeee ModelDiyfp ModelDtoa ModelFloat ModelLexi ModelPlatforms
  ProofDiyfp ProofCached ProofDigits ProofGrisu ProofLayout ProofIeee ProofDtoa ProofNumber ProofShort ProofStrict ProofUnique ProofApi
  ProofFloat ProofFloat2 ProofFloat3 ProofFloat4 ProofClose ProofMore ProofOverrun ProofRead3 ProofWindow ProofShown.
Open Scope Z_scope.
Ltac Zify.zify_post_hook ::= idtac.

(** ** The digit generator *)

Definition aimed (o : Z -> Z) (M delta s wp : Z) (ds : list Z) (kappa : Z) : Prop :=
  let a := 10 ^ (- kappa) * M - u64 (wp * factor o (- kappa)) in
  kappa < 0 -> forall Q, 10 ^ (- kappa) * (M - delta) <= Q * 2 ^ s <= 10 ^ (- kappa) * M ->
    Z.abs (nval ds * 2 ^ s - a) <= Z.abs (Q * 2 ^ s - a) /\ (Z.abs (nval ds * 2 ^ s - a) = Z.abs (Q * 2 ^ s - a) -> Q <= nval ds).

Lemma factor_eq o i : 0 <= i -> POWER10_at (Lenient o) i = Ok (factor o i).
Proof.
  intros H. unfold factor. destruct (Z.leb_spec i 9) as [C|C].
  - apply POWER10_at_ok. lia.
  - unfold POWER10_at. change (Z.of_nat (length POWER10)) with 10. unfold in_range.
    rewrite (proj2 (Z.ltb_ge i 10)) by lia. rewrite andb_false_r. reflexivity.
Qed.

Lemma fraction_aimed o cs fuel M delta s C p2 wp_w j ds ds' kap :
  32 <= s <= 60 -> 0 <= delta -> 0 <= M -> 0 <= j -> frac_state M delta s C j p2 ds ->
  pure_fraction (Lenient o) cs fuel s (2 ^ s) p2 (10 ^ j * delta) (- j) wp_w ds = Ok (ds', kap) ->
  aimed o M delta s wp_w ds' kap.
Proof.
  intros Hs Hd HM. revert p2 j ds. induction fuel as [|fuel IH]; intros p2 j ds Hj F.
  - discriminate.
  - destruct F as [Fp Fv Fdig Fh Fd Fd0 Fl Ff].
    assert (H2s : 0 < 2 ^ s) by (apply Z.pow_pos_nonneg; lia).
    assert (H60 : 2 ^ s <= 2 ^ 60) by (apply Z.pow_le_mono_r; lia).
    pose proof (Z.mod_pos_bound (10 ^ j * M) (2 ^ s) ltac:(lia)) as Hp2. rewrite <- Fp in Hp2.
    assert (H10 : 0 < 10 ^ j) by (apply Z.pow_pos_nonneg; lia).
    assert (E10 : 10 ^ (j + 1) = 10 ^ j * 10) by (rewrite Z.pow_add_r by lia; reflexivity).
    cbn [pure_fraction].
    assert (Hdj : 0 <= 10 ^ j * delta) by nia.
    rewrite (u64_small (p2 * 10)) by lia. rewrite (u64_small (10 ^ j * delta * 10)) by lia.
    rewrite shr64_ok by lia. cbn [bind].
    rewrite land_ones_u64 by lia.
    set (t := 2 ^ s) in *.
    pose proof (Z.div_mod (10 ^ j * M) t ltac:(lia)) as EM. rewrite <- Fv, <- Fp in EM.
    set (d := p2 * 10 / t). set (p2' := (p2 * 10) mod t).
    assert (Ep : p2 * 10 = t * d + p2') by (unfold d, p2'; apply Z.div_mod; lia).
    assert (Hp2' : 0 <= p2' < t) by (apply Z.mod_pos_bound; lia).
    assert (Hdd : digit d).
    { unfold digit, d; split; [apply Z.div_pos; lia|apply Z.div_lt_upper_bound; lia]. }
    clearbody d p2'.
    rewrite digit_char by exact Hdd.
    assert (Hne : ds <> []) by (destruct Fh as (x & r & -> & _); discriminate).
    rewrite pure_push_ne by exact Hne.
    assert (EM' : 10 ^ (j + 1) * M = t * (10 * nval ds + d) + p2') by (rewrite E10; nia).
    assert (Eq' : (10 ^ (j + 1) * M) / t = 10 * nval ds + d).
    { symmetry. apply (Z.div_unique_pos _ t _ p2'); [lia|exact EM']. }
    assert (Er' : (10 ^ (j + 1) * M) mod t = p2').
    { symmetry. apply (Z.mod_unique_pos _ t (10 * nval ds + d)); [lia|exact EM']. }
    replace (- (- j - 1)) with (j + 1) by lia.
    replace (10 ^ j * delta * 10) with (10 ^ (j + 1) * delta) by (rewrite E10; ring).
    destruct (Z.ltb_spec p2' (10 ^ (j + 1) * delta)) as [Hlt|Hge].
    + rewrite factor_eq by lia. cbn [bind]. set (p := factor o (j + 1)).
      assert (Hle : 10 ^ (j + 1) * delta <= d * t + p2') by (rewrite E10; nia).
      unfold digit in Hdd.
      destruct (pure_round_last_ok ds d (10 ^ (j + 1) * delta) p2' t (u64 (wp_w * p))) as (m & E & Hm & Hmle & Hclose);
        [lia|rewrite E10; lia|lia|lia|].
      rewrite E. cbn [bind]. intros X. apply Ok_inj in X. injection X as <- <-.
      unfold aimed. cbv zeta. intros _ Q. replace (- (- j - 1)) with (j + 1) by lia. fold p. fold t. intros HQ. rewrite nval_snoc.
      pose proof (Z.mod_pos_bound (wp_w * p) (2 ^ 64) ltac:(lia)) as UR. fold (u64 (wp_w * p)) in UR. set (W := u64 (wp_w * p)) in *.
      replace ((10 * nval ds + (d - m)) * t - (10 ^ (j + 1) * M - W)) with (- (p2' + m * t - W)) by (rewrite EM'; ring).
      set (i := 10 * nval ds + d - Q) in *.
      assert (EQ : Q * t = 10 ^ (j + 1) * M - p2' - i * t) by (unfold i; rewrite EM'; ring).
      rewrite EQ in *. replace (10 ^ (j + 1) * M - p2' - i * t - (10 ^ (j + 1) * M - W)) with (- (p2' + i * t - W)) by ring.
      rewrite !Z.abs_opp. assert (HI : 0 <= i).
      { destruct (Z.le_gt_cases 0 i) as [|Hi]; [assumption|exfalso].
        assert (i * t <= (-1) * t) by (apply Z.mul_le_mono_nonneg_r; lia). lia. }
      destruct (Hclose UR i HI) as [A B]; [lia|]. split; [exact A|]. intros X. specialize (B X). unfold i in B. lia.
    + replace (- j - 1) with (- (j + 1)) by lia. apply IH; [lia|]. split.
        -- symmetry. exact Er'.
        -- rewrite nval_snoc. symmetry. exact Eq'.
        -- apply Forall_app. split; [exact Fdig|]. constructor; [exact Hdd|constructor].
        -- apply head_snoc, Fh.
        -- exact Hge.
        -- lia.
        -- rewrite app_length, Nat2Z.inj_add. cbn [length]. lia.
        -- intros i Hi. destruct (Z.eq_dec i (- (j + 1))) as [->|Hne2].
           ++ replace (0 <=? - (j + 1)) with false by lia. unfold rest_at.
              replace (0 <=? - (j + 1)) with false by lia.
              replace (- - (j + 1)) with (j + 1) by lia. fold t. rewrite Er'. exact Hge.
           ++ apply Ff. lia.
Qed.

Lemma digits_aimed o cs W Mp delta k ds kap :
  32 <= - de Mp <= 60 -> 0 < delta < df Mp -> df Mp < 2 ^ 64 -> 2 ^ (- de Mp) <= df Mp ->
  pure_digits (Lenient o) cs W Mp delta k = Ok (ds, k + kap) ->
  aimed o (df Mp) delta (- de Mp) (df (DiyFp_sub Mp W)) ds kap.
Proof.
  intros Hs Hd HM Hp. unfold pure_digits.
  set (s := - de Mp) in *. set (M := df Mp) in *.
  assert (H2s : 0 < 2 ^ s) by (apply Z.pow_pos_nonneg; lia).
  assert (H60 : 2 ^ s <= 2 ^ 60) by (apply Z.pow_le_mono_r; lia).
  assert (H32 : 2 ^ 32 <= 2 ^ s) by (apply Z.pow_le_mono_r; lia).
  rewrite shl64_ok by lia. cbn [bind]. rewrite Z.mul_1_l.
  rewrite shr64_ok by lia. cbn [bind]. rewrite land_ones_u64 by lia.
  assert (Hp1 : 1 <= M / 2 ^ s < 2 ^ 32).
  { split; [apply Z.div_le_lower_bound; lia|apply Z.div_lt_upper_bound; lia]. }
  unfold u32. rewrite Z.mod_small by lia.
  set (p1 := M / 2 ^ s) in *. set (p2 := M mod 2 ^ s).
  pose proof (Z.div_mod M (2 ^ s) ltac:(lia)) as EM. fold p1 p2 in EM.
  pose proof (Z.mod_pos_bound M (2 ^ s) ltac:(lia)) as Hp2. fold p2 in Hp2.
  destruct (decimalCount_spec p1 ltac:(lia)) as (HC & HC1 & HC2). specialize (HC2 ltac:(lia)).
  set (C := decimalCount p1) in *. set (t := 2 ^ s) in *.
  assert (Hlow : 10 ^ (C - 1) * t <= M) by nia.
  destruct (pure_integral_ok (Lenient o) M delta s C p2 (df (DiyFp_sub Mp W)) (Z.to_nat C) p1 [])
    as (r & E & R); fold t; try lia.
  - split; rewrite ?Z2Nat.id by lia; fold t.
    + lia.
    + change (nval []) with 0. lia.
    + constructor.
    + intros _. split; [lia|exact HC2].
    + congruence.
    + cbn [length]. lia.
    + lia.
  - rewrite E. cbn [bind]. destruct r as [ds1 kap1|ds1].
    + intros X. apply Ok_inj in X. injection X as -> EK. intros a HK. destruct R as [[R _] _]. lia.
    + destruct R as (p1' & [Ip1 IM Id In Ic Il If]).
      change (10 ^ Z.of_nat 0) with 1 in *. change (Z.of_nat 0) with 0 in *.
      assert (p1' = 0) by lia. subst p1'. fold t in IM.
      assert (Hne : ds1 <> []) by (intros ->; destruct (In eq_refl); lia).
      destruct (Ic Hne) as [Hh Hdl].
      destruct (pure_fraction (Lenient o) cs FRACTION_FUEL s t p2 delta 0 (df (DiyFp_sub Mp W)) ds1) as [[ds2 kap2]| | |] eqn:EF;
        cbn [bind]; try discriminate.
      intros X. apply Ok_inj in X. injection X as <- EK. assert (kap2 = kap) by lia. subst kap2.
      apply (fraction_aimed o cs FRACTION_FUEL M delta s C p2 (df (DiyFp_sub Mp W)) 0 ds1); try lia.
      * split; fold t.
        -- rewrite Z.mul_1_l. reflexivity.
        -- rewrite Z.mul_1_l. apply (Z.div_unique_pos M t (nval ds1) p2); lia.
        -- exact Id.
        -- exact Hh.
        -- lia.
        -- lia.
        -- lia.
        -- intros i Hi. replace (0 <=? i) with true by lia. unfold rest_at.
           replace (0 <=? i) with true by lia. apply If. lia.
      * change (10 ^ 0 * delta) with (1 * delta). rewrite Z.mul_1_l. exact EF.
Qed.

Lemma grisu_aimed tc o u ds K F E k kap : tc_policy tc = Lenient o -> finite_pos u ->
  getCachedPower EvalDouble (norm_e u) = Ok (MkDiyFp F E, k) -> pure_grisu tc u = Ok (ds, K) -> grisu_ok u ds K F E k kap ->
  aimed o (hi_of (dbl_f u) F) (hi_of (dbl_f u) F - lo_of (dbl_f u) F) (shift_of u E) (hi_of (dbl_f u) F - mid_of (dbl_f u) F) ds kap.
Proof.
  intros Ho H GC P G. destruct (grisu2_unfold tc u H) as (F' & E' & k' & CK & G' & _ & U). cbn zeta in *.
  rewrite GC in G'. apply Ok_inj in G'. injection G' as <- <- <-.
  destruct (finite_pos_f u H) as [Hf He]. pose proof CK as [CF Ce Ckk CC].
  destruct (scaled_bounds (dbl_f u) F Hf CF) as (S1 & S2 & S3 & S4 & S5 & S6).
  assert (Hs : 32 <= shift_of u E <= 60) by (unfold shift_of; lia).
  pose proof (pow2_range _ Hs) as Hp. rewrite Ho, P in U. symmetry in U. rewrite (go_K _ _ _ _ _ _ _ G) in U.
  apply digits_aimed in U; cbn [df de] in *; rewrite ?Z.opp_involutive in *; try lia.
  unfold DiyFp_sub in U. cbn [df de] in U. fold (mid_of (dbl_f u) F) in U.
  pose proof (mid_between (dbl_f u) F Hf CF). rewrite u64_small in U by lia. exact U.
Qed.

(** ** In real numbers *)

Open Scope R_scope.

Lemma aim_R o u ds K F E k kap Q : finite_pos u -> grisu_ok u ds K F E k kap ->
  aimed o (hi_of (dbl_f u) F) (hi_of (dbl_f u) F - lo_of (dbl_f u) F) (shift_of u E) (hi_of (dbl_f u) F - mid_of (dbl_f u) F) ds kap ->
  lo_R u F E k <= IZR Q * bpow radix10 K <= hi_R u F E k ->
  let A := aim o (- k) (mid_of (dbl_f u) F) (hi_of (dbl_f u) F) K * unit_R u E k in
  Rabs (digits_R ds K - A) <= Rabs (IZR Q * bpow radix10 K - A) /\
  (Rabs (digits_R ds K - A) = Rabs (IZR Q * bpow radix10 K - A) -> (Q <= nval ds)%Z).
Proof.
  intros H G AI B A. unfold A, aim. cbv zeta. pose proof (go_K _ _ _ _ _ _ _ G) as EK.
  replace (- - k - K)%Z with (- kap)%Z by lia. destruct (Z.leb_spec (- kap) 0) as [C|C].
  - apply (close_R u ds K F E k kap Q H G ltac:(lia) B).
  - specialize (AI ltac:(lia) Q). destruct (scaled_facts u ds K F E k kap H G) as [Hs _].
    destruct B as [L U]. subst K. unfold lo_R, hi_R in L, U.
    set (M := hi_of (dbl_f u) F) in *. set (m := lo_of (dbl_f u) F) in *.
    set (w := mid_of (dbl_f u) F) in *. set (s := shift_of u E) in *.
    replace (M - (M - m))%Z with m in AI by ring. unfold u64 in AI.
    set (v := ((M - w) * factor o (- kap) mod 2 ^ 64)%Z) in *.
    unfold digits_R. unfold unit_R in *. fold s in L, U |- *.
    rewrite bpow_plus in *. rewrite (bpow_opp radix2) in *.
    pose proof (bpow_gt_0 radix10 k) as P1. pose proof (bpow_gt_0 radix2 s) as P2. pose proof (bpow_gt_0 radix10 kap) as P3.
    assert (PJ : (0 < 10 ^ (- kap))%Z) by (apply Z.pow_pos_nonneg; lia).
    assert (EJ : bpow radix10 kap = / IZR (10 ^ (- kap))).
    { rewrite pow10_bpow by lia. rewrite bpow_opp, Rinv_inv. reflexivity. }
    assert (PR : 0 < IZR (10 ^ (- kap))) by (apply IZR_lt; exact PJ).
    rewrite <- (pow10_bpow (- kap)) by lia.
    rewrite EJ in *. rewrite <- (pow2_bpow s) in * by lia.
    set (x := bpow radix10 k) in *. set (y := (2 ^ s)%Z) in *. set (z := (10 ^ (- kap))%Z) in *.
    assert (PP : 0 < x * / IZR z * / IZR y).
    { apply Rmult_lt_0_compat; [apply Rmult_lt_0_compat; [lra|exact P3]|apply Rinv_0_lt_compat; lra]. }
    assert (EQ : forall a, IZR a * (x * / IZR z) = IZR (a * y) * (x * / IZR z * / IZR y)) by (intros a; rewrite !mult_IZR; field; lra).
    assert (EU : forall a, IZR a * (x * / IZR y) = IZR (z * a) * (x * / IZR z * / IZR y)) by (intros a; rewrite !mult_IZR; field; lra).
    assert (EA : (IZR M - IZR v / IZR z) * (x * / IZR y) = IZR (z * M - v) * (x * / IZR z * / IZR y))
      by (rewrite minus_IZR, mult_IZR; field; lra).
    rewrite EQ, EU in L. rewrite EQ, EU in U. rewrite !EQ, EA.
    apply Rmult_le_reg_r in L; [|exact PP]. apply Rmult_le_reg_r in U; [|exact PP]. apply le_IZR in L. apply le_IZR in U.
    specialize (AI ltac:(lia)). rewrite <- !Rmult_minus_distr_r, <- !minus_IZR. apply abs_scale; [exact PP|exact AI].
Qed.

Section Behind.
Context (u : Z) (H : bits64 u) (HF : double_finite u) (HN : double_value u <> 0).

Lemma behind_unique o N P N' P' : printed_behind o (Rabs (double_value u)) N P -> printed_behind o (Rabs (double_value u)) N' P' ->
  N = N' /\ P = P'.
Proof.
  intros (g & lo & mid & hi & unit & W & A & I & C) (g' & lo' & mid' & hi' & unit' & W' & A' & I' & C').
  destruct (window_same u H HF HN _ _ _ _ _ _ _ _ _ _ W W') as (<- & <- & <- & <- & <-).
  pose proof (place_unique _ _ _ _ _ _ A A') as <-. split; [|reflexivity].
  destruct (C N' I') as [C1 C2]. destruct (C' N I) as [C3 C4]. cbv zeta beta in *.
  assert (X := Rle_antisym _ _ C1 C3). specialize (C2 X). specialize (C4 (eq_sym X)). lia.
Qed.

Lemma shown_behind_unique o s s' : shown_behind o u s -> shown_behind o u s' -> s = s'.
Proof.
  intros (N & P & D & t & PD & CN & W & ->) (N' & P' & D' & t' & PD' & CN' & W' & ->).
  destruct (behind_unique o _ _ _ _ PD PD') as [<- <-].
  pose proof (canonical_natural_unique _ _ _ CN CN') as <-.
  rewrite (written_unique _ _ _ _ (proj1 CN) W W'). reflexivity.
Qed.

Lemma behind_text e o : tc_policy (fe_tc (e_float e)) = Lenient o -> exists s, lexi e (VDouble u) = Ok s /\ shown_behind o u s.
Proof.
  intros S. destruct (finite_format_bits (e_float e) u H HF HN) as (ds & K & F0 & E & k & kap & P & G & GC & (x & D & Ho) & _ & _).
  assert (FP : finite_pos (u mod 2 ^ 63)).
  { apply abs_finite; [exact H|apply double_finite_iff; assumption|apply nonzero_field; assumption]. }
  assert (Le : lenient (fe_tc (e_float e))) by (exists o; exact S).
  rewrite defined_eq in D, P by exact Le.
  pose proof (digits_good _ _ _ _ _ _ (go_digits _ _ _ _ _ _ _ G)) as GD.
  exists (sign_text u ++ layout ds K). split.
  - rewrite lexi_double, double_finite_bits, D by assumption. cbn [bind]. apply Ho.
  - exists (nval ds), K, (map dchr ds), (layout ds K). rewrite (abs_double u H HF).
    split; [|split; [apply digits_canonical; exact GD|split]].
    + do 5 eexists. split; [apply (window_of _ _ _ _ FP GC (go_cached _ _ _ _ _ _ _ G))|].
      split; [exact (search_place _ _ _ _ _ _ _ FP G)|]. split; [exact (digits_within _ _ _ _ _ _ _ FP G)|].
      intros D' B. exact (aim_R o _ _ _ _ _ _ _ D' FP G (grisu_aimed _ _ _ _ _ _ _ _ _ S FP GC P G) B).
    + rewrite map_length, Z.add_comm. apply layout_written; [exact GD|]. apply (grisu_exponent _ _ _ _ _ _ _ G).
    + f_equal. unfold sign_text. rewrite double_sign_eq by exact H. reflexivity.
Qed.

Lemma behind_exactly e o s : tc_policy (fe_tc (e_float e)) = Lenient o -> (lexi e (VDouble u) = Ok s <-> shown_behind o u s).
Proof.
  intros S. destruct (behind_text e o S) as (s0 & L & X). split.
  - rewrite L. intros Y. apply Ok_inj in Y. subst s0. exact X.
  - intros Y. rewrite L. f_equal. eapply shown_behind_unique; eassumption.
Qed.

End Behind.

(** ** Far below the table *)

Open Scope Z_scope.

(** The factor is a word of 32 bits; eleven places below the scale the distance is then less
    than half a step of the last digit. *)
Lemma aimed_largest o u ds K F E k kap Q : finite_pos u -> grisu_ok u ds K F E k kap ->
  aimed o (hi_of (dbl_f u) F) (hi_of (dbl_f u) F - lo_of (dbl_f u) F) (shift_of u E) (hi_of (dbl_f u) F - mid_of (dbl_f u) F) ds kap ->
  kap < -10 -> 10 ^ (- kap) * lo_of (dbl_f u) F <= Q * 2 ^ shift_of u E <= 10 ^ (- kap) * hi_of (dbl_f u) F -> Q <= nval ds.
Proof.
  intros H G AI Hk HQ. destruct (scaled_facts u ds K F E k kap H G) as [Hs [C1 C2]]. destruct (finite_pos_f u H) as [Hf He].
  pose proof (go_digits _ _ _ _ _ _ _ G) as DG. pose proof (go_cached _ _ _ _ _ _ _ G) as [CF _ _ _].
  pose proof (mid_between (dbl_f u) F Hf CF) as MB. destruct (scaled_bounds (dbl_f u) F Hf CF) as (S1 & S2 & S3 & S4 & S5 & S6).
  specialize (AI ltac:(lia) Q). unfold aimed in AI. cbv zeta in AI.
  pose proof (int_count_range (hi_of (dbl_f u) F) (shift_of u E)) as CR.
  pose proof (do_first _ _ _ _ _ _ DG (kap + 1) ltac:(lia)) as FI. rewrite (proj2 (Z.leb_gt 0 (kap + 1))) in FI by lia.
  unfold rest_at in FI. rewrite (proj2 (Z.leb_gt 0 (kap + 1))) in FI by lia.
  set (M := hi_of (dbl_f u) F) in *. set (m := lo_of (dbl_f u) F) in *. set (w := mid_of (dbl_f u) F) in *.
  set (s := shift_of u E) in *. replace (M - (M - m)) with m in AI by ring. specialize (AI HQ). destruct AI as [AI _].
  assert (P2 : 0 < 2 ^ s) by (apply Z.pow_pos_nonneg; lia).
  pose proof (Z.mod_pos_bound (10 ^ (- (kap + 1)) * M) (2 ^ s) P2) as RB.
  assert (TP : 10 ^ 10 <= 10 ^ (- (kap + 1))) by (apply Z.pow_le_mono_r; lia).
  assert (DB : 10 ^ 10 * (M - m) < 2 ^ s).
  { eapply Z.le_lt_trans; [|exact (proj2 RB)]. eapply Z.le_trans; [|exact FI]. apply Z.mul_le_mono_nonneg_r; [|exact TP]. clear - S2 MB; lia. }
  assert (FB : 0 <= factor o (- kap) < 2 ^ 32).
  { unfold factor. rewrite (proj2 (Z.leb_gt (- kap) 9)) by lia. apply Z.mod_pos_bound. reflexivity. }
  assert (VB : 0 <= (M - w) * factor o (- kap) <= (M - m) * 2 ^ 32).
  { split; [apply Z.mul_nonneg_nonneg; [clear - MB; lia|exact (proj1 FB)]|].
    apply Z.mul_le_mono_nonneg; [clear - MB; lia|clear - MB; lia|exact (proj1 FB)|apply Z.lt_le_incl; exact (proj2 FB)]. }
  change (10 ^ 10) with 10000000000 in *. change (2 ^ 32) with 4294967296 in *.
  assert (S60 : 2 ^ s <= 2 ^ 60) by (apply Z.pow_le_mono_r; lia).
  rewrite u64_small in AI by lia. set (v := (M - w) * factor o (- kap)) in *.
  assert (V2 : 2 * v < 2 ^ s) by lia. clear - AI V2 VB HQ P2.
  set (t := 2 ^ s) in *. set (z := 10 ^ (- kap) * M) in *.
  destruct (Z.le_gt_cases Q (nval ds)) as [|L]; [assumption|exfalso].
  assert (nval ds * t <= (Q - 1) * t) by (apply Z.mul_le_mono_nonneg_r; lia). lia.
Qed.

Section Words.
Context (u : Z) (H : bits64 u) (HF : double_finite u) (HN : double_value u <> 0%R).

(** More than ten places below the scale, whatever the memory holds, the largest decimal of
    the window. *)
Lemma behind_largest o N P g lo mid hi unit D : printed_behind o (Rabs (double_value u)) N P ->
  window (Rabs (double_value u)) g lo mid hi unit -> P < - g - 10 ->
  within lo hi unit (IZR D * bpow radix10 P) -> D <= N.
Proof.
  intros PB W L B. set (e := linux_x86_64 (Lenient o)).
  destruct (finite_format_bits (e_float e) u H HF HN) as (ds & K & F0 & E & k & kap & X & G & GC & _).
  assert (FP : finite_pos (u mod 2 ^ 63)).
  { apply abs_finite; [exact H|apply double_finite_iff; assumption|apply nonzero_field; assumption]. }
  rewrite defined_eq in X by (exists o; reflexivity).
  pose proof (grisu_aimed (fe_tc (e_float e)) o _ _ _ _ _ _ _ eq_refl FP GC X G) as AI.
  assert (PB' : printed_behind o (Rabs (double_value u)) (nval ds) K).
  { rewrite (abs_double u H HF). do 5 eexists. split; [apply (window_of _ _ _ _ FP GC (go_cached _ _ _ _ _ _ _ G))|].
    split; [exact (search_place _ _ _ _ _ _ _ FP G)|]. split; [exact (digits_within _ _ _ _ _ _ _ FP G)|].
    intros D' B'. exact (aim_R o _ _ _ _ _ _ _ D' FP G AI B'). }
  destruct (behind_unique u H HF HN o _ _ _ _ PB PB') as [-> ->].
  rewrite (abs_double u H HF) in W.
  destruct (window_unique _ _ _ _ _ _ _ _ _ FP GC (go_cached _ _ _ _ _ _ _ G) W) as (-> & -> & -> & -> & ->).
  pose proof (go_K _ _ _ _ _ _ _ G) as EK. assert (Hk : kap < -10) by lia.
  apply (aimed_largest o _ _ _ _ _ _ _ D FP G AI Hk).
  destruct (scaled_facts _ _ _ _ _ _ _ FP G) as [Hs _].
  set (v := u mod 2 ^ 63) in *. set (s := shift_of v E) in *.
  assert (PQ : 0 < 10 ^ (- kap)) by (apply Z.pow_pos_nonneg; lia). pose proof (unit_pos v E k) as UP.
  assert (PR : (0 < IZR (10 ^ (- kap)))%R) by (apply IZR_lt; exact PQ).
  assert (EQ : (IZR D * bpow radix10 K = IZR (D * 2 ^ s) * (/ IZR (10 ^ (- kap)) * unit_R v E k))%R).
  { rewrite (in_units v E k D K) by (fold s; lia). rewrite EK. replace (k + kap - k) with kap by lia.
    replace kap with (- - kap) at 1 by lia. rewrite bpow_opp, <- pow10_bpow by lia. fold s. rewrite <- pow2_bpow by lia.
    rewrite mult_IZR. ring. }
  assert (PP : (0 < / IZR (10 ^ (- kap)) * unit_R v E k)%R) by (apply Rmult_lt_0_compat; [apply Rinv_0_lt_compat; exact PR|exact UP]).
  assert (EZ : forall a, (IZR a * unit_R v E k = IZR (10 ^ (- kap) * a) * (/ IZR (10 ^ (- kap)) * unit_R v E k))%R)
    by (intros a; rewrite mult_IZR; field; lra).
  unfold within in B. rewrite EQ, !EZ in B. destruct B as [B1 B2].
  apply Rmult_le_reg_r in B1; [|exact PP]. apply Rmult_le_reg_r in B2; [|exact PP]. apply le_IZR in B1. apply le_IZR in B2.
  split; assumption.
Qed.

(** Only the word right behind the table matters. *)
Lemma printed_words o o' N P : o 10 mod 2 ^ 32 = o' 10 mod 2 ^ 32 ->
  printed_behind o (Rabs (double_value u)) N P -> printed_behind o' (Rabs (double_value u)) N P.
Proof.
  intros A PB. destruct (behind_text u H HF HN (linux_x86_64 (Lenient o')) o' eq_refl) as (s & _ & (N' & P' & _ & _ & PB' & _)).
  pose proof PB as (g & lo & mid & hi & unit & W & PL & I & C).
  pose proof PB' as (g' & lo' & mid' & hi' & unit' & W' & PL' & I' & C').
  destruct (window_same u H HF HN _ _ _ _ _ _ _ _ _ _ W' W) as (-> & -> & -> & -> & ->).
  pose proof (place_unique _ _ _ _ _ _ PL' PL) as ->.
  destruct (Z.lt_ge_cases P (- g - 10)) as [L|L].
  - pose proof (behind_largest o N P g lo mid hi unit N' PB W L I').
    pose proof (behind_largest o' N' P g lo mid hi unit N PB' W L I).
    replace N with N' by lia. exact PB'.
  - exists g, lo, mid, hi, unit. split; [exact W|]. split; [exact PL|]. split; [exact I|].
    replace (aim o' g mid hi P) with (aim o g mid hi P); [exact C|].
    unfold aim. cbv zeta. replace (factor o' (- g - P)) with (factor o (- g - P)); [reflexivity|].
    unfold factor. destruct (Z.leb_spec (- g - P) 9); [reflexivity|]. replace (- g - P) with 10 by lia. exact A.
Qed.

Lemma words_only e e' o o' : tc_policy (fe_tc (e_float e)) = Lenient o -> tc_policy (fe_tc (e_float e')) = Lenient o' ->
  o 10 mod 2 ^ 32 = o' 10 mod 2 ^ 32 -> lexi e (VDouble u) = lexi e' (VDouble u).
Proof.
  intros S S' A. destruct (behind_text u H HF HN e o S) as (s & L & (N & P & D & t & PD & CN & W & E)). rewrite L.
  symmetry. apply (behind_exactly u H HF HN e' o' s S'). exists N, P, D, t. split; [|auto].
  eapply printed_words; eassumption.
Qed.

(** And only for one place. *)
Lemma printed_places o o' N P g : decimal_scale (Rabs (double_value u)) g -> P <> - g - 10 ->
  printed_behind o (Rabs (double_value u)) N P -> printed_behind o' (Rabs (double_value u)) N P.
Proof.
  intros DS NP PB. set (m := fun i => if i =? 10 then o' i else o i).
  apply (printed_words m o'); [reflexivity|]. pose proof PB as (g' & lo & mid & hi & unit & W & PL & I & C).
  rewrite (scale_unique _ _ _ DS (proj1 W)) in NP.
  exists g', lo, mid, hi, unit. split; [exact W|]. split; [exact PL|]. split; [exact I|].
  replace (aim m g' mid hi P) with (aim o g' mid hi P); [exact C|].
  unfold aim. cbv zeta. replace (factor m (- g' - P)) with (factor o (- g' - P)); [reflexivity|].
  unfold factor, m. rewrite (proj2 (Z.eqb_neq (- g' - P) 10)) by lia. reflexivity.
Qed.

Lemma places_only e e' g P : lenient (fe_tc (e_float e)) -> lenient (fe_tc (e_float e')) ->
  decimal_scale (Rabs (double_value u)) g -> last_place (Rabs (double_value u)) P -> P <> - g - 10 ->
  lexi e (VDouble u) = lexi e' (VDouble u).
Proof.
  intros [o S] [o' S'] DS LP NP. destruct (behind_text u H HF HN e o S) as (s & L & (N & P' & D & t & PD & CN & W & E)). rewrite L.
  symmetry. apply (behind_exactly u H HF HN e' o' s S'). exists N, P', D, t. split; [|auto].
  eapply printed_places; try eassumption. replace P' with P; [exact NP|].
  destruct PD as (g' & lo & mid & hi & unit & Wi & PL & _). apply (last_place_unique u H HF HN); [exact LP|].
  do 5 eexists. split; eassumption.
Qed.

(** The same text as under the strict reading, where that gives one. *)
Lemma shown_anyway o s : shown u s -> shown_behind o u s.
Proof.
  intros S. apply (behind_exactly u H HF HN (linux_x86_64 (Lenient o)) o s eq_refl).
  apply (text_shown u H HF HN). exact S.
Qed.

End Words.

Lemma behind_case : shown_behind (fun _ => 0) 0x40769D4FC660619E (str "361.83197629593806") /\
  shown_behind (fun _ => 2 ^ 32 - 1) 0x40769D4FC660619E (str "361.83197629593805").
Proof.
  destruct (sample 0x40769D4FC660619E eq_refl) as (A & B & C). split.
  - apply (behind_exactly _ A B C (linux_x86_64 zero_memory)); vm_compute; reflexivity.
  - apply (behind_exactly _ A B C (linux_x86_64 (Lenient (fun _ => 2 ^ 32 - 1)))); vm_compute; reflexivity.
Qed.

Lemma behind_refuted : exists e e' u, bits64 u /\ double_finite u /\ double_value u <> 0%R /\
  lenient (fe_tc (e_float e)) /\ lenient (fe_tc (e_float e')) /\ lexi e (VDouble u) <> lexi e' (VDouble u).
Proof.
  destruct (sample 0x40769D4FC660619E eq_refl) as (A & B & C).
  exists (linux_x86_64 zero_memory), (linux_x86_64 (Lenient (fun _ => 2 ^ 32 - 1))), 0x40769D4FC660619E.
  split; [exact A|]. split; [exact B|]. split; [exact C|]. split; [eexists; reflexivity|]. split; [eexists; reflexivity|].
  vm_compute. discriminate.
Qed.

(** 1 + 2^-52 has the scale 4 and is printed to the place -16. *)
Lemma largest_case w : lexi (linux_x86_64 (Lenient w)) (VDouble 0x3FF0000000000001) = Ok (str "1.0000000000000003").
Proof.
  destruct (sample 0x3FF0000000000001 eq_refl) as (A & B & C). set (u := 0x3FF0000000000001) in *.
  assert (L : lexi (linux_x86_64 zero_memory) (VDouble u) = Ok (str "1.0000000000000003")) by (vm_compute; reflexivity).
  assert (J : json_number (str "1.0000000000000003") (Number false (str "1") (Some (str "0000000000000003")) None)).
  { split; [exists "e"%char; split; [left; reflexivity|reflexivity]|]. cbn [n_integer n_fraction n_exponent].
    split; [discriminate|]. split; [repeat constructor; cbn; lia|]. split; [intros r X; discriminate X|].
    split; [intros f X; injection X as <-; split; [discriminate|repeat constructor; cbn; lia]|discriminate]. }
  destruct (place_printed u A B C _ _ _ L J) as (N & P & M & (g & lo & mid & hi & unit & W & PL & _) & _).
  rewrite <- L. apply (places_only u A B C _ _ 4 P); try (eexists; reflexivity).
  - apply everyday_scale. change (double_value u) with (IZR (2 ^ 52 + 1) * bpow radix2 (-52))%R.
    change (bpow radix2 (-11)) with (/ IZR 2048)%R. change (bpow radix2 16) with (IZR 65536). change (bpow radix2 (-52)) with (/ IZR (2 ^ 52))%R.
    change (2 ^ 52 + 1) with 4503599627370497. change (2 ^ 52) with 4503599627370496. rewrite Rabs_pos_eq; lra.
  - do 5 eexists. split; eassumption.
  - intros ->. change (n_magnitude _) with (10000000000000003 * bpow radix10 (-16))%R in M.
    change (- (4) - 10) with (2 + -16) in M. rewrite bpow_plus, <- Rmult_assoc in M.
    apply Rmult_eq_reg_r in M; [|pose proof (bpow_gt_0 radix10 (-16)); lra].
    change (bpow radix10 2) with (IZR 100) in M. rewrite <- mult_IZR in M. apply eq_IZR in M. lia.
Qed.

(** So whatever lies behind the table, the last digit is not always the closest. *)
Open Scope R_scope.

Lemma every_memory w : exists e u s n N K' D, tc_policy (fe_tc (e_float e)) = Lenient w /\ bits64 u /\ double_finite u /\ double_value u <> 0 /\ lexi e (VDouble u) = Ok s /\
  json_number s n /\ n_magnitude n = IZR N * bpow radix10 K' /\ (N mod 10 <> 0)%Z /\
  let x := Rabs (double_value u) in let margin := ulp radix2 fexp64 x / 500 in
  lower_end x + margin <= IZR D * bpow radix10 K' <= upper_end x - margin /\
  ~ Rabs (n_magnitude n - x) <= Rabs (IZR D * bpow radix10 K' - x) + margin.
Proof.
  set (u := 0x3FF0000000000001%Z).
  assert (H : bits64 u) by (split; cbn; lia).
  assert (F : double_finite u) by reflexivity.
  assert (FP : finite_pos u) by (split; cbn; lia).
  assert (DV : double_value u = IZR (2 ^ 52 + 1) * bpow radix2 (-52)).
  { reflexivity. }
  exists (linux_x86_64 (Lenient w)), u, (str "1.0000000000000003"), (Number false (str "1") (Some (str "0000000000000003")) None),
    10000000000000003%Z, (-16)%Z, 10000000000000002%Z.
  assert (P2 : bpow radix2 (-52) = / IZR (2 ^ 52)) by reflexivity.
  assert (P10 : bpow radix10 (-16) = / IZR (10 ^ 16)) by reflexivity.
  assert (EF : dbl_f u = (2 ^ 52 + 1)%Z) by reflexivity. assert (EE : dbl_e u = (-52)%Z) by reflexivity.
  assert (EX : double_value u = dbl_R u) by (rewrite DV; unfold dbl_R; rewrite EF, EE; reflexivity).
  pose proof (dbl_R_pos u FP) as PV.
  split; [reflexivity|]. split; [exact H|]. split; [exact F|]. split; [rewrite EX; lra|]. split; [apply largest_case|].
  split.
  { split; [exists "e"%char; split; [left; reflexivity|reflexivity]|]. cbn [n_integer n_fraction n_exponent].
    split; [discriminate|]. split; [repeat constructor; cbn; lia|]. split; [intros r X; discriminate X|].
    split; [intros f X; injection X as <-; split; [discriminate|repeat constructor; cbn; lia]|discriminate]. }
  split; [reflexivity|]. split; [discriminate|]. cbn zeta.
  rewrite EX, (Rabs_pos_eq (dbl_R u)) by lra.
  assert (UP : upper_end (dbl_R u) = upper_R u) by (unfold upper_end; symmetry; apply upper_is_mid; exact FP).
  rewrite UP, lower_end_eq, dbl_ulp by exact FP. destruct (gap_R u) as [-> ->].
  replace (dbl_f u =? 2 ^ 52)%Z with false by (rewrite EF; reflexivity).
  change (n_magnitude _) with (10000000000000003 * bpow radix10 (-16)).
  rewrite EE, <- EX, DV, P2, P10. clear. change (IZR (2 ^ 52 + 1)) with 4503599627370497. change (IZR (2 ^ 52)) with 4503599627370496.
  change (IZR (10 ^ 16)) with 10000000000000000.
  split; [lra|]. intros X.
  rewrite (Rabs_pos_eq (10000000000000003 * _ - _)) in X by lra.
  rewrite (Rabs_left1 (10000000000000002 * _ - _)) in X by lra. lra.
Qed.
