(** The functions of ModelDirected round in their direction; extraction is correctly rounded; what
    is printed and read back. *)
From Coq Require Import Reals Lra Psatz Floats.SpecFloat.
From Flocq Require Import Core IEEE754.BinarySingleNaN.
From Verif Require Import Machine LibMachine SpecApi SpecDecimal SpecNumber SpecIeee SpecRead SpecMore SpecRounding SpecDirected
  ModelInt ModelText ModelIeee ModelDiyfp ModelDtoa ModelFloat ModelLexi ModelRounding ModelDirected
  ProofDiyfp ProofIeee ProofDtoa ProofFloat ProofRound ProofRead ProofRead2 ProofRounding.
Open Scope Z_scope.
Ltac Zify.zify_post_hook ::= idtac.

(** ** The functions are Flocq's *)

Definition flocq_mode (d : direction) : mode :=
  match d with ToNearest => mode_NE | Downward => mode_DN | Upward => mode_UP | TowardZero => mode_ZR end.

Lemma choose_equiv d neg m l : d_choose d neg m l = choice_mode (flocq_mode d) neg m l.
Proof.
  destruct d; cbn [d_choose flocq_mode choice_mode].
  - apply (round_nearest_even_equiv neg).
  - unfold away, Round.round_sign_DN, Round.cond_incr. now destruct l.
  - unfold away, Round.round_sign_UP, Round.cond_incr. now destruct l.
  - unfold away. now destruct l.
Qed.

Lemma overflow_equiv prec emax d neg : d_overflow prec emax d neg = binary_overflow prec emax (flocq_mode d) neg.
Proof. destruct d, neg; reflexivity. Qed.

Lemma round_aux_equiv d prec emax neg m e l :
  d_round_aux d prec emax neg m e l = BinarySingleNaN.binary_round_aux prec emax (flocq_mode d) neg m e l.
Proof.
  unfold d_round_aux, BinarySingleNaN.binary_round_aux.
  destruct (shr_fexp prec emax m e l) as [r1 e1]. rewrite choose_equiv.
  destruct (shr_fexp prec emax _ e1 loc_Exact) as [r2 e2]. destruct (shr_m r2); [reflexivity| |reflexivity].
  unfold binary_fit_aux. rewrite overflow_equiv. reflexivity.
Qed.

Lemma round_equiv d prec emax neg m e :
  d_round d prec emax neg m e = BinarySingleNaN.binary_round prec emax (flocq_mode d) neg m e.
Proof.
  unfold d_round, BinarySingleNaN.binary_round, BinarySingleNaN.shl_align_fexp.
  destruct (shl_align _ _ _) as [mz ez]. apply round_aux_equiv.
Qed.

(** ** Rounding in a direction, as Flocq says it *)

Definition d_rounded (d : direction) (prec emax : Z) (z : spec_float) (neg : bool) (x : R) : Prop :=
  SpecFloat.valid_binary prec emax z = true /\
  let r := round radix2 (binary_format prec emax) (round_mode (flocq_mode d)) x in
  if Rlt_bool (Rabs r) (bpow radix2 emax)
  then SF2R radix2 z = r /\ is_finite_SF z = true /\ sign_SF z = neg
  else z = d_overflow prec emax d neg.

Lemma d_round_rounded d prec emax s m e : good_format prec emax ->
  d_rounded d prec emax (d_round d prec emax s m e) s (F2R (Float radix2 (cond_Zopp s (Zpos m)) e)).
Proof.
  intros [Hp He]. rewrite round_equiv. unfold d_rounded. rewrite overflow_equiv.
  exact (@BinarySingleNaN.binary_round_correct prec emax Hp He (flocq_mode d) s m e).
Qed.

Lemma d_normalize_rounded d prec emax s m e : good_format prec emax ->
  d_rounded d prec emax (d_normalize d prec emax (cond_Zopp s (Zpos m)) e s) s (F2R (Float radix2 (cond_Zopp s (Zpos m)) e)).
Proof.
  intros G. destruct s; [exact (d_round_rounded d prec emax true m e G)|exact (d_round_rounded d prec emax false m e G)].
Qed.

Lemma d_div_rounded d prec emax s n q : good_format prec emax ->
  d_rounded d prec emax
    (let '(m, e, l) := SpecFloat.SFdiv_core_binary prec emax (Zpos n) 0 (Zpos q) 0 in d_round_aux d prec emax s m e l) s
    (F2R (Float radix2 (cond_Zopp s (Zpos n)) 0) / IZR (Zpos q)).
Proof.
  intros [Hp He].
  pose proof (@BinarySingleNaN.Bdiv_correct_aux prec emax Hp He (flocq_mode d) s n 0 false q 0) as H. cbv zeta in H.
  destruct (SpecFloat.SFdiv_core_binary prec emax (Z.pos n) 0 (Z.pos q) 0) as [[m e] l].
  rewrite xorb_false_r in H. rewrite round_aux_equiv. unfold d_rounded. rewrite overflow_equiv.
  replace (F2R (Float radix2 (cond_Zopp false (Zpos q)) 0)) with (IZR (Zpos q)) in H
    by (unfold F2R; cbn [Fnum Fexp cond_Zopp bpow]; ring).
  exact H.
Qed.

Lemma d_decimal_rounded d prec emax neg D K : good_format prec emax -> 0 < D ->
  d_rounded d prec emax (d_round_decimal d prec emax neg D K) neg (decimal_R neg D K).
Proof.
  intros G HD. destruct D as [|n|n]; [lia| |lia]. unfold d_round_decimal, decimal_R.
  destruct (Z.leb_spec 0 K) as [HK|HK].
  - assert (P : 0 < 10 ^ K) by (apply Z.pow_pos_nonneg; lia).
    destruct (Zpos n * 10 ^ K) as [|x|x] eqn:X; [lia| |lia].
    pose proof (d_normalize_rounded d prec emax neg x 0 G) as H.
    replace (F2R (Float radix2 (cond_Zopp neg (Zpos x)) 0))
      with (IZR (cond_Zopp neg (Zpos n)) * bpow radix10 K)%R in H; [exact H|].
    rewrite <- X. unfold F2R. cbn [Fnum Fexp bpow]. rewrite Rmult_1_r, <- ProofCached.pow10_bpow by lia.
    rewrite <- mult_IZR. f_equal. destruct neg; cbn [cond_Zopp]; lia.
  - assert (P : 0 < 10 ^ (- K)) by (apply Z.pow_pos_nonneg; lia).
    destruct (10 ^ (- K)) as [|q|q] eqn:Q; [lia| |lia].
    pose proof (d_div_rounded d prec emax neg n q G) as H.
    replace (F2R (Float radix2 (cond_Zopp neg (Zpos n)) 0) / IZR (Zpos q))%R
      with (IZR (cond_Zopp neg (Zpos n)) * bpow radix10 K)%R in H; [exact H|].
    rewrite <- Q, ProofCached.pow10_bpow by lia. unfold F2R. cbn [Fnum Fexp]. rewrite bpow_opp.
    cbn [bpow]. unfold Rdiv. rewrite Rinv_inv. ring.
Qed.

(** ** Rounding in a direction, as SpecDirected says it *)

(** The sign of [x] is [neg], where it has one. *)
Definition sign_fits (neg : bool) (x : R) : Prop := if neg then (x <= 0)%R else (0 <= x)%R.

Lemma sf_cases z : is_finite_SF z = true -> forall x, (not_above z x <-> (SF2R radix2 z <= x)%R) /\ (not_below z x <-> (x <= SF2R radix2 z)%R).
Proof. destruct z; cbn; try discriminate; tauto. Qed.

Lemma at_most_finite y z : is_finite_SF y = true -> is_finite_SF z = true -> at_most y z <-> (SF2R radix2 y <= SF2R radix2 z)%R.
Proof. destruct y, z; try discriminate; intros; reflexivity. Qed.

Lemma largest_value prec emax neg : good_format prec emax ->
  SpecFloat.valid_binary prec emax (S754_finite neg (Z.to_pos (2 ^ prec - 1)) (emax - prec)) = true /\
  SF2R radix2 (S754_finite neg (Z.to_pos (2 ^ prec - 1)) (emax - prec)) = signed neg (bpow radix2 emax - bpow radix2 (emax - prec)).
Proof.
  intros [Hp He].
  assert (P : 0 < 2 ^ prec - 1).
  { assert (2 ^ 1 <= 2 ^ prec) by (apply Z.pow_le_mono_r; lia). lia. }
  split.
  - pose proof (@binary_overflow_correct prec emax Hp He mode_ZR neg) as H. exact H.
  - cbn [SF2R]. unfold F2R. cbn [Fnum Fexp]. rewrite Z2Pos.id by exact P.
    replace (bpow radix2 emax) with (IZR (2 ^ prec) * bpow radix2 (emax - prec))%R.
    + destruct neg; cbn [cond_Zopp signed]; [rewrite opp_IZR|]; rewrite minus_IZR; ring.
    + change 2 with (radix_val radix2) at 1. rewrite IZR_Zpower by lia. rewrite <- bpow_plus. f_equal. lia.
Qed.

Lemma valid_bound prec emax y : good_format prec emax -> SpecFloat.valid_binary prec emax y = true -> is_finite_SF y = true ->
  (Rabs (SF2R radix2 y) <= bpow radix2 emax - bpow radix2 (emax - prec))%R.
Proof.
  intros [Hp He] V F. rewrite <- (B2R_SF2B prec emax y V). apply (@abs_B2R_le_emax_minus_prec prec emax Hp).
Qed.

Lemma valid_flt prec emax : good_format prec emax -> Valid_exp (binary_format prec emax).
Proof. intros [Hp _]. apply FLT_exp_valid. exact Hp. Qed.

Lemma below_of_round prec emax z neg x d : good_format prec emax -> (d = Downward \/ d = TowardZero /\ (0 <= x)%R /\ neg = false) -> sign_fits neg x ->
  d_rounded d prec emax z neg x -> greatest_below prec emax z x.
Proof.
  intros G Hd S [V H]. pose proof (valid_flt prec emax G) as VE. cbv zeta in H.
  set (r := round radix2 (binary_format prec emax) Zfloor x).
  assert (Er : round radix2 (binary_format prec emax) (round_mode (flocq_mode d)) x = r).
  { destruct Hd as [-> | (-> & X & _)]; [reflexivity|]. cbn [flocq_mode round_mode]. apply round_ZR_DN; assumption. }
  rewrite Er in H. clear Er.
  assert (RX : (r <= x)%R) by (apply round_DN_pt; exact VE).
  assert (RM : forall y, SpecFloat.valid_binary prec emax y = true -> is_finite_SF y = true -> (SF2R radix2 y <= x)%R -> (SF2R radix2 y <= r)%R).
  { intros y Vy Fy L. destruct (sf_format prec emax y G Vy Fy) as [GF _].
    apply (round_DN_pt radix2 (binary_format prec emax) x); assumption. }
  split; [exact V|]. destruct (Rlt_bool_spec (Rabs r) (bpow radix2 emax)) as [L|L].
  - destruct H as (Hz & Fz & _). split.
    + apply (sf_cases z Fz). rewrite Hz. exact RX.
    + intros y Vy Hy. destruct (is_finite_SF y) eqn:Fy.
      * apply at_most_finite; [exact Fy|exact Fz|]. rewrite Hz. apply RM; [exact Vy|exact Fy|]. apply (sf_cases y Fy). exact Hy.
      * destruct y as [|[|]| |]; try discriminate Fy; cbn in Hy; try discriminate Hy; [|contradiction].
        destruct z; try discriminate Fz; exact I.
  - destruct neg.
    + assert (d = Downward) as -> by (destruct Hd as [X|(_ & _ & X)]; [exact X|discriminate X]).
      cbn [d_overflow] in H. subst z. split; [reflexivity|]. intros y Vy Hy.
      destruct (is_finite_SF y) eqn:Fy.
      * exfalso. pose proof (RM y Vy Fy (proj1 (proj1 (sf_cases y Fy x)) Hy)) as Q. cbn in S.
        destruct (sf_format prec emax y G Vy Fy) as [_ B].
        assert (r <= 0)%R by lra. rewrite Rabs_left1 in L by assumption.
        pose proof (Rabs_def2 _ _ B). lra.
      * destruct y as [|[|]| |]; try discriminate Fy; cbn in Hy; try discriminate Hy; [exact I|contradiction].
    + assert (z = S754_finite false (Z.to_pos (2 ^ prec - 1)) (emax - prec)) as -> by
        (destruct Hd as [-> | (-> & _)]; exact H). clear H.
      destruct (largest_value prec emax false G) as [_ LV]. cbn [signed] in LV. cbn in S.
      assert (R0 : (0 <= r)%R) by (apply round_DN_pt; [exact VE|apply generic_format_0|exact S]).
      rewrite Rabs_pos_eq in L by exact R0. pose proof (bpow_gt_0 radix2 (emax - prec)) as B0.
      split.
      * cbn [not_above]. rewrite LV. lra.
      * intros y Vy Hy. destruct (is_finite_SF y) eqn:Fy.
        -- apply at_most_finite; [exact Fy|reflexivity|]. rewrite LV.
           pose proof (valid_bound prec emax y G Vy Fy) as B. pose proof (Rle_abs (SF2R radix2 y)). lra.
        -- destruct y as [|[|]| |]; try discriminate Fy; cbn in Hy; try discriminate Hy; [exact I|contradiction].
Qed.

Lemma above_of_round prec emax z neg x d : good_format prec emax -> (d = Upward \/ d = TowardZero /\ (x <= 0)%R /\ neg = true) -> sign_fits neg x ->
  d_rounded d prec emax z neg x -> least_above prec emax z x.
Proof.
  intros G Hd S [V H]. pose proof (valid_flt prec emax G) as VE. cbv zeta in H.
  set (r := round radix2 (binary_format prec emax) Zceil x).
  assert (Er : round radix2 (binary_format prec emax) (round_mode (flocq_mode d)) x = r).
  { destruct Hd as [-> | (-> & X & _)]; [reflexivity|]. cbn [flocq_mode round_mode]. apply round_ZR_UP; assumption. }
  rewrite Er in H. clear Er.
  assert (RX : (x <= r)%R) by (apply round_UP_pt; exact VE).
  assert (RM : forall y, SpecFloat.valid_binary prec emax y = true -> is_finite_SF y = true -> (x <= SF2R radix2 y)%R -> (r <= SF2R radix2 y)%R).
  { intros y Vy Fy L. destruct (sf_format prec emax y G Vy Fy) as [GF _].
    apply (round_UP_pt radix2 (binary_format prec emax) x); assumption. }
  split; [exact V|]. destruct (Rlt_bool_spec (Rabs r) (bpow radix2 emax)) as [L|L].
  - destruct H as (Hz & Fz & _). split.
    + apply (sf_cases z Fz). rewrite Hz. exact RX.
    + intros y Vy Hy. destruct (is_finite_SF y) eqn:Fy.
      * apply at_most_finite; [exact Fz|exact Fy|]. rewrite Hz. apply RM; [exact Vy|exact Fy|]. apply (sf_cases y Fy). exact Hy.
      * destruct y as [|[|]| |]; try discriminate Fy; cbn in Hy; try discriminate Hy; [|contradiction].
        destruct z as [|[|]| |]; try discriminate Fz; exact I.
  - destruct neg.
    + assert (z = S754_finite true (Z.to_pos (2 ^ prec - 1)) (emax - prec)) as -> by
        (destruct Hd as [-> | (-> & _)]; exact H). clear H.
      destruct (largest_value prec emax true G) as [_ LV]. cbn [signed] in LV. cbn in S.
      assert (R0 : (r <= 0)%R) by (apply round_UP_pt; [exact VE|apply generic_format_0|exact S]).
      rewrite Rabs_left1 in L by exact R0. pose proof (bpow_gt_0 radix2 (emax - prec)) as B0.
      split.
      * cbn [not_below]. rewrite LV. lra.
      * intros y Vy Hy. destruct (is_finite_SF y) eqn:Fy.
        -- apply at_most_finite; [reflexivity|exact Fy|]. rewrite LV.
           pose proof (valid_bound prec emax y G Vy Fy) as B. pose proof (Rle_abs (- SF2R radix2 y)) as Q. rewrite Rabs_Ropp in Q. lra.
        -- destruct y as [|[|]| |]; try discriminate Fy; cbn in Hy; try discriminate Hy; [exact I|contradiction].
    + assert (d = Upward) as -> by (destruct Hd as [X|(_ & _ & X)]; [exact X|discriminate X]).
      cbn [d_overflow] in H. subst z. split; [reflexivity|]. intros y Vy Hy.
      destruct (is_finite_SF y) eqn:Fy.
      * exfalso. pose proof (RM y Vy Fy (proj1 (proj2 (sf_cases y Fy x)) Hy)) as Q. cbn in S.
        destruct (sf_format prec emax y G Vy Fy) as [_ B].
        assert (0 <= r)%R by lra. rewrite Rabs_pos_eq in L by assumption.
        pose proof (Rabs_def2 _ _ B). lra.
      * destruct y as [|[|]| |]; try discriminate Fy; cbn in Hy; try discriminate Hy; [exact I|contradiction].
Qed.

Lemma rounded_sign d prec emax z neg x : d_rounded d prec emax z neg x -> sign_SF z = neg /\ z <> S754_nan.
Proof.
  intros [_ H]. cbv zeta in H. destruct (Rlt_bool _ _).
  - destruct H as (_ & F & S). split; [exact S|]. intros ->. discriminate F.
  - subst z. destruct d, neg; split; try reflexivity; discriminate.
Qed.

Lemma directed_of_round d p q z neg x : good_format p q -> d <> ToNearest -> sign_fits neg x -> x <> 0%R ->
  d_rounded d p q z neg x -> directed d p q z x.
Proof.
  intros G N S X H. destruct d; [contradiction| | |]; cbn [directed].
  - apply (below_of_round p q z neg x Downward G); auto.
  - apply (above_of_round p q z neg x Upward G); auto.
  - split; intros L.
    + apply (below_of_round p q z neg x TowardZero G); auto. right. repeat split; [exact L|].
      destruct neg; [cbn in S; exfalso; apply X; lra|reflexivity].
    + apply (above_of_round p q z neg x TowardZero G); auto. right. repeat split; [exact L|].
      destruct neg; [reflexivity|cbn in S; exfalso; apply X; lra].
Qed.

Lemma directed_zero d p q neg : d <> ToNearest -> directed d p q (S754_zero neg) 0.
Proof.
  intros N.
  assert (B : greatest_below p q (S754_zero neg) 0).
  { split; [reflexivity|]. split; [cbn; lra|]. intros y _ H. destruct y as [s|[|]| |s m e]; cbn in H |- *; auto; discriminate. }
  assert (A : least_above p q (S754_zero neg) 0).
  { split; [reflexivity|]. split; [cbn; lra|]. intros y _ H. destruct y as [s|[|]| |s m e]; cbn in H |- *; auto; discriminate. }
  destruct d; [contradiction|exact B|exact A|split; intros _; assumption].
Qed.

(** A value of a narrower type in a wider one. *)
Lemma wider p q P Q w : good_format p q -> good_format P Q -> p <= P -> q <= Q -> SpecFloat.valid_binary p q w = true ->
  exists w', SpecFloat.valid_binary P Q w' = true /\ is_finite_SF w' = is_finite_SF w /\
    (is_finite_SF w = true -> SF2R radix2 w' = SF2R radix2 w) /\ (is_finite_SF w = false -> w' = w).
Proof.
  intros G G' Hp Hq V. destruct (is_finite_SF w) eqn:F.
  - destruct (sf_format p q w G V F) as [GF B].
    destruct (convert_exact P Q w G' F) as (V' & F' & _ & R').
    + apply (format_incl p q); [exact Hp|lia|exact GF].
    + eapply Rlt_le_trans; [exact B|]. apply bpow_le. exact Hq.
    + exists (convert P Q w). repeat split; auto. discriminate.
  - exists w. destruct w; try discriminate F; repeat split; auto; discriminate.
Qed.

Lemma narrow_below p q P Q y z x : good_format p q -> good_format P Q -> p <= P -> q <= Q ->
  greatest_below P Q y x -> (is_finite_SF y = true -> greatest_below p q z (SF2R radix2 y)) -> (is_finite_SF y = false -> z = y) ->
  greatest_below p q z x.
Proof.
  intros G G' Hp Hq (VY & YX & YG) HF HI. destruct (is_finite_SF y) eqn:F.
  - specialize (HF eq_refl). destruct HF as (VZ & ZY & ZG).
    apply (sf_cases y F) in YX. split; [exact VZ|]. split.
    + destruct (is_finite_SF z) eqn:FZ.
      * apply (sf_cases z FZ). apply (sf_cases z FZ) in ZY. lra.
      * destruct z; try discriminate FZ; exact ZY.
    + intros w VW WX. apply ZG; [exact VW|].
      destruct (wider p q P Q w G G' Hp Hq VW) as (w' & VW' & FW' & RW' & IW').
      destruct (is_finite_SF w) eqn:FW.
      * apply (sf_cases w FW). rewrite <- RW' by reflexivity.
        apply (at_most_finite w' y); [rewrite FW'; reflexivity|exact F|]. apply YG; [exact VW'|].
        apply (sf_cases w' FW'). rewrite RW' by reflexivity. apply (sf_cases w FW). exact WX.
      * destruct w; try discriminate FW; exact WX.
  - specialize (HI eq_refl). subst z. destruct y as [|[|]| |]; try discriminate F; cbn in YX; try discriminate YX; [|contradiction].
    split; [reflexivity|]. split; [reflexivity|]. intros w VW WX.
    destruct (wider p q P Q w G G' Hp Hq VW) as (w' & VW' & FW' & RW' & IW').
    destruct (is_finite_SF w) eqn:FW.
    + assert (H : at_most w' (S754_infinity true)).
      { apply YG; [exact VW'|]. apply (sf_cases w' FW'). rewrite RW' by reflexivity. apply (sf_cases w FW). exact WX. }
      destruct w'; try discriminate FW'; contradiction H.
    + destruct w as [|[|]| |]; try discriminate FW; cbn in WX; try discriminate WX; [exact I|contradiction].
Qed.

Lemma narrow_above p q P Q y z x : good_format p q -> good_format P Q -> p <= P -> q <= Q ->
  least_above P Q y x -> (is_finite_SF y = true -> least_above p q z (SF2R radix2 y)) -> (is_finite_SF y = false -> z = y) ->
  least_above p q z x.
Proof.
  intros G G' Hp Hq (VY & YX & YG) HF HI. destruct (is_finite_SF y) eqn:F.
  - specialize (HF eq_refl). destruct HF as (VZ & ZY & ZG).
    apply (sf_cases y F) in YX. split; [exact VZ|]. split.
    + destruct (is_finite_SF z) eqn:FZ.
      * apply (sf_cases z FZ). apply (sf_cases z FZ) in ZY. lra.
      * destruct z; try discriminate FZ; exact ZY.
    + intros w VW WX. apply ZG; [exact VW|].
      destruct (wider p q P Q w G G' Hp Hq VW) as (w' & VW' & FW' & RW' & IW').
      destruct (is_finite_SF w) eqn:FW.
      * apply (sf_cases w FW). rewrite <- RW' by reflexivity.
        apply (at_most_finite y w'); [exact F|rewrite FW'; reflexivity|]. apply YG; [exact VW'|].
        apply (sf_cases w' FW'). rewrite RW' by reflexivity. apply (sf_cases w FW). exact WX.
      * destruct w; try discriminate FW; exact WX.
  - specialize (HI eq_refl). subst z. destruct y as [|[|]| |]; try discriminate F; cbn in YX; try discriminate YX; [|contradiction].
    split; [reflexivity|]. split; [reflexivity|]. intros w VW WX.
    destruct (wider p q P Q w G G' Hp Hq VW) as (w' & VW' & FW' & RW' & IW').
    destruct (is_finite_SF w) eqn:FW.
    + assert (H : at_most (S754_infinity false) w').
      { apply YG; [exact VW'|]. apply (sf_cases w' FW'). rewrite RW' by reflexivity. apply (sf_cases w FW). exact WX. }
      destruct w'; try discriminate FW'; contradiction H.
    + destruct w as [|[|]| |]; try discriminate FW; cbn in WX; try discriminate WX; [exact I|contradiction].
Qed.

(** Converting rounds in the direction. *)
Lemma d_convert_directed d p q y : good_format p q -> d <> ToNearest -> is_finite_SF y = true ->
  directed d p q (d_convert d p q y) (SF2R radix2 y) /\ sign_SF (d_convert d p q y) = sign_SF y /\ d_convert d p q y <> S754_nan.
Proof.
  intros G N F. destruct y as [s|s| |s m e]; try discriminate F.
  - cbn [d_convert SF2R]. split; [apply directed_zero; exact N|]. split; [reflexivity|discriminate].
  - pose proof (d_normalize_rounded d p q s m e G) as H. cbn [d_convert SF2R sign_SF]. split; [|exact (rounded_sign _ _ _ _ _ _ H)].
    apply (directed_of_round d p q _ s); [exact G|exact N| | |exact H].
    + destruct s; cbn [sign_fits cond_Zopp]; [apply F2R_le_0|apply F2R_ge_0]; cbn [Fnum]; lia.
    + apply F2R_neq_0. cbn [Fnum]. destruct s; discriminate.
Qed.

Lemma d_narrowed d p q P Q y x : good_format p q -> good_format P Q -> p <= P -> q <= Q -> d <> ToNearest ->
  directed d P Q y x -> directed d p q (d_convert d p q y) x.
Proof.
  intros G G' Hp Hq N H.
  assert (C : is_finite_SF y = true -> directed d p q (d_convert d p q y) (SF2R radix2 y)) by
    (intros F; apply (d_convert_directed d p q y G N F)).
  assert (I : is_finite_SF y = false -> d_convert d p q y = y) by (intros F; destruct y; try discriminate F; reflexivity).
  destruct d; [contradiction| | |]; cbn [directed] in H |- *.
  - apply (narrow_below p q P Q y _ x G G' Hp Hq H); [|exact I]. intros F. apply (C F).
  - apply (narrow_above p q P Q y _ x G G' Hp Hq H); [|exact I]. intros F. apply (C F).
  - destruct H as [HB HA]. split; intros L.
    + apply (narrow_below p q P Q y _ x G G' Hp Hq (HB L)); [|exact I]. intros F. apply (C F).
      destruct (HB L) as (_ & _ & X). specialize (X (S754_zero false) eq_refl L).
      destruct y; try discriminate F; exact X.
    + apply (narrow_above p q P Q y _ x G G' Hp Hq (HA L)); [|exact I]. intros F. apply (C F).
      destruct (HA L) as (_ & _ & X). specialize (X (S754_zero false) eq_refl L).
      destruct y; try discriminate F; exact X.
Qed.

Lemma d_convert_sign d p q y : good_format p q -> sign_SF (d_convert d p q y) = sign_SF y.
Proof.
  intros G. destruct y as [s|s| |s m e]; try reflexivity. cbn [d_convert sign_SF].
  exact (proj1 (rounded_sign _ _ _ _ _ _ (d_normalize_rounded d p q s m e G))).
Qed.

(** ** Texts *)
Definition d_float_of (d : direction) (prec emax : Z) (v : denoted) : spec_float :=
  match v with
  | DDecimal neg D K => d_round_decimal d prec emax neg D K
  | DHex neg M E => d_normalize d prec emax (cond_Zopp neg M) E neg
  | DInfinity neg => S754_infinity neg
  | DNan => S754_nan
  | DNothing => S754_zero false
  end.

Lemma d_strtold_denote d prec emax point s : d_strtold d prec emax point s = d_float_of d prec emax (denote point s).
Proof.
  unfold d_strtold, denote. destruct (take_sign _) as [neg r]. unfold subject_of.
  destruct (starts_ci (str "inf") r); [reflexivity|]. destruct (starts_ci (str "nan") r); [reflexivity|].
  destruct (starts_ci (str "0x") r).
  - destruct (scan_mantissa c_isxdigit point (skipn 2 r)) as [[ip fp] r1].
    destruct (scan_mantissa c_isdigit point r) as [[ip' fp'] r1'].
    destruct (length (ip ++ fp) =? 0)%nat; [|reflexivity].
    destruct (length (ip' ++ fp') =? 0)%nat; [reflexivity|]. cbn [d_float_of]. rewrite digits_value_10. reflexivity.
  - destruct (scan_mantissa c_isdigit point r) as [[ip fp] r1].
    destruct (length (ip ++ fp) =? 0)%nat; [reflexivity|]. cbn [d_float_of]. rewrite digits_value_10. reflexivity.
Qed.

Lemma d_float_directed d p q v x : good_format p q -> d <> ToNearest ->
  (forall neg D K, v = DDecimal neg D K -> 0 <= D) -> (forall neg M E, v = DHex neg M E -> 0 <= M) -> denotes v x ->
  directed d p q (d_float_of d p q v) x /\ sign_SF (d_float_of d p q v) = negative v.
Proof.
  intros G N HD HM X. destruct v as [neg D K|neg M E|neg| |]; try contradiction X; cbn [denotes] in X; subst x; cbn [d_float_of negative].
  - specialize (HD neg D K eq_refl). destruct D as [|n|n]; [| |lia].
    + cbn [d_round_decimal]. rewrite signed_0. split; [apply directed_zero; exact N|reflexivity].
    + pose proof (d_decimal_rounded d p q neg (Zpos n) K G eq_refl) as H. unfold decimal_R in H. rewrite <- signed_IZR in H.
      split; [|exact (proj1 (rounded_sign _ _ _ _ _ _ H))].
      assert (P : (0 < IZR (Z.pos n) * bpow radix10 K)%R) by (apply Rmult_lt_0_compat; [apply IZR_lt; lia|apply bpow_gt_0]).
      apply (directed_of_round d p q _ neg); [exact G|exact N| | |exact H]; destruct neg; cbn [signed sign_fits]; lra.
  - specialize (HM neg M E eq_refl). destruct M as [|n|n]; [| |lia].
    + replace (cond_Zopp neg 0) with 0 by (destruct neg; reflexivity). cbn [d_normalize]. rewrite signed_0.
      split; [apply directed_zero; exact N|reflexivity].
    + pose proof (d_normalize_rounded d p q neg n E G) as H.
      replace (F2R (Float radix2 (cond_Zopp neg (Zpos n)) E)) with (signed neg (IZR (Zpos n) * bpow radix2 E)) in H by
        (rewrite signed_IZR; reflexivity).
      split; [|exact (proj1 (rounded_sign _ _ _ _ _ _ H))].
      assert (P : (0 < IZR (Z.pos n) * bpow radix2 E)%R) by (apply Rmult_lt_0_compat; [apply IZR_lt; lia|apply bpow_gt_0]).
      apply (directed_of_round d p q _ neg); [exact G|exact N| | |exact H]; destruct neg; cbn [signed sign_fits]; lra.
Qed.

Lemma directed_read d e point s v x T p q : d <> ToNearest -> point_ok point -> reads point s v -> denotes v x ->
  target_format e T = Some (p, q) ->
  exists z, d_extract d e point T s = Ok (XFloating z) /\ directed d p q z x /\ sign_SF z = negative v.
Proof.
  intros N PO R D HT. apply reads_denote in R; [|exact PO].
  set (f := fe_ld (e_float e)) in *. pose proof (ld_good f) as G.
  destruct (denote_nonneg point s) as [N1 N2]. rewrite <- R in N1, N2.
  destruct (d_float_directed d _ _ v x G N N1 N2 D) as [Y SY].
  assert (E : d_ExtractFloat d (e_float e) point s = Ok (d_float_of d (ld_prec f) (ld_emax f) v)).
  { unfold d_ExtractFloat. rewrite d_strtold_denote, <- R. reflexivity. }
  set (y := d_float_of d (ld_prec f) (ld_emax f) v) in *. clearbody y.
  pose proof (emax_ld f) as EL. assert (PL : 53 <= ld_prec f) by (destruct f; cbn; lia).
  destruct T; try discriminate HT; injection HT as <- <-; cbn [d_extract]; rewrite E; cbn [bind].
  - exists (d_convert d 24 128 y). split; [reflexivity|]. split.
    + apply (d_narrowed d 24 128 (ld_prec f) (ld_emax f)); [apply float_good|exact G|lia|lia|exact N|exact Y].
    + rewrite d_convert_sign by apply float_good. exact SY.
  - exists (d_convert d 53 1024 y). split; [reflexivity|]. split.
    + apply (d_narrowed d 53 1024 (ld_prec f) (ld_emax f)); [apply double_good|exact G|lia|lia|exact N|exact Y].
    + rewrite d_convert_sign by apply double_good. exact SY.
  - exists y. split; [reflexivity|]. split; [exact Y|exact SY].
Qed.

(** Texts that denote no number, and the other types, are read as ever. *)
Lemma directed_special d e point T s v : point_ok point -> reads point s v -> (forall x, ~ denotes v x) ->
  d_extract d e point T s = extract e point T s.
Proof.
  intros PO R D. apply reads_denote in R; [|exact PO].
  assert (E : d_ExtractFloat d (e_float e) point s = ExtractFloat (e_float e) point s).
  { unfold d_ExtractFloat, ExtractFloat. rewrite d_strtold_denote, strtold_denote, <- R.
    destruct v; try reflexivity; exfalso; eapply D; reflexivity. }
  assert (C : forall p q, d_convert d p q (d_float_of d (ld_prec (fe_ld (e_float e))) (ld_emax (fe_ld (e_float e))) v) =
    convert p q (d_float_of d (ld_prec (fe_ld (e_float e))) (ld_emax (fe_ld (e_float e))) v)).
  { intros p q. destruct v; try reflexivity; exfalso; eapply D; reflexivity. }
  assert (V : d_ExtractFloat d (e_float e) point s = Ok (d_float_of d (ld_prec (fe_ld (e_float e))) (ld_emax (fe_ld (e_float e))) v)).
  { unfold d_ExtractFloat. rewrite d_strtold_denote, <- R. reflexivity. }
  destruct T; try reflexivity; cbn [d_extract extract]; rewrite <- E, V; cbn [bind]; unfold ExtractFloat_float, ExtractFloat_double;
    rewrite ?C; reflexivity.
Qed.

(** ** The default direction *)
Lemma d_round_aux_nearest p q s m e l : d_round_aux ToNearest p q s m e l = SpecFloat.binary_round_aux p q s m e l.
Proof. rewrite round_aux_equiv, binary_round_aux_equiv. reflexivity. Qed.
Lemma d_normalize_nearest p q m e s : d_normalize ToNearest p q m e s = SpecFloat.binary_normalize p q m e s.
Proof. destruct m; cbn [d_normalize SpecFloat.binary_normalize]; rewrite ?round_equiv, ?binary_round_equiv; reflexivity. Qed.
Lemma d_convert_nearest p q y : d_convert ToNearest p q y = convert p q y.
Proof. destruct y as [s|s| |s m e]; [reflexivity..|]. exact (d_normalize_nearest p q (cond_Zopp s (Zpos m)) e s). Qed.
Lemma d_decimal_nearest p q neg D K : d_round_decimal ToNearest p q neg D K = round_decimal p q neg D K.
Proof.
  unfold d_round_decimal, round_decimal. destruct D as [|n|n]; [reflexivity| |reflexivity].
  destruct (0 <=? K); [apply d_normalize_nearest|].
  destruct (SFdiv_core_binary _ _ _ _ _ _) as [[m e] l]. apply d_round_aux_nearest.
Qed.
Lemma nearest_read e point T s : d_extract ToNearest e point T s = extract e point T s.
Proof.
  assert (E : d_ExtractFloat ToNearest (e_float e) point s = ExtractFloat (e_float e) point s).
  { unfold d_ExtractFloat, ExtractFloat. rewrite d_strtold_denote, strtold_denote. apply f_equal.
    destruct (denote point s) as [neg D K|neg M E|neg| |]; [apply d_decimal_nearest|apply d_normalize_nearest|reflexivity..]. }
  destruct T; try reflexivity; cbn [d_extract extract]; rewrite E; reflexivity.
Qed.

(** ** Enclosures *)
Lemma comparable y x : y <> S754_nan -> not_above y x \/ not_below y x.
Proof. intros N. destruct y as [s|[|]| |s m e]; cbn; auto; [|destruct (Rle_or_lt (F2R (Float radix2 (cond_Zopp s (Z.pos m)) e)) x); [left|right]; lra].
  destruct (Rle_or_lt 0 x); [left|right]; lra. Qed.

Lemma enclosed e point s v x T p q : point_ok point -> reads point s v -> denotes v x -> target_format e T = Some (p, q) ->
  exists a b, d_extract Downward e point T s = Ok (XFloating a) /\ d_extract Upward e point T s = Ok (XFloating b) /\
    not_above a x /\ not_below b x /\
    (forall y, SpecFloat.valid_binary p q y = true -> y <> S754_nan -> at_most y a \/ at_most b y).
Proof.
  intros PO R D HT.
  destruct (directed_read Downward e point s v x T p q ltac:(discriminate) PO R D HT) as (a & Ea & (Va & A & GA) & _).
  destruct (directed_read Upward e point s v x T p q ltac:(discriminate) PO R D HT) as (b & Eb & (Vb & B & LB) & _).
  exists a, b. split; [exact Ea|]. split; [exact Eb|]. split; [exact A|]. split; [exact B|].
  intros y Vy N. destruct (comparable y x N); auto.
Qed.

(** ** Printing *)
Lemma below_exact p q z w : is_finite_SF w = true -> SpecFloat.valid_binary p q w = true -> greatest_below p q z (SF2R radix2 w) ->
  is_finite_SF z = true /\ SF2R radix2 z = SF2R radix2 w.
Proof.
  intros F V (_ & A & G). specialize (G w V (proj2 (proj1 (sf_cases w F _)) (Rle_refl _))).
  assert (FZ : is_finite_SF z = true).
  { destruct z as [|[|]| |]; try reflexivity; [destruct w; try discriminate F; contradiction G|discriminate A|contradiction A]. }
  split; [exact FZ|]. apply (sf_cases z FZ) in A. apply at_most_finite in G; [|exact F|exact FZ]. lra.
Qed.
Lemma above_exact p q z w : is_finite_SF w = true -> SpecFloat.valid_binary p q w = true -> least_above p q z (SF2R radix2 w) ->
  is_finite_SF z = true /\ SF2R radix2 z = SF2R radix2 w.
Proof.
  intros F V (_ & A & G). specialize (G w V (proj2 (proj2 (sf_cases w F _)) (Rle_refl _))).
  assert (FZ : is_finite_SF z = true).
  { destruct z as [|[|]| |]; try reflexivity; [discriminate A|destruct w; try discriminate F; contradiction G|contradiction A]. }
  split; [exact FZ|]. apply (sf_cases z FZ) in A. apply at_most_finite in G; [|exact FZ|exact F]. lra.
Qed.
Lemma directed_exact d p q z w : is_finite_SF w = true -> SpecFloat.valid_binary p q w = true -> directed d p q z (SF2R radix2 w) ->
  is_finite_SF z = true /\ SF2R radix2 z = SF2R radix2 w.
Proof.
  intros F V H. destruct d; [contradiction H| | |]; cbn [directed] in H.
  - exact (below_exact p q z w F V H).
  - exact (above_exact p q z w F V H).
  - destruct H as [HB HA]. destruct (Rle_or_lt 0 (SF2R radix2 w)) as [L|L].
    + exact (below_exact p q z w F V (HB L)).
    + exact (above_exact p q z w F V (HA (Rlt_le _ _ L))).
Qed.
Lemma directed_valid d p q z x : directed d p q z x -> SpecFloat.valid_binary p q z = true.
Proof.
  destruct d; cbn [directed]; [contradiction|intros H; apply H..|].
  intros [HB HA]. destruct (Rle_or_lt 0 x) as [L|L]; [apply (HB L)|apply (HA (Rlt_le _ _ L))].
Qed.

(** Values of the type are converted unchanged in every direction. *)
Lemma d_convert_exact d p q y : good_format p q -> is_finite_SF y = true ->
  generic_format radix2 (binary_format p q) (SF2R radix2 y) -> (Rabs (SF2R radix2 y) < bpow radix2 q)%R ->
  d_convert d p q y = convert p q y.
Proof.
  intros G F GF B. destruct (convert_exact p q y G F GF B) as (V & F' & S & R).
  assert (N : d = ToNearest \/ d <> ToNearest) by (destruct d; [left; reflexivity|right; discriminate..]).
  destruct N as [-> | N]; [apply d_convert_nearest|].
  destruct (d_convert_directed d p q y G N F) as (H & S' & _). rewrite <- R in H.
  destruct (directed_exact d p q _ _ F' V H) as [F2 R2].
  apply (sf_inj p q); auto; [exact (directed_valid _ _ _ _ _ H)|congruence].
Qed.

Lemma d_convert_wider d p q P Q y : good_format p q -> good_format P Q -> p <= P -> q <= Q -> SpecFloat.valid_binary p q y = true ->
  d_convert d P Q y = convert P Q y.
Proof.
  intros G G' Hp Hq V. destruct y as [s|s| |s m e]; try reflexivity. set (y := S754_finite s m e) in *.
  assert (F : is_finite_SF y = true) by reflexivity. destruct (sf_format p q y G V F) as [GF B].
  apply d_convert_exact; [exact G'|exact F| |].
  - apply (format_incl p q); [exact Hp|lia|exact GF].
  - eapply Rlt_le_trans; [exact B|]. apply bpow_le. exact Hq.
Qed.

Lemma format_bits_same dk env u : bits64 u -> (forall e, -1137 <= e <= 960 -> value_of_expression e (dk e)) ->
  d_format_bits dk env u = format_bits env u.
Proof.
  intros B H. unfold d_format_bits, format_bits. destruct (isFinite u) eqn:F; cbn [negb]; [|reflexivity].
  rewrite (r_dtoa_same (fe_tc env) dk u _ B); [reflexivity| |exact H].
  apply ProofIeee.double_finite_iff; [exact B|]. apply ProofDtoa.isFinite_iff; assumption.
Qed.

Lemma d_lexi_bits d dk e x u : bits64 u -> (forall e, -1137 <= e <= 960 -> value_of_expression e (dk e)) ->
  bits_of_double (fe_nan (e_float e)) (d_convert d 53 1024 x) = u ->
  d_lexi d dk e (VLongDouble x) = let* o := format_bits (e_float e) u in FormatFloat_string o.
Proof. intros B H E. cbn [d_lexi]. unfold d_format. rewrite E, (format_bits_same dk _ u B H). reflexivity. Qed.

(** Values of the types float and double, and those that are not floating point, print alike. *)
Lemma bits_ok p q e x : good_format p q -> SpecFloat.valid_binary 53 1024 x = true -> nan_ok (e_float e) ->
  bits64 (bits_of_double (fe_nan (e_float e)) x).
Proof.
  intros G V [N _]. destruct x as [s|s| |s m ex]; [| |exact N|]; apply (double_of_bits_of_double (fe_nan (e_float e)) _ V); discriminate.
Qed.

Lemma printed_alike d dk e v : nan_ok (e_float e) -> (forall e, -1137 <= e <= 960 -> value_of_expression e (dk e)) ->
  (forall x, v <> VLongDouble x) -> d_lexi d dk e v = lexi e v.
Proof.
  intros NO H L. set (f := fe_ld (e_float e)). pose proof (ld_good f) as G. pose proof (emax_ld f) as EL.
  assert (PL : 53 <= ld_prec f) by (destruct f; cbn; lia).
  assert (K : forall p q x, good_format p q -> p <= 53 -> q <= 1024 -> SpecFloat.valid_binary p q x = true ->
    d_format d dk (e_float e) (d_convert d (ld_prec f) (ld_emax f) x) = format (e_float e) (convert (ld_prec f) (ld_emax f) x)).
  { intros p q x Gx Hp Hq V. rewrite (d_convert_wider d p q) by (assumption || lia).
    set (y := convert (ld_prec f) (ld_emax f) x).
    assert (E : d_convert d 53 1024 y = convert 53 1024 y /\ SpecFloat.valid_binary 53 1024 (convert 53 1024 y) = true).
    { destruct x as [s|s| |s m ex]; try (split; reflexivity).
      set (x := S754_finite s m ex) in *. assert (F : is_finite_SF x = true) by reflexivity.
      destruct (sf_format p q x Gx V F) as [GF B].
      destruct (convert_exact (ld_prec f) (ld_emax f) x G F) as (_ & F' & _ & R').
      - apply (format_incl p q); [lia|lia|exact GF].
      - eapply Rlt_le_trans; [exact B|]. apply bpow_le. lia.
      - fold y in F', R'.
        assert (GY : generic_format radix2 (binary_format 53 1024) (SF2R radix2 y)).
        { rewrite R'. apply (format_incl p q); [lia|lia|exact GF]. }
        assert (BY : (Rabs (SF2R radix2 y) < bpow radix2 1024)%R).
        { rewrite R'. eapply Rlt_le_trans; [exact B|]. apply bpow_le. lia. }
        split; [apply d_convert_exact; auto using double_good|apply (convert_exact 53 1024 y double_good F' GY BY)]. }
    destruct E as [E V']. unfold d_format, format. rewrite E. apply format_bits_same; [|exact H].
    apply (bits_ok 53 1024); [apply double_good|exact V'|exact NO]. }
  destruct v; try reflexivity; cbn [d_lexi lexi Format]; fold f.
  - unfold FormatFloat_float. fold f. rewrite (K 24 128 _ float_good ltac:(lia) ltac:(lia) (float_of_bits_valid _)).
    destruct (format _ _); reflexivity.
  - unfold FormatFloat_double. fold f. rewrite (K 53 1024 _ double_good ltac:(lia) ltac:(lia) (double_of_bits_valid _)).
    destruct (format _ _); reflexivity.
  - exfalso. eapply L. reflexivity.
Qed.

(** A long double prints as the double it is rounded to in the direction. *)
Lemma printed_long d dk e x : d <> ToNearest -> nan_ok (e_float e) -> (forall e, -1137 <= e <= 960 -> value_of_expression e (dk e)) ->
  is_finite_SF x = true ->
  exists z u, directed d 53 1024 z (SF2R radix2 x) /\ sign_SF z = sign_SF x /\ bits64 u /\ double_of_bits u = z /\
    d_lexi d dk e (VLongDouble x) = lexi e (VDouble u).
Proof.
  intros N NO H F. destruct (d_convert_directed d 53 1024 x double_good N F) as (D & S & NN).
  set (z := d_convert d 53 1024 x) in *. pose proof (directed_valid _ _ _ _ _ D) as V.
  set (u := bits_of_double (fe_nan (e_float e)) z).
  destruct (double_of_bits_of_double (fe_nan (e_float e)) z V NN) as [B E]. fold u in B, E.
  exists z, u. split; [exact D|]. split; [exact S|]. split; [exact B|]. split; [exact E|].
  rewrite (d_lexi_bits d dk e x u B H eq_refl). cbn [lexi Format].
  rewrite double_bits by exact B.
  assert (NU : ~ double_nan u) by (rewrite <- double_of_bits_nan, E; exact NN).
  rewrite ProofIeee.double_nan_iff in NU by exact B.
  destruct (Z.eqb_spec (exp_field u) 2047) as [E1|E1], (Z.eqb_spec (frac_field u) 0) as [E2|E2]; cbn [andb negb];
    try (destruct (format_bits (e_float e) u); reflexivity). tauto.
Qed.

(** ** Reading back *)
Lemma nearest_le' p q a b : 0 < p -> (a <= b)%R -> (nearest p q a <= nearest p q b)%R.
Proof. intros Hp L. apply round_le; [apply FLT_exp_valid; exact Hp|apply valid_rnd_N|exact L]. Qed.

Section Back.
Context (p q : Z) (G : good_format p q) (w : spec_float) (VW : SpecFloat.valid_binary p q w = true) (FW : is_finite_SF w = true)
  (t : R) (NT : nearest p q t = SF2R radix2 w).

Lemma valid_nearest y : SpecFloat.valid_binary p q y = true -> is_finite_SF y = true -> nearest p q (SF2R radix2 y) = SF2R radix2 y.
Proof. intros V F. apply nearest_exact; [apply G|apply (sf_format p q y G V F)]. Qed.

Lemma back_below z : greatest_below p q z t ->
  ((SF2R radix2 w <= t)%R -> is_finite_SF z = true /\ SF2R radix2 z = SF2R radix2 w) /\ ((t < SF2R radix2 w)%R -> just_below p q z (SF2R radix2 w)).
Proof.
  intros (V & A & M). split; intros L.
  - specialize (M w VW (proj2 (proj1 (sf_cases w FW t)) L)).
    assert (FZ : is_finite_SF z = true).
    { destruct z as [|[|]| |]; try reflexivity; [destruct w; try discriminate FW; contradiction M|discriminate A|contradiction A]. }
    split; [exact FZ|]. apply at_most_finite in M; [|exact FW|exact FZ]. apply (sf_cases z FZ) in A.
    pose proof (nearest_le' p q _ _ (proj1 G) A) as Q. rewrite (valid_nearest z V FZ), NT in Q. lra.
  - split; [exact V|]. split.
    + destruct z as [s|s| |s m e]; cbn [not_above less] in A |- *; try assumption; lra.
    + intros y Vy Ly. apply M; [exact Vy|]. destruct (is_finite_SF y) eqn:Fy; [|destruct y; try discriminate Fy; exact Ly].
      apply (sf_cases y Fy). destruct (Rle_or_lt (SF2R radix2 y) t) as [Q|Q]; [exact Q|exfalso].
      pose proof (nearest_le' p q _ _ (proj1 G) (Rlt_le _ _ Q)) as W. rewrite (valid_nearest y Vy Fy), NT in W.
      assert (SF2R radix2 y < SF2R radix2 w)%R by (destruct y; try discriminate Fy; exact Ly). lra.
Qed.

Lemma back_above z : least_above p q z t ->
  ((t <= SF2R radix2 w)%R -> is_finite_SF z = true /\ SF2R radix2 z = SF2R radix2 w) /\ ((SF2R radix2 w < t)%R -> just_above p q z (SF2R radix2 w)).
Proof.
  intros (V & A & M). split; intros L.
  - specialize (M w VW (proj2 (proj2 (sf_cases w FW t)) L)).
    assert (FZ : is_finite_SF z = true).
    { destruct z as [|[|]| |]; try reflexivity; [discriminate A|destruct w; try discriminate FW; contradiction M|contradiction A]. }
    split; [exact FZ|]. apply at_most_finite in M; [|exact FZ|exact FW]. apply (sf_cases z FZ) in A.
    pose proof (nearest_le' p q _ _ (proj1 G) A) as Q. rewrite (valid_nearest z V FZ), NT in Q. lra.
  - split; [exact V|]. split.
    + destruct z as [s|s| |s m e]; cbn [not_below greater] in A |- *; try assumption; lra.
    + intros y Vy Ly. apply M; [exact Vy|]. destruct (is_finite_SF y) eqn:Fy; [|destruct y; try discriminate Fy; exact Ly].
      apply (sf_cases y Fy). destruct (Rle_or_lt t (SF2R radix2 y)) as [Q|Q]; [exact Q|exfalso].
      pose proof (nearest_le' p q _ _ (proj1 G) (Rlt_le _ _ Q)) as W. rewrite (valid_nearest y Vy Fy), NT in W.
      assert (SF2R radix2 w < SF2R radix2 y)%R by (destruct y; try discriminate Fy; exact Ly). lra.
Qed.
End Back.

Lemma sign_of_value z : is_finite_SF z = true -> SF2R radix2 z <> 0%R -> sign_SF z = Rlt_bool (SF2R radix2 z) 0.
Proof.
  intros F N. destruct z as [s|s| |s m e]; try discriminate F; [contradiction N; reflexivity|]. cbn [sign_SF SF2R]. symmetry.
  destruct s; [apply Rlt_bool_true, F2R_lt_0|apply Rlt_bool_false, F2R_ge_0]; cbn; lia.
Qed.

Lemma same_of_value z u : bits64 u -> double_finite u -> double_value u <> 0%R -> SpecFloat.valid_binary 53 1024 z = true ->
  is_finite_SF z = true -> SF2R radix2 z = double_value u -> same_double z u.
Proof.
  intros B FU N V F R. split; [exact V|]. split; [exact F|]. split; [exact R|].
  assert (NN : ~ double_nan u). { intros X. apply double_of_bits_nan in X. apply double_of_bits_finite in FU. rewrite X in FU. discriminate FU. }
  rewrite <- (double_of_bits_sign u NN).
  rewrite (sign_of_value z F), (sign_of_value (double_of_bits u)); rewrite ?double_of_bits_value, ?R; auto.
  apply double_of_bits_finite. exact FU.
Qed.

(** A double printed, in any direction, and read in a direction. *)
Lemma directed_back e u s n : bits64 u -> double_finite u -> double_value u <> 0%R -> lexi e (VDouble u) = Ok s -> json_number s n ->
  let x := double_value u in let t := n_value n in
  (exists z, d_extract Downward e "."%char TDouble s = Ok (XFloating z) /\
     ((x <= t)%R -> same_double z u) /\ ((t < x)%R -> just_below 53 1024 z x)) /\
  (exists z, d_extract Upward e "."%char TDouble s = Ok (XFloating z) /\
     ((t <= x)%R -> same_double z u) /\ ((x < t)%R -> just_above 53 1024 z x)) /\
  (exists z, d_extract TowardZero e "."%char TDouble s = Ok (XFloating z) /\
     ((Rabs x <= Rabs t)%R -> same_double z u) /\
     ((Rabs t < Rabs x)%R -> if double_sign u then just_above 53 1024 z x else just_below 53 1024 z x)).
Proof.
  intros B F N L J. cbv zeta. destruct (double_round_trip e u s B F N L) as (n0 & J0 & U & _ & NE).
  assert (n = n0) as <- by (apply U; exact J).
  pose proof (json_reads s n J) as R. assert (D : denotes (whole_number n) (n_value n)) by (symmetry; exact (signed_value n)).
  set (w := double_of_bits u). assert (VW := double_of_bits_valid u : SpecFloat.valid_binary 53 1024 w = true).
  assert (FW : is_finite_SF w = true) by (apply double_of_bits_finite; exact F).
  assert (EW : SF2R radix2 w = double_value u) by apply double_of_bits_value.
  assert (SW : double_sign u = Rlt_bool (double_value u) 0).
  { rewrite <- EW, <- sign_of_value; [|exact FW|rewrite EW; exact N]. symmetry. apply double_of_bits_sign. intros X.
    apply double_of_bits_nan in X. unfold w in FW. rewrite X in FW. discriminate FW. }
  rewrite <- EW in NE. set (t := n_value n) in *.
  assert (RD : forall d, d <> ToNearest -> exists z, d_extract d e "."%char TDouble s = Ok (XFloating z) /\ directed d 53 1024 z t).
  { intros d ND. destruct (directed_read d e "."%char s _ t TDouble 53 1024 ND dot_ok R D eq_refl) as (z & E & H & _). eauto. }
  split; [|split].
  - destruct (RD Downward ltac:(discriminate)) as (z & E & H). exists z. split; [exact E|].
    destruct (back_below 53 1024 double_good w VW FW t NE z H) as [H1 H2]. rewrite EW in H1, H2. split; [|exact H2].
    intros X. destruct (H1 X) as [FZ RZ]. apply same_of_value; auto. exact (directed_valid _ _ _ _ _ H).
  - destruct (RD Upward ltac:(discriminate)) as (z & E & H). exists z. split; [exact E|].
    destruct (back_above 53 1024 double_good w VW FW t NE z H) as [H1 H2]. rewrite EW in H1, H2. split; [|exact H2].
    intros X. destruct (H1 X) as [FZ RZ]. apply same_of_value; auto. exact (directed_valid _ _ _ _ _ H).
  - destruct (RD TowardZero ltac:(discriminate)) as (z & E & H). exists z. split; [exact E|]. pose proof (directed_valid _ _ _ _ _ H) as VZ.
    destruct H as [HB HA].
    assert (N0 : nearest 53 1024 0 = 0%R) by (apply nearest_zero; lia).
    destruct (Rlt_bool_spec (double_value u) 0) as [X|X]; rewrite SW.
    + assert (T0 : (t < 0)%R).
      { destruct (Rlt_or_le t 0) as [Q|Q]; [exact Q|exfalso]. apply (nearest_le' 53 1024) in Q; [|lia]. rewrite N0, NE, EW in Q. lra. }
      destruct (back_above 53 1024 double_good w VW FW t NE z (HA (Rlt_le _ _ T0))) as [H1 H2]. rewrite EW in H1, H2.
      rewrite !Rabs_left by lra. split; intros Q.
      * destruct (H1 ltac:(lra)) as [FZ RZ]. apply same_of_value; auto.
      * apply H2. lra.
    + assert (T0 : (0 < t)%R).
      { destruct (Rlt_or_le 0 t) as [Q|Q]; [exact Q|exfalso]. apply (nearest_le' 53 1024) in Q; [|lia]. rewrite N0, NE, EW in Q. lra. }
      destruct (back_below 53 1024 double_good w VW FW t NE z (HB (Rlt_le _ _ T0))) as [H1 H2]. rewrite EW in H1, H2.
      rewrite !Rabs_pos_eq by lra. split; intros Q.
      * destruct (H1 ltac:(lra)) as [FZ RZ]. apply same_of_value; auto.
      * apply H2. lra.
Qed.

Lemma same_double_eq z u : bits64 u -> double_finite u -> same_double z u -> z = double_of_bits u.
Proof.
  intros B F (V & FZ & R & S).
  assert (NN : ~ double_nan u). { intros X. apply double_of_bits_nan in X. apply double_of_bits_finite in F. rewrite X in F. discriminate F. }
  apply (sf_inj 53 1024); [exact V|apply double_of_bits_valid|exact FZ|apply double_of_bits_finite; exact F| |].
  - rewrite double_of_bits_value. exact R.
  - rewrite (double_of_bits_sign u NN). exact S.
Qed.

Lemma tenth_refuted : exists u s z, bits64 u /\ double_finite u /\ double_value u <> 0%R /\
  lexi (ModelPlatforms.linux_x86_64 Strict) (VDouble u) = Ok s /\ s = str "0.1" /\
  d_extract Downward (ModelPlatforms.linux_x86_64 Strict) "."%char TDouble s = Ok (XFloating z) /\ ~ same_double z u.
Proof.
  exists 4591870180066957722, (str "0.1"), (S754_finite false 7205759403792793 (-56)).
  assert (B : bits64 4591870180066957722) by (split; vm_compute; congruence).
  assert (F : double_finite 4591870180066957722) by (apply double_of_bits_finite; vm_compute; reflexivity).
  split; [exact B|]. split; [exact F|]. split.
  { rewrite <- double_of_bits_value.
    assert (E : double_of_bits 4591870180066957722 = S754_finite false 7205759403792794 (-56)) by (vm_compute; reflexivity).
    rewrite E. cbn [SF2R cond_Zopp]. apply F2R_neq_0. discriminate. }
  split; [vm_compute; reflexivity|]. split; [reflexivity|]. split; [vm_compute; reflexivity|].
  intros X. apply same_double_eq in X; [|exact B|exact F]. vm_compute in X. discriminate X.
Qed.
