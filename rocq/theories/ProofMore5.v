(** How far the extracted floating point value is from the number in the text. *)
From Coq Require Import Reals Lra Psatz Floats.SpecFloat.
From Flocq Require Import Core.
From Flocq Require IEEE754.Binary IEEE754.Bits.
From Flocq Require Import IEEE754.BinarySingleNaN.
From Verif Require Import Machine LibMachine SpecApi SpecDecimal SpecInt SpecNumber SpecIeee SpecString SpecLayout SpecJson SpecRead SpecMore
  ModelItoa ModelInt ModelText ModelString ModelIeee ModelDiyfp ModelDtoa ModelFloat ModelLexi ModelPlatforms
  ProofIeee ProofRound ProofFloat ProofRead ProofRead2 ProofRead3 ProofMore3.
Open Scope R_scope.
Ltac Zify.zify_post_hook ::= idtac.

Lemma valid_format p q d : good_format p q -> SpecFloat.valid_binary p q d = true -> is_finite_SF d = true ->
  generic_format radix2 (binary_format p q) (SF2R radix2 d) /\ Rabs (SF2R radix2 d) < bpow radix2 q.
Proof.
  intros [P Q] V F. destruct d as [s|s| |s m k]; try discriminate F.
  - cbn [SF2R]. split; [apply generic_format_0|]. rewrite Rabs_R0. apply bpow_gt_0.
  - pose proof (generic_format_B2R p q (SF2B _ V)) as G. pose proof (abs_B2R_lt_emax p q (SF2B _ V)) as A.
    rewrite B2R_SF2B in G, A. split; [exact G|exact A].
Qed.

Lemma wider p q p' q' x : (p' <= p)%Z -> (3 - q - p <= 3 - q' - p')%Z ->
  generic_format radix2 (binary_format p' q') x -> generic_format radix2 (binary_format p q) x.
Proof.
  intros P Q F. apply (generic_inclusion_mag radix2 (binary_format p' q')); [|exact F].
  intros _. unfold binary_format, FLT_exp. lia.
Qed.

Definition fits (f : ld_format) (p q : Z) : Prop := (p <= ld_prec f)%Z /\ (q <= ld_emax f)%Z /\ (3 - ld_emax f - ld_prec f <= 3 - q - p)%Z.
Lemma double_fits f : fits f 53 1024. Proof. destruct f; repeat split; cbn; lia. Qed.
Lemma float_fits f : fits f 24 128. Proof. destruct f; repeat split; cbn; lia. Qed.

Lemma nearest_format p q x : (0 < p)%Z -> generic_format radix2 (binary_format p q) x -> nearest p q x = x.
Proof. intros P F. unfold nearest. apply round_generic; [apply valid_rnd_N|exact F]. Qed.

(** Rounding twice and clamping keeps the values of the narrow format. *)
Lemma kept f p q d : good_format p q -> fits f p q -> generic_format radix2 (binary_format p q) d -> Rabs d < bpow radix2 q ->
  clamp q (nearest p q (clamp (ld_emax f) (nearest (ld_prec f) (ld_emax f) d))) = d.
Proof.
  intros G (P & Q & M) F B. pose proof (ld_good f) as L.
  rewrite (nearest_format (ld_prec f)); [|apply L|apply (wider _ _ p q); assumption].
  rewrite (clamp_in (ld_emax f)); [|eapply Rlt_le_trans; [exact B|apply bpow_le; exact Q]].
  rewrite nearest_format; [|apply G|exact F]. apply clamp_in. exact B.
Qed.

Lemma between_place p q z d w x : good_format p q -> SpecFloat.valid_binary p q z = true -> z <> S754_nan ->
  SpecFloat.valid_binary p q d = true -> is_finite_SF d = true ->
  place q z = w x -> w (SF2R radix2 d) = SF2R radix2 d -> (forall a b, a <= b -> w a <= w b) ->
  (SF2R radix2 d <= x -> at_most d z) /\ (x <= SF2R radix2 d -> at_most z d).
Proof.
  intros G V N VD FD E K M.
  assert (PD : place q d = SF2R radix2 d) by (destruct d; (reflexivity || discriminate FD)).
  assert (ND : d <> S754_nan) by (intros ->; discriminate FD).
  split; intros H; apply (place_order p q); try assumption; rewrite E, PD; [rewrite <- K at 1|rewrite <- K]; apply M; exact H.
Qed.

Lemma no_value_between e point s v x T p q : point_ok point -> reads point s v -> denotes v x -> target_format e T = Some (p, q) ->
  exists z, extract e point T s = Ok (XFloating z) /\ SpecFloat.valid_binary p q z = true /\ z <> S754_nan /\
    forall d, SpecFloat.valid_binary p q d = true -> is_finite_SF d = true ->
      (SF2R radix2 d <= x -> at_most d z) /\ (x <= SF2R radix2 d -> at_most z d).
Proof.
  intros PO R D HT. destruct (read_place e point s v x PO R D) as (y & EY & VY & NY & PY & (z & EZ & VZ & NZ & PZ) & (w & EW & VW & NW & PW)).
  set (f := fe_ld (e_float e)) in *. pose proof (ld_good f) as G.
  assert (ML : forall a b, a <= b -> clamp (ld_emax f) (nearest (ld_prec f) (ld_emax f) a) <= clamp (ld_emax f) (nearest (ld_prec f) (ld_emax f) b)).
  { intros a b H. apply clamp_le, nearest_le; [apply G|exact H]. }
  destruct T; try discriminate HT; injection HT as <- <-.
  - exists w. split; [exact EW|]. split; [exact VW|]. split; [exact NW|]. intros d VD FD. rewrite PY in PW.
    destruct (valid_format 24 128 d float_good VD FD) as [GD BD].
    apply (between_place 24 128 w d (fun a => clamp 128 (nearest 24 128 (clamp (ld_emax f) (nearest (ld_prec f) (ld_emax f) a)))) x float_good VW NW VD FD PW).
    + apply kept; [exact float_good|apply float_fits|exact GD|exact BD].
    + intros a b H. apply clamp_le, nearest_le; [lia|]. apply ML. exact H.
  - exists z. split; [exact EZ|]. split; [exact VZ|]. split; [exact NZ|]. intros d VD FD. rewrite PY in PZ.
    destruct (valid_format 53 1024 d double_good VD FD) as [GD BD].
    apply (between_place 53 1024 z d (fun a => clamp 1024 (nearest 53 1024 (clamp (ld_emax f) (nearest (ld_prec f) (ld_emax f) a)))) x double_good VZ NZ VD FD PZ).
    + apply kept; [exact double_good|apply double_fits|exact GD|exact BD].
    + intros a b H. apply clamp_le, nearest_le; [lia|]. apply ML. exact H.
  - exists y. split; [exact EY|]. split; [exact VY|]. split; [exact NY|]. intros d VD FD.
    destruct (valid_format _ _ d G VD FD) as [GD BD].
    apply (between_place _ _ y d (fun a => clamp (ld_emax f) (nearest (ld_prec f) (ld_emax f) a)) x G VY NY VD FD PY).
    + rewrite nearest_format; [|apply G|exact GD]. apply clamp_in. exact BD.
    + exact ML.
Qed.

Lemma at_most_both a b : at_most a b -> at_most b a -> is_finite_SF a = true -> is_finite_SF b = true /\ SF2R radix2 b = SF2R radix2 a.
Proof.
  destruct a as [s|s| |s m k]; destruct b as [t|t| |t n l]; cbn [at_most is_finite_SF]; intros H1 H2 F; try discriminate F; try contradiction;
    try (destruct t; contradiction); split; try reflexivity; lra.
Qed.

Lemma exact_values e point s v x T p q d : point_ok point -> reads point s v -> denotes v x -> target_format e T = Some (p, q) ->
  SpecFloat.valid_binary p q d = true -> is_finite_SF d = true -> SF2R radix2 d = x ->
  exists z, extract e point T s = Ok (XFloating z) /\ is_finite_SF z = true /\ SF2R radix2 z = x.
Proof.
  intros PO R D HT V F E. destruct (no_value_between e point s v x T p q PO R D HT) as (z & EZ & _ & _ & B).
  destruct (B d V F) as [B1 B2]. exists z. split; [exact EZ|]. rewrite <- E. apply at_most_both; [apply B1|apply B2|exact F]; rewrite E; apply Rle_refl.
Qed.

(** ** Rounding twice *)

Lemma mid_fits p q p' q' a : good_format p' q' -> (p' + 1 <= p)%Z -> (3 - q - p + 1 <= 3 - q' - p')%Z ->
  generic_format radix2 (binary_format p' q') a -> 0 <= a ->
  generic_format radix2 (binary_format p q) ((a + succ radix2 (binary_format p' q') a) / 2).
Proof.
  intros [G1 G2] P Q F A. rewrite succ_eq_pos by exact A.
  assert (VE : Valid_exp (binary_format p' q')) by (apply FLT_exp_valid; exact G1).
  set (fx := binary_format p' q') in *.
  assert (X : exists m k, (a + (a + ulp radix2 fx a)) / 2 = F2R (Float radix2 m (k - 1)) /\ (3 - q' - p' <= k)%Z /\ (Z.abs m < 2 ^ (p' + 1))%Z).
  { destruct (Req_dec a 0) as [->|N].
    - exists 1%Z, (3 - q' - p')%Z. split; [|split; [lia|]].
      + unfold fx, binary_format. rewrite ulp_FLT_0 by exact G1. unfold F2R. cbn [Fnum Fexp]. replace (3 - q' - p' - 1)%Z with (3 - q' - p' + -1)%Z by lia. rewrite bpow_plus.
        change (bpow radix2 (-1)) with (/ 2). field.
      + assert (2 ^ 1 <= 2 ^ (p' + 1))%Z by (apply Z.pow_le_mono_r; lia). lia.
    - exists (2 * Ztrunc (scaled_mantissa radix2 fx a) + 1)%Z, (cexp radix2 fx a). split; [|split].
      + rewrite ulp_neq_0 by exact N. rewrite F at 1 2. set (M := Ztrunc (scaled_mantissa radix2 fx a)). set (k := cexp radix2 fx a). unfold F2R. cbn [Fnum Fexp].
        replace (k - 1)%Z with (k + -1)%Z by lia. rewrite bpow_plus. change (bpow radix2 (-1)) with (/ 2). rewrite plus_IZR, mult_IZR. field.
      + unfold cexp, fx, binary_format, FLT_exp. lia.
      + assert (M : (Z.abs (Ztrunc (scaled_mantissa radix2 fx a)) < 2 ^ p')%Z).
        { apply lt_IZR. rewrite abs_IZR, <- scaled_mantissa_generic by exact F. change (2 ^ p')%Z with (radix2 ^ p')%Z. rewrite IZR_Zpower by lia.
          apply scaled_mantissa_lt_bpow' || (eapply Rlt_le_trans; [apply scaled_mantissa_lt_bpow; assumption|]; apply bpow_le; unfold cexp, fx, binary_format, FLT_exp; lia). }
        replace (2 ^ (p' + 1))%Z with (2 * 2 ^ p')%Z by (rewrite Z.pow_add_r by lia; lia).
        assert (0 <= Ztrunc (scaled_mantissa radix2 fx a))%Z.
        { apply le_IZR. rewrite <- scaled_mantissa_generic by exact F. unfold scaled_mantissa. apply Rmult_le_pos; [exact A|apply bpow_ge_0]. }
        lia. }
  destruct X as (m & k & -> & K & M).
  apply generic_format_FLT. exists (Float radix2 m (k - 1)); [reflexivity| |]; cbn [Fnum Fexp].
  - eapply Z.lt_le_trans; [exact M|]. change (Zpower radix2 p) with (2 ^ p)%Z. apply Z.pow_le_mono_r; lia.
  - lia.
Qed.

Section Twice.
Context (p q p' q' : Z) (G : good_format p q) (G' : good_format p' q') (HP : (p' + 1 <= p)%Z) (HQ : (3 - q - p + 1 <= 3 - q' - p')%Z) (HM : (q' < q)%Z).

Let fx := binary_format p q.
Let fx' := binary_format p' q'.
Instance valid_fx : Valid_exp fx := FLT_exp_valid (3 - q - p) p (prec_gt_0_ := proj1 G).
Instance valid_fx' : Valid_exp fx' := FLT_exp_valid (3 - q' - p') p' (prec_gt_0_ := proj1 G').

Lemma near_low a v : generic_format radix2 fx' a -> a <= v < (a + succ radix2 fx' a) / 2 -> nearest p' q' v = a.
Proof.
  intros F [L H]. apply Rle_antisym.
  - unfold nearest. apply (round_N_le_midp radix2 fx'); [exact F|exact H].
  - rewrite <- (nearest_format p' q' a (proj1 G') F) at 1. apply nearest_le; [apply G'|exact L].
Qed.

Lemma near_high a b v : generic_format radix2 fx' b -> pred radix2 fx' b = a -> (a + b) / 2 < v <= b -> nearest p' q' v = b.
Proof.
  intros F E [L H]. apply Rle_antisym.
  - rewrite <- (nearest_format p' q' b (proj1 G') F). apply nearest_le; [apply G'|exact H].
  - unfold nearest. apply (round_N_ge_midp radix2 fx'); [exact F|]. rewrite E. lra.
Qed.

Lemma twice_pos x : 0 <= x -> nearest p' q' (nearest p q x) = nearest p' q' x \/ (halfway p' q' (nearest p q x) /\ x <> nearest p q x).
Proof.
  intros X. set (y := nearest p q x). destruct (Req_dec y x) as [->|NE]; [left; reflexivity|].
  set (a := round radix2 fx' Zfloor x). set (b := succ radix2 fx' a).
  assert (FA : generic_format radix2 fx' a) by (apply generic_format_round; [apply valid_fx'|apply valid_rnd_DN]).
  assert (A0 : 0 <= a) by (rewrite <- (round_0 radix2 fx' Zfloor); apply round_le; [apply valid_fx'|apply valid_rnd_DN|exact X]).
  assert (AX : a <= x) by (apply round_DN_pt; apply valid_fx').
  assert (WA : generic_format radix2 fx a) by (apply (wider p q p' q'); [lia|lia|exact FA]).
  destruct (Req_dec a x) as [EA|NA]; [exfalso; apply NE; unfold y; rewrite <- EA; apply nearest_format; [apply G|exact WA]|].
  assert (NF : ~ generic_format radix2 fx' x).
  { intros F. apply NA. unfold a. apply round_generic; [apply valid_rnd_DN|exact F]. }
  assert (EB : b = round radix2 fx' Zceil x) by (apply succ_DN_eq_UP; [apply valid_fx'|exact NF]).
  assert (FB : generic_format radix2 fx' b) by (rewrite EB; apply generic_format_round; [apply valid_fx'|apply valid_rnd_UP]).
  assert (XB : x <= b) by (rewrite EB; apply round_UP_pt; apply valid_fx').
  assert (WB : generic_format radix2 fx b) by (apply (wider p q p' q'); [lia|lia|exact FB]).
  assert (WM : generic_format radix2 fx ((a + b) / 2)) by (apply mid_fits; assumption).
  assert (PB : pred radix2 fx' b = a) by (apply pred_succ; [apply valid_fx'|exact FA]).
  assert (AB : a < b) by lra.
  assert (MONO : forall c d, generic_format radix2 fx c -> generic_format radix2 fx d -> c <= x <= d -> c <= y <= d).
  { intros c d C D [H1 H2]. split.
    - rewrite <- (nearest_format p q c (proj1 G) C). apply nearest_le; [apply G|exact H1].
    - rewrite <- (nearest_format p q d (proj1 G) D). apply nearest_le; [apply G|exact H2]. }
  destruct (Req_dec y ((a + b) / 2)) as [EM|NM].
  { right. split; [|intros E; apply NE; symmetry; exact E]. exists a. split; [exact FA|]. split; [exact A0|].
    rewrite EM. change (Rabs ((a + b) / 2) = (a + b) / 2). apply Rabs_pos_eq. lra. }
  left. destruct (Rtotal_order x ((a + b) / 2)) as [H|[H|H]].
  - destruct (MONO a ((a + b) / 2) WA WM) as [Y1 Y2]; [lra|]. rewrite (near_low a y FA), (near_low a x FA); [reflexivity| |]; fold b; lra.
  - exfalso. apply NE. unfold y. rewrite H. apply nearest_format; [apply G|exact WM].
  - destruct (MONO ((a + b) / 2) b WM WB) as [Y1 Y2]; [lra|]. rewrite (near_high a b y FB PB), (near_high a b x FB PB); [reflexivity| |]; lra.
Qed.

Lemma twice x : nearest p' q' (nearest p q x) = nearest p' q' x \/ (halfway p' q' (nearest p q x) /\ x <> nearest p q x).
Proof.
  destruct (Rle_or_lt 0 x) as [H|H]; [apply twice_pos; exact H|].
  assert (E : forall c d t, nearest c d t = - nearest c d (- t)).
  { intros c d t. pose proof (nearest_neg c d true (- t)) as X. cbn [neg_if] in X. rewrite Ropp_involutive in X. exact X. }
  destruct (twice_pos (- x)) as [T|[(a & T1 & T2 & T3) N]]; [lra| |].
  - left. rewrite (E p q x), (E p' q' (- _)), Ropp_involutive, T, <- E. reflexivity.
  - right. rewrite (E p q x). split; [|lra]. exists a. split; [exact T1|]. split; [exact T2|]. rewrite Rabs_Ropp. exact T3.
Qed.

Lemma halfway_nonzero : ~ halfway p' q' 0.
Proof.
  intros (a & F & A & E). rewrite Rabs_R0 in E. pose proof (succ_ge_id radix2 fx' a) as S. fold fx' in E.
  assert (a = 0) by lra. subst a. assert (Z0 : succ radix2 fx' 0 = 0) by lra. rewrite succ_0 in Z0.
  unfold fx', binary_format in Z0. rewrite ulp_FLT_0 in Z0 by apply G'. pose proof (bpow_gt_0 radix2 (3 - q' - p')). lra.
Qed.

(** A rounded value rounded to the narrow format. *)
Lemma narrowed_twice y z neg x : rounded p q y neg x -> narrowed p' q' y z ->
  rounded p' q' z neg x \/
  (is_finite_SF y = true /\ halfway p' q' (SF2R radix2 y) /\ x <> SF2R radix2 y /\ Rabs (x - SF2R radix2 y) <= ulp radix2 fx x / 2).
Proof.
  intros [V RY] N. revert RY. destruct (Rlt_bool_spec (Rabs (nearest p q x)) (bpow radix2 q)) as [B|B].
  - intros (EY & FY & SY). destruct (twice x) as [T|[H NE]].
    + left. destruct y as [s|s| |s m k]; try discriminate FY; cbn [narrowed] in N.
      * subst z. cbn [SF2R sign_SF] in *. split; [reflexivity|]. rewrite <- T, <- EY, nearest_zero by apply G'. rewrite Rabs_R0, Rlt_bool_true by apply bpow_gt_0.
        split; [reflexivity|]. split; [reflexivity|exact SY].
      * cbn [sign_SF] in SY. subst s. unfold rounded in N |- *. rewrite <- T, <- EY. exact N.
    + right. rewrite EY. split; [exact FY|]. split; [exact H|]. split; [exact NE|].
      rewrite Rabs_minus_sym. unfold nearest. eapply Rle_trans; [apply error_le_half_ulp; apply valid_fx|]. fold fx. lra.
  - intros ->. cbn [narrowed] in N. subst z. left. split; [reflexivity|]. rewrite Rlt_bool_false; [reflexivity|].
    assert (X : bpow radix2 q' <= Rabs x).
    { destruct (Rle_or_lt (bpow radix2 q') (Rabs x)) as [H|H]; [exact H|]. exfalso.
      assert (Y : Rabs (nearest p q x) <= bpow radix2 q').
      { unfold nearest. apply abs_round_le_generic; [apply valid_fx|apply valid_rnd_N| |lra].
        apply generic_format_FLT_bpow; [apply G|]. destruct G, G'. lia. }
      pose proof (bpow_lt radix2 q' q HM). lra. }
    unfold nearest. apply abs_round_ge_generic; [apply valid_fx'|apply valid_rnd_N| |exact X].
    apply generic_format_FLT_bpow; [apply G'|]. destruct G'. lia.
Qed.
End Twice.

Lemma nearest_or_tie e point s v x T p q : point_ok point -> reads point s v -> denotes v x -> target_format e T = Some (p, q) ->
  exists y z, extract e point TLongDouble s = Ok (XFloating y) /\ extract e point T s = Ok (XFloating z) /\
    (read_as p q v z \/
     (is_finite_SF y = true /\ halfway p q (SF2R radix2 y) /\ x <> SF2R radix2 y /\
      Rabs (x - SF2R radix2 y) <= ulp radix2 (binary_format (ld_prec (fe_ld (e_float e))) (ld_emax (fe_ld (e_float e)))) x / 2)).
Proof.
  intros PO R D HT. destruct (float_extracts e point s v PO R) as (y & RY & EY & (z & EZ & NZ) & (w & EW & NW)).
  assert (Y : exists neg, rounded (ld_prec (fe_ld (e_float e))) (ld_emax (fe_ld (e_float e))) y neg x /\
    forall p q t, read_as p q v t <-> rounded p q t neg x).
  { destruct v as [neg A K|neg A K| | |]; try contradiction D; cbn [denotes read_as] in *; subst x; exists neg; (split; [exact RY|reflexivity]). }
  destruct Y as (neg & Y & RR). exists y. pose proof (ld_good (fe_ld (e_float e))) as G.
  destruct T; try discriminate HT; injection HT as <- <-.
  - exists w. split; [exact EY|]. split; [exact EW|]. rewrite RR. apply narrowed_twice; try assumption; try exact float_good; destruct (fe_ld (e_float e)); cbn; lia.
  - exists z. split; [exact EY|]. split; [exact EZ|]. rewrite RR. destruct (fe_ld (e_float e)) eqn:EL.
    + left. rewrite (narrowed_same 53 1024 y z neg x G Y NZ). exact Y.
    + apply narrowed_twice; try assumption; try exact double_good; cbn; lia.
    + apply narrowed_twice; try assumption; try exact double_good; cbn; lia.
  - exists y. split; [exact EY|]. split; [exact EY|]. left. exact RY.
Qed.

(** The widest type, and double where long double is double. *)
Lemma nearest_direct e point s v T p q : point_ok point -> reads point s v -> target_format e T = Some (p, q) ->
  T = TLongDouble \/ (T = TDouble /\ fe_ld (e_float e) = LD64) ->
  exists z, extract e point T s = Ok (XFloating z) /\ read_as p q v z.
Proof.
  intros PO R HT W. destruct (float_extracts e point s v PO R) as (y & RY & EY & (z & EZ & NZ) & _).
  destruct W as [->|[-> L]]; injection HT as <- <-.
  - exists y. split; [exact EY|exact RY].
  - exists z. split; [exact EZ|]. rewrite L in RY. cbn [ld_prec ld_emax] in RY.
    destruct v as [neg A K|neg A K| | |]; cbn [read_as] in *.
    + rewrite (narrowed_same _ _ y z _ _ double_good RY NZ). exact RY.
    + rewrite (narrowed_same _ _ y z _ _ double_good RY NZ). exact RY.
    + subst y. exact NZ.
    + subst y. exact NZ.
    + subst y. exact NZ.
Qed.

(** ** Not always the nearest *)

Lemma not_nearest prec emax point s v z : good_format prec emax -> point_ok point -> denote point s = v ->
  float_of prec emax v <> z -> reads point s v /\ ~ read_as prec emax v z.
Proof.
  intros G PO E N. assert (R : reads point s v) by (apply reads_denote; [exact PO|symmetry; exact E]). split; [exact R|]. intros A.
  destruct (denote_nonneg point s) as [D1 D2]. rewrite E in D1, D2.
  pose proof (float_of_read prec emax v G D1 D2) as B. apply N.
  destruct (reading_determined prec emax v (float_of prec emax v) z z false 0) as (U & _). apply U; assumption.
Qed.

Definition near_double : bytes := str "9007199254740993.0000000000000000001".
Definition near_float : bytes := str "16777217.0000000000000000000000000001".

Lemma nearest_refuted :
  (forall e, fe_ld (e_float e) <> LD64 -> exists v z, reads "."%char near_double v /\
     extract e "."%char TDouble near_double = Ok (XFloating z) /\ SF2R radix2 z = 9007199254740992 /\ ~ read_as 53 1024 v z) /\
  (forall e, exists v z, reads "."%char near_float v /\
     extract e "."%char TFloat near_float = Ok (XFloating z) /\ SF2R radix2 z = 16777216 /\ ~ read_as 24 128 v z).
Proof.
  split.
  - intros e L. exists (DDecimal false 90071992547409930000000000000000001 (-19)), (S754_finite false (2 ^ 52) 1).
    destruct (not_nearest 53 1024 "."%char near_double (DDecimal false 90071992547409930000000000000000001 (-19)) (S754_finite false (2 ^ 52) 1)) as [R N];
      [exact double_good|exact dot_ok|vm_compute; reflexivity|vm_compute; discriminate|].
    split; [exact R|]. split; [|split; [|exact N]].
    + unfold extract, ExtractFloat. destruct (fe_ld (e_float e)); [congruence| |]; vm_compute; reflexivity.
    + unfold SF2R, F2R. cbn [Fnum Fexp cond_Zopp]. change (bpow radix2 1) with 2. change (2 ^ 52)%positive with 4503599627370496%positive. lra.
  - intros e. exists (DDecimal false 167772170000000000000000000000000001 (-28)), (S754_finite false (2 ^ 23) 1).
    destruct (not_nearest 24 128 "."%char near_float (DDecimal false 167772170000000000000000000000000001 (-28)) (S754_finite false (2 ^ 23) 1)) as [R N];
      [exact float_good|exact dot_ok|vm_compute; reflexivity|vm_compute; discriminate|].
    split; [exact R|]. split; [|split; [|exact N]].
    + unfold extract, ExtractFloat. destruct (fe_ld (e_float e)); vm_compute; reflexivity.
    + unfold SF2R, F2R. cbn [Fnum Fexp cond_Zopp]. change (bpow radix2 1) with 2. change (2 ^ 23)%positive with 8388608%positive. lra.
Qed.
