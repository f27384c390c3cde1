(** API-level results: environment independence, the cached power, all views of all
    formatters, and how float and long double are printed. *)
From Coq Require Import Reals Lra Psatz.
From Flocq Require Import Core.
From Flocq Require IEEE754.Binary IEEE754.Bits.
From Flocq Require Import IEEE754.BinarySingleNaN.
From Verif Require Import Machine LibMachine SpecApi SpecDecimal SpecInt SpecNumber SpecIeee SpecString SpecJson
  ModelItoa ModelInt ModelText ModelIeee ModelDiyfp ModelDtoa
  ModelFloat ModelLexi ModelPlatforms ProofDiyfp ProofCached ProofDigits ProofGrisu ProofLayout ProofText ProofInt ProofIeee ProofDtoa ProofNumber
  ProofRound ProofStrict ProofUnique ProofShort ProofApi ProofFloat ProofFloat2 ProofFloat3.
Open Scope Z_scope.
Ltac Zify.zify_post_hook ::= idtac.

(** ** Classification, C18 *)

Lemma isInf_spec u : bits64 u -> isInf u = true <-> exists s, double_infinity u s.
Proof.
  intros H. rewrite isInf_iff by exact H. split.
  - intros [A B]. exists (sign_field u). apply double_infinity_iff; auto.
  - intros [s I]. apply double_infinity_iff in I; tauto.
Qed.

Lemma classification u : bits64 u ->
  (isNan u = true <-> double_nan u) /\
  (isInf u = true <-> exists s, double_infinity u s) /\
  (isInfinity u = true <-> double_infinity u false) /\
  (isNegativeInfinity u = true <-> double_infinity u true) /\
  (isFinite u = true <-> double_finite u) /\
  (isZero u = true <-> double_finite u /\ double_value u = 0%R) /\
  (isPositive u = true <-> double_sign u = false).
Proof.
  intros H. split; [|split; [|split; [|split; [|split; [|split]]]]].
  - rewrite isNan_iff, double_nan_iff by exact H. tauto.
  - apply isInf_spec. exact H.
  - rewrite isInfinity_iff, double_infinity_iff by exact H. tauto.
  - rewrite isNegativeInfinity_iff, double_infinity_iff by exact H. tauto.
  - rewrite isFinite_iff, double_finite_iff by exact H. tauto.
  - rewrite isZero_iff by exact H. split.
    + intros Z0. assert (F : double_finite u).
      { apply double_finite_iff; [exact H|]. rewrite <- (proj1 (fields_mod u H)), Z0. discriminate. }
      split; [exact F|]. destruct (Req_dec (double_value u) 0) as [|N]; [assumption|].
      apply nonzero_field in N; [contradiction|assumption..].
    + intros [F Z0]. destruct (Z.eq_dec (u mod 2 ^ 63) 0) as [|N]; [assumption|].
      apply nonzero_field in N; [contradiction|assumption..].
  - rewrite isPositive_iff, double_sign_eq by exact H. tauto.
Qed.

Lemma classes_partition u : bits64 u ->
  (isNan u = true /\ isInf u = false /\ isFinite u = false) \/
  (isNan u = false /\ isInf u = true /\ isFinite u = false) \/
  (isNan u = false /\ isInf u = false /\ isFinite u = true).
Proof.
  intros H. unfold isNan, isInf. destruct (isFinite u), (_ =? 0); cbn; tauto.
Qed.

(** ** Independence of the environment, C35 *)

Lemma same_text_double e1 e2 u : nan_ok (e_float e1) -> nan_ok (e_float e2) ->
  e_lit e1 = e_lit e2 -> tc_policy (fe_tc (e_float e1)) = tc_policy (fe_tc (e_float e2)) -> bits64 u ->
  lexi e1 (VDouble u) = lexi e2 (VDouble u).
Proof.
  intros [B1 N1] [B2 N2] HL HP H. rewrite !lexi_double, !double_bits by exact H.
  destruct (_ && _).
  - rewrite (format_nan _ _ B1 N1), (format_nan _ _ B2 N2). unfold e_lit in HL. rewrite HL. reflexivity.
  - rewrite (format_bits_compiler (e_float e1) (e_float e2)) by assumption. reflexivity.
Qed.

Lemma widen_nan n1 n2 u : float_of_bits u <> S754_nan -> widen n1 u = widen n2 u.
Proof.
  intros N. unfold widen. destruct (float_of_bits u) as [s|s| |s m x] eqn:E; try reflexivity; [contradiction N; reflexivity|].
  destruct (convert 53 1024 (S754_finite s m x)) eqn:C; try reflexivity.
  exfalso. assert (F : is_finite_SF (float_of_bits u) = true) by (rewrite E; reflexivity).
  destruct (sf_format 24 128 _ float_good (float_of_bits_valid u) F) as [GF B].
  destruct (convert_exact 53 1024 (float_of_bits u) double_good F) as (_ & F' & _).
  { apply (format_incl 24 128); [lia|lia|exact GF]. }
  { eapply Rlt_trans; [exact B|]. apply bpow_lt. lia. }
  rewrite E, C in F'. discriminate F'.
Qed.

Lemma same_text_float e1 e2 u : nan_ok (e_float e1) -> nan_ok (e_float e2) ->
  e_lit e1 = e_lit e2 -> tc_policy (fe_tc (e_float e1)) = tc_policy (fe_tc (e_float e2)) -> bits32 u ->
  lexi e1 (VFloat u) = lexi e2 (VFloat u).
Proof.
  intros N1 N2 HL HP H. rewrite (lexi_as_double e1), (lexi_as_double e2) by assumption. cbn [printed].
  pose proof (printed_bits e1 (VFloat u) N1 H) as B. cbn [printed] in B.
  assert (D : {float_of_bits u = S754_nan} + {float_of_bits u <> S754_nan}) by (destruct (float_of_bits u); [right|right|left|right]; congruence).
  destruct D as [X|X].
  - unfold widen. rewrite X. cbn [convert bits_of_double].
    rewrite !lexi_double, (double_bits (e_float e1)), (double_bits (e_float e2)) by (apply N1 || apply N2).
    pose proof (proj1 (double_nan_iff _ (proj1 N1)) (proj2 N1)) as [Y1 Y2]. rewrite (proj2 (Z.eqb_eq _ _) Y1), (proj2 (Z.eqb_neq _ _) Y2).
    pose proof (proj1 (double_nan_iff _ (proj1 N2)) (proj2 N2)) as [Y3 Y4]. rewrite (proj2 (Z.eqb_eq _ _) Y3), (proj2 (Z.eqb_neq _ _) Y4).
    cbn [andb negb]. rewrite (format_nan _ _ (proj1 N1) (proj2 N1)), (format_nan _ _ (proj1 N2) (proj2 N2)).
    unfold e_lit in HL. rewrite HL. reflexivity.
  - rewrite (widen_nan _ (fe_nan (e_float e2)) u X) in *. apply same_text_double; assumption.
Qed.

(** The pieces: the three multiplications and normalisations are the same functions. *)
Lemma mul_same cc1 cc2 x y : 0 <= df x < 2 ^ 64 -> 0 <= df y < 2 ^ 64 ->
  mul cc1 x y = mul cc2 x y /\ df (mul cc1 x y) = (df x * df y + 2 ^ 63) / 2 ^ 64.
Proof. intros Hx Hy. rewrite !mul_ok by assumption. split; reflexivity. Qed.

Lemma normalize_same cc x : 0 < df x < 2 ^ 53 ->
  exists y, normalize cc x = Ok y /\ 2 ^ 63 <= df y < 2 ^ 64 /\ de y <= de x /\ df y = df x * 2 ^ (de x - de y).
Proof.
  intros H. rewrite normalize_ok by exact H. exists (normalized x). split; [reflexivity|].
  unfold normalized; cbn [df de].
  pose proof (lead_shift_bounds (df x) 53 ltac:(lia) ltac:(lia) ltac:(lia)).
  split; [apply lead_shift_value; lia|]. split; [lia|]. f_equal. f_equal. lia.
Qed.

Lemma normalizeBoundary_same cc x : 0 < df x < 2 ^ 54 ->
  exists y, normalizeBoundary cc x = Ok y /\ 2 ^ 63 <= df y < 2 ^ 64 /\ de y <= de x /\ df y = df x * 2 ^ (de x - de y).
Proof.
  intros H. rewrite normalizeBoundary_ok by exact H. exists (normalized x). split; [reflexivity|].
  unfold normalized; cbn [df de].
  pose proof (lead_shift_bounds (df x) 54 ltac:(lia) ltac:(lia) ltac:(lia)).
  split; [apply lead_shift_value; lia|]. split; [lia|]. f_equal. f_equal. lia.
Qed.

(** ** The cached power, C36 *)

Lemma log_above : 2 ^ 2621 < 10 ^ 789.
Proof. vm_compute. reflexivity. Qed.

Lemma log_below : 10 ^ 643 < 2 ^ 2136.
Proof. vm_compute. reflexivity. Qed.

Lemma ln_power r n r' n' : 0 <= n -> 0 <= n' -> radix_val r ^ n < radix_val r' ^ n' ->
  (IZR n * ln (IZR (radix_val r)) < IZR n' * ln (IZR (radix_val r')))%R.
Proof.
  intros H H' L. apply exp_lt_inv. rewrite <- !bpow_exp. rewrite <- !IZR_Zpower by assumption. apply IZR_lt. exact L.
Qed.

Lemma ceil_check_R x m : ceil_check x m = true -> (bpow radix10 (m - 1) < bpow radix2 x <= bpow radix10 m)%R.
Proof.
  intros H. rewrite !bpow_exp.
  pose proof (ln_power radix2 2621 radix10 789 ltac:(lia) ltac:(lia) log_above) as A.
  pose proof (ln_power radix10 643 radix2 2136 ltac:(lia) ltac:(lia) log_below) as B.
  change (IZR (radix_val radix2)) with 2%R in *. change (IZR (radix_val radix10)) with 10%R in *.
  assert (P2 : (0 < ln 2)%R) by (rewrite <- ln_1; apply ln_increasing; lra).
  assert (P10 : (0 < ln 10)%R) by (rewrite <- ln_1; apply ln_increasing; lra).
  set (a := ln 2) in *. set (b := ln 10) in *.
  assert (X : (IZR (m - 1) * b < IZR x * a /\ IZR x * a <= IZR m * b)%R).
  { unfold ceil_check in H. destruct (Z.leb_spec 0 x) as [Hx|Hx]; apply andb_true_iff in H; destruct H as [H1 H2];
      apply Z.leb_le in H1; apply Z.ltb_lt in H2; apply IZR_le in H1; apply IZR_lt in H2; rewrite !mult_IZR in H1, H2.
    - apply IZR_le in Hx. split.
      + destruct (Rle_or_lt 0 (IZR (m - 1))); nra.
      + nra.
    - apply IZR_lt in Hx. split.
      + nra.
      + destruct (Rle_or_lt (IZR m) 0); nra. }
  split; [apply exp_increasing; apply X|]. destruct X as [_ [X|X]]; [left; apply exp_increasing; exact X|right; rewrite X; reflexivity].
Qed.

Lemma cached_power ev x : -1137 <= x <= 960 ->
  exists F E k m, getCachedPower ev x = Ok (MkDiyFp F E, k) /\
    2 ^ 63 <= F < 2 ^ 64 /\ -60 <= x + E + 64 <= -32 /\
    (Rabs (IZR F * bpow radix2 E - bpow radix10 (- k)) <= bpow radix2 E / 2)%R /\
    (bpow radix10 (m - 1) < bpow radix2 (-61 - x) <= bpow radix10 m)%R /\
    k = 348 - 8 * ((m + 347) / 8 + 1).
Proof.
  intros H. destruct (getCachedPower_ok ev x H) as (F & E & k & G & CK & _).
  pose proof CK as [CF Ce Ckk CC]. pose proof (index_check_at x H) as C. unfold index_check in C.
  destruct (kk_of EvalDouble x) as [kk| | |] eqn:K1; try discriminate.
  destruct (kk_of EvalFused x) as [kk2| | |] eqn:K2; try discriminate.
  destruct (kk_of EvalExtended x) as [kk3| | |] eqn:K3; try discriminate.
  repeat rewrite andb_true_iff in C. destruct C as [[[[[[C1 C2] C3] C4] C5] C6] C7].
  assert (kk2 = kk) by lia. assert (kk3 = kk) by lia. subst kk2 kk3.
  assert (KV : kk_of ev x = Ok kk) by (destruct ev; assumption).
  pose proof (getCachedPower_kk ev x kk KV ltac:(lia) ltac:(lia)) as G2. cbn zeta in G2.
  rewrite G in G2. apply Ok_inj in G2. injection G2 as E1 E2 E3.
  exists F, E, k, (kk - 347). split; [exact G|]. split; [exact CF|]. split; [exact Ce|]. split; [|split].
  - pose proof (close_check_R F E (- k) CC) as X.
    pose proof (bpow_gt_0 radix2 E) as P.
    replace (IZR F * bpow radix2 E - bpow radix10 (- k))%R
      with ((IZR F - bpow radix10 (- k) * bpow radix2 (- E)) * bpow radix2 E)%R
      by (rewrite (bpow_opp radix2 E); field; lra).
    rewrite Rabs_mult, (Rabs_pos_eq (bpow radix2 E)) by lra.
    apply Rle_trans with (4965 / 10000 * bpow radix2 E)%R; [apply Rmult_le_compat_r; lra|lra].
  - apply ceil_check_R. exact C5.
  - rewrite E3. replace (kk - 347 + 347) with kk by lia. reflexivity.
Qed.

(** Every finite positive double asks for an exponent in that range. *)
Lemma boundary_exponent cc u : bits64 u -> double_finite u -> (0 < double_value u)%R ->
  exists mi pl, normalizedBoundaries cc (DiyFp_of_double u) = Ok (mi, pl) /\ -1137 <= de pl <= 960.
Proof.
  intros H F P. assert (N : double_value u <> 0%R) by lra.
  assert (S : sign_field u = false).
  { destruct (sign_field u) eqn:S; [|reflexivity]. rewrite double_value_neg_if, S in P by assumption. cbn in P.
    pose proof (dbl_f_nonneg u). apply IZR_le in H0. pose proof (bpow_gt_0 radix2 (dbl_e u)).
    unfold dbl_R in P. assert (0 <= IZR (dbl_f u) * bpow radix2 (dbl_e u))%R by (apply Rmult_le_pos; lra). lra. }
  assert (M : u mod 2 ^ 63 = u) by (apply Z.mod_small; unfold sign_field in S; unfold bits64 in H; lia).
  assert (FP : finite_pos u).
  { rewrite <- M. apply abs_finite; [exact H|apply double_finite_iff; assumption|apply nonzero_field; assumption]. }
  destruct (finite_pos_f u FP) as [Hf He]. rewrite DiyFp_of_double_eq, normalizedBoundaries_ok by exact Hf.
  eexists. eexists. split; [reflexivity|]. cbn [de]. apply (norm_e_range u FP).
Qed.

(** ** All views, C49 *)

Lemma all_views e v f : platform_ok (e_platform e) -> nan_ok (e_float e) -> e_lit e = default_literals ->
  value_ok e v -> Format e v = Ok f ->
  exists s, lexi e v = Ok s /\ string_of e v = Ok s /\ shows f (array_size v) s /\
    ((forall c, v <> VChar c) -> escape_of e v = Ok s /\ jsonify_of e v = Ok s).
Proof.
  intros HP HN HL HV E.
  assert (FL : floating_ok e v -> array_size v = 30%nat -> exists s, lexi e v = Ok s /\ string_of e v = Ok s /\ shows f (array_size v) s /\
    ((forall c, v <> VChar c) -> escape_of e v = Ok s /\ jsonify_of e v = Ok s)).
  { intros HF AS. destruct (float_object e v HN) as [X|(f' & s & E' & L & S)]; [rewrite HL; vm_compute; auto 10; lia|exact HF| |].
    - rewrite E in X. discriminate X.
    - rewrite E in E'. apply Ok_inj in E'. subst f'. exists s.
      destruct (floating_functions e v HF) as (-> & -> & ->). rewrite AS. auto. }
  destruct v; try contradiction HV; try (apply FL; [exact HV|reflexivity]); clear FL.
  - destruct (FormatNull_holds (e_lit e)) as (o & EO & HO); [rewrite HL; reflexivity|].
    destruct (null_formats e) as (A & B & C & D); [rewrite HL; reflexivity|].
    cbn [Format] in E. rewrite EO in E. cbn [bind] in E. apply Ok_inj in E. subst f.
    exists (lit_null (e_lit e)). split; [exact A|]. split; [exact B|]. split; [|auto].
    apply (text_shows FNull); auto.
  - destruct (FormatBool_holds (e_lit e) b) as (o & EO & HO); [rewrite HL; reflexivity..|].
    destruct (bool_formats e b) as (A & B & C & D); [rewrite HL; reflexivity..|].
    cbn [Format] in E. rewrite EO in E. cbn [bind] in E. apply Ok_inj in E. subst f.
    eexists. split; [exact A|]. split; [exact B|]. split; [|auto].
    apply (text_shows FBool); auto.
  - destruct (char_views e c) as (f' & E' & S & _). rewrite E in E'. apply Ok_inj in E'. subst f'.
    exists [c]. split; [reflexivity|]. split; [reflexivity|]. split; [exact S|]. intros X. contradiction (X c eq_refl).
  - cbn [value_ok] in HV. destruct (FormatInt_shows _ t v HP HV) as (o & s & EO & CI & S & _).
    cbn [Format] in E. rewrite EO in E. cbn [bind] in E. apply Ok_inj in E. subst f.
    exists s. assert (L : FormatInt_string o = Ok s) by apply S.
    unfold lexi, string_of, escape_of, jsonify_of. cbn [Format]. rewrite EO. cbn [bind f_string f_escape f_jsonify].
    unfold FormatInt_escape, FormatInt_jsonify. auto.
  - cbn [value_ok] in HV. destruct (enum_formats e u v HP HV) as (s & A & B & C & D & CI).
    exists s. split; [exact A|]. split; [exact B|]. split; [|auto].
    unfold lexi in A. rewrite E in A. cbn [bind] in A.
    cbn [Format] in E. unfold FormatEnum_new in E.
    match type of E with (let* o := FormatInt_new ?p ?t ?n in _) = _ =>
      assert (X : has_int_type p t n); [|destruct (FormatInt_shows p t n HP X) as (o & s' & EO & _ & _ & S)] end.
    { apply promoted_has; assumption. }
    rewrite EO in E. cbn [bind] in E. apply Ok_inj in E. subst f.
    assert (s' = s); [|subst s'; exact S].
    destruct S as (S & _). rewrite S in A. apply Ok_inj in A. exact A.
  - cbn [value_ok] in HV. destruct (FormatInt_shows _ _ off HP (streamoff_range _ off HP HV)) as (o & s & EO & CI & S & _).
    cbn [Format] in E. rewrite EO in E. cbn [bind] in E. apply Ok_inj in E. subst f.
    exists s. assert (L : FormatInt_string o = Ok s) by apply S.
    unfold lexi, string_of, escape_of, jsonify_of. cbn [Format]. rewrite EO. cbn [bind f_string f_escape f_jsonify].
    unfold FormatInt_escape, FormatInt_jsonify. auto.
Qed.

(** ** float and long double, C50 *)

Lemma bits_of_value nan z : valid_binary 53 1024 z = true -> z <> S754_nan ->
  let w := bits_of_double nan z in
  bits64 w /\ double_value w = SF2R radix2 z /\ (double_finite w <-> is_finite_SF z = true) /\
  (is_finite_SF z = true -> double_sign w = sign_SF z) /\
  (forall s, z = S754_infinity s -> double_infinity w s).
Proof.
  intros V N w. destruct (double_of_bits_of_double nan z V N) as [B E]. fold w in B, E.
  assert (NN : ~ double_nan w) by (rewrite <- double_of_bits_nan, E; exact N).
  split; [exact B|]. split; [rewrite <- double_of_bits_value, E; reflexivity|].
  split; [rewrite <- double_of_bits_finite, E; tauto|].
  split; [intros _; rewrite <- double_of_bits_sign, E by exact NN; reflexivity|].
  intros s Z0. destruct (double_cases w B) as [X|[(s' & X)|X]].
  - contradiction.
  - assert (s' = s); [|subst s'; exact X].
    pose proof (double_of_bits_sign w NN) as S. rewrite E, Z0 in S. cbn [sign_SF] in S.
    unfold double_sign in S. unfold double_infinity in X. rewrite X in S. cbn in S. congruence.
  - assert (X' : double_finite w) by tauto. apply double_of_bits_finite in X'. rewrite E, Z0 in X'. discriminate X'.
Qed.

Lemma long_double_printed e x : nan_ok (e_float e) -> floating_ok e (VLongDouble x) ->
  exists w, bits64 w /\ Format e (VLongDouble x) = Format e (VDouble w) /\ lexi e (VLongDouble x) = lexi e (VDouble w) /\
    match x with
    | S754_nan => double_nan w
    | S754_infinity s => double_infinity w s
    | _ => if Rlt_bool (Rabs (nearest 53 1024 (SF2R radix2 x))) (bpow radix2 1024)
           then double_finite w /\ double_value w = nearest 53 1024 (SF2R radix2 x) /\ double_sign w = sign_SF x
           else double_infinity w (sign_SF x)
    end.
Proof.
  intros HN H. exists (printed e (VLongDouble x)).
  split; [apply printed_bits; assumption|]. split; [apply Format_as_double; assumption|].
  split; [apply lexi_as_double; assumption|]. cbn [printed].
  destruct x as [s|s| |s m x].
  - cbn [SF2R convert]. rewrite nearest_0, Rlt_bool_true by (rewrite Rabs_R0; apply bpow_gt_0).
    destruct (bits_of_value (fe_nan (e_float e)) (S754_zero s) eq_refl ltac:(discriminate)) as (_ & V & F & S & _).
    split; [apply F; reflexivity|]. split; [exact V|]. apply S. reflexivity.
  - destruct (bits_of_value (fe_nan (e_float e)) (S754_infinity s) eq_refl ltac:(discriminate)) as (_ & _ & _ & _ & I).
    apply I. reflexivity.
  - apply HN.
  - destruct (convert_rounded 53 1024 s m x double_good) as [V R].
    set (z := convert 53 1024 (S754_finite s m x)) in *.
    assert (N : z <> S754_nan) by (intros X; rewrite X in R; destruct (Rlt_bool _ _); [destruct R as (_ & R & _)|]; discriminate R).
    destruct (bits_of_value (fe_nan (e_float e)) z V N) as (_ & Vw & F & S & I).
    destruct (Rlt_bool _ _).
    + destruct R as (R1 & R2 & R3). split; [apply F; exact R2|]. split; [rewrite Vw; exact R1|].
      rewrite S by exact R2. exact R3.
    + apply I. exact R.
Qed.

Lemma b32_nan u : Binary.is_nan 24 128 (Bits.b32_of_bits u) = Binary.is_nan_FF (Bits.binary_float_of_bits_aux 23 8 u).
Proof. apply Binary.is_nan_FF2B. Qed.
Lemma b32_sign u : Binary.Bsign 24 128 (Bits.b32_of_bits u) = Binary.sign_FF (Bits.binary_float_of_bits_aux 23 8 u).
Proof. apply Binary.Bsign_FF2B. Qed.

Lemma float_of_bits_nan u : float_of_bits u = S754_nan <-> float_nan u.
Proof.
  unfold float_nan. rewrite b32_nan, float_of_bits_FF.
  destruct (Bits.binary_float_of_bits_aux 23 8 u); cbn; split; congruence.
Qed.

Lemma float_of_bits_sign u : ~ float_nan u -> sign_SF (float_of_bits u) = float_sign u.
Proof.
  unfold float_sign, float_nan. rewrite b32_nan, b32_sign, float_of_bits_FF.
  destruct (Bits.binary_float_of_bits_aux 23 8 u); try reflexivity. intros H. contradiction H. reflexivity.
Qed.

Lemma float_of_bits_infinity u s : float_infinity u s -> float_of_bits u = S754_infinity s.
Proof.
  unfold float_infinity. intros I.
  assert (F : ~ float_finite u) by (unfold float_finite; rewrite I; discriminate).
  assert (N : ~ float_nan u) by (unfold float_nan; rewrite I; discriminate).
  pose proof (float_of_bits_sign u N) as S. unfold float_sign in S. rewrite I in S. cbn in S.
  rewrite <- float_of_bits_finite in F. rewrite <- float_of_bits_nan in N.
  destruct (float_of_bits u); cbn in *; try congruence; contradiction F; reflexivity.
Qed.

Lemma float_printed e u : nan_ok (e_float e) -> bits32 u ->
  exists w, bits64 w /\ Format e (VFloat u) = Format e (VDouble w) /\ lexi e (VFloat u) = lexi e (VDouble w) /\
    (float_nan u -> double_nan w) /\ (forall s, float_infinity u s -> double_infinity w s) /\
    (float_finite u -> double_finite w /\ double_value w = float_value u /\ double_sign w = float_sign u).
Proof.
  intros HN H. exists (printed e (VFloat u)).
  split; [apply printed_bits; assumption|]. split; [apply Format_as_double; assumption|].
  split; [apply lexi_as_double; assumption|]. cbn [printed]. unfold widen. split; [|split].
  - intros N. apply float_of_bits_nan in N. rewrite N. apply HN.
  - intros s I. apply float_of_bits_infinity in I. rewrite I.
    destruct (bits_of_value (fe_nan (e_float e)) (S754_infinity s) eq_refl ltac:(discriminate)) as (_ & _ & _ & _ & X).
    apply X. reflexivity.
  - intros F. pose proof F as F'. rewrite <- float_of_bits_finite in F'.
    assert (N : ~ float_nan u) by (rewrite <- float_of_bits_nan; intros X; rewrite X in F'; discriminate F').
    destruct (sf_format 24 128 _ float_good (float_of_bits_valid u) F') as [GF B].
    destruct (convert_exact 53 1024 (float_of_bits u) double_good F') as (V & F2 & S & R).
    { apply (format_incl 24 128); [lia|lia|exact GF]. }
    { eapply Rlt_trans; [exact B|]. apply bpow_lt. lia. }
    set (z := convert 53 1024 (float_of_bits u)) in *.
    destruct (bits_of_value (fe_nan (e_float e)) z V) as (_ & Vw & Fw & Sw & _).
    { intros X. rewrite X in F2. discriminate F2. }
    split; [apply Fw; exact F2|]. split; [rewrite Vw, R; apply float_of_bits_value|].
    rewrite Sw by exact F2. rewrite S. apply float_of_bits_sign. exact N.
Qed.

Lemma same_text_long_double e1 e2 x : nan_ok (e_float e1) -> nan_ok (e_float e2) ->
  e_lit e1 = e_lit e2 -> tc_policy (fe_tc (e_float e1)) = tc_policy (fe_tc (e_float e2)) ->
  floating_ok e1 (VLongDouble x) -> floating_ok e2 (VLongDouble x) ->
  lexi e1 (VLongDouble x) = lexi e2 (VLongDouble x).
Proof.
  intros N1 N2 HL HP H1 H2. rewrite (lexi_as_double e1), (lexi_as_double e2) by assumption.
  pose proof (printed_bits e1 _ N1 H1) as B. cbn [printed] in *.
  set (z := convert 53 1024 x) in *.
  assert (D : {z = S754_nan} + {z <> S754_nan}) by (destruct z; [right|right|left|right]; congruence).
  destruct D as [X|X].
  - rewrite X. cbn [bits_of_double].
    rewrite (same_text_double e1 e2) by (try apply N1; assumption).
    rewrite !lexi_double. rewrite (double_bits _ (fe_nan (e_float e1))), (double_bits _ (fe_nan (e_float e2))) by (apply N1 || apply N2).
    pose proof (proj1 (double_nan_iff _ (proj1 N1)) (proj2 N1)) as [Y1 Y2]. rewrite (proj2 (Z.eqb_eq _ _) Y1), (proj2 (Z.eqb_neq _ _) Y2).
    pose proof (proj1 (double_nan_iff _ (proj1 N2)) (proj2 N2)) as [Y3 Y4]. rewrite (proj2 (Z.eqb_eq _ _) Y3), (proj2 (Z.eqb_neq _ _) Y4).
    reflexivity.
  - assert (E : bits_of_double (fe_nan (e_float e1)) z = bits_of_double (fe_nan (e_float e2)) z) by (clearbody z; destruct z; [reflexivity|reflexivity|contradiction X; reflexivity|reflexivity]).
    rewrite E in *. apply same_text_double; assumption.
Qed.

(** ** Configured literals of the special values, C11 *)

Lemma float_literal_text e u : nan_ok (e_float e) -> float_literals_ok (e_lit e) -> bits64 u ->
  (double_nan u -> lexi e (VDouble u) = Ok (lit_nan (e_lit e))) /\
  (double_infinity u false -> lexi e (VDouble u) = Ok (lit_infinity (e_lit e))) /\
  (double_infinity u true -> lexi e (VDouble u) = Ok (lit_negative_infinity (e_lit e))).
Proof.
  intros HN (L1 & L2 & L3) H. split; [|split]; intros X.
  - apply lexi_nan; assumption.
  - rewrite (lexi_infinity e u false); auto.
  - rewrite (lexi_infinity e u true); auto.
Qed.

(** ** Termination, C34 *)

Lemma float_terminates e v : nan_ok (e_float e) -> float_literals_ok (e_lit e) -> floating_ok e v ->
  (exists s, lexi e v = Ok s) \/ (lexi e v = overrun /\ tc_policy (fe_tc (e_float e)) = Strict).
Proof.
  intros HN HL HV. destruct (float_object e v HN HL HV) as [X|(f & s & _ & L & _)]; [|left; exists s; exact L].
  destruct (tc_policy (fe_tc (e_float e))) eqn:P.
  - right. rewrite lexi_of_Format by exact HV. rewrite X. auto.
  - destruct (float_object_lenient e v HN HL HV) as (f & s & E & _); [exists oracle; exact P|]. rewrite X in E. discriminate E.
Qed.

(** ** Small integers never read past the table *)

Lemma point_zero_number t n : canonical_natural t n -> forall neg : bool,
  json_number ((if neg then ["-"%char] else []) ++ t ++ str ".0") (Number neg t (Some (str "0")) None).
Proof.
  intros (A & B & _ & D) neg. split.
  - exists "e"%char. split; [left; reflexivity|]. cbn [n_negative n_integer n_fraction n_exponent optional].
    rewrite app_nil_r. reflexivity.
  - cbn [n_integer n_fraction n_exponent]. split; [exact A|]. split; [exact B|]. split; [exact D|]. split.
    + intros f X. injection X as <-. split; [discriminate|]. constructor; [unfold is_digit; cbn; lia|constructor].
    + intros sg x X. discriminate X.
Qed.

Lemma small_integers_defined e u n : tc_policy (fe_tc (e_float e)) = Strict -> bits64 u -> double_finite u ->
  double_value u = IZR n -> 0 < Z.abs n < 10 ^ 9 ->
  exists s, lexi e (VDouble u) = Ok s.
Proof.
  intros S H F En Hn. assert (N : double_value u <> 0%R).
  { rewrite En. intros X. apply (eq_IZR n 0) in X. lia. }
  set (e' := with_policy e (Lenient (fun _ => 0))).
  destruct (finite_defined e' u H F N) as [s L]; [exists (fun _ => 0); reflexivity|].
  destruct (integral_double e' u s n H F En ltac:(lia) L) as (t & C & E).
  assert (X : exists r m, canonical_natural r m /\ 0 < m < 10 ^ 9 /\ exists neg : bool, s = (if neg then ["-"%char] else []) ++ r ++ str ".0").
  { destruct C as [[P C]|[P (r & -> & C)]]; rewrite E.
    - exists t, n. split; [exact C|]. split; [lia|]. exists false. reflexivity.
    - exists r, (- n). split; [exact C|]. split; [lia|]. exists true. reflexivity. }
  destruct X as (r & m & CN & Hm & neg & Es). pose proof (point_zero_number r m CN neg) as J. rewrite <- Es in J.
  exists s. apply (few_digits_defined e (fun _ => 0) u s _ S H F N L J).
  eapply Nat.le_trans; [apply strip_zeros_length|]. unfold n_digits; cbn [n_integer n_fraction optional].
  rewrite app_length. change (length (str "0")) with 1%nat.
  assert (Lr : (length r <= 9)%nat); [|lia].
  assert (NZ : r <> ["0"%char]).
  { intros ->. destruct CN as (_ & _ & V & _). cbn in V. lia. }
  pose proof (canonical_natural_lower r m CN NZ) as Lo.
  destruct (Nat.leb_spec (length r) 9) as [Q|Q]; [exact Q|exfalso].
  assert (10 ^ 9 <= 10 ^ (Z.of_nat (length r) - 1)) by (apply Z.pow_le_mono_r; lia). lia.
Qed.

(** ** A third, in every environment *)

Lemma third_overruns e : nan_ok (e_float e) -> e_lit e = default_literals -> tc_policy (fe_tc (e_float e)) = Strict ->
  lexi e (VDouble 0x3FD5555555555555) = overrun.
Proof.
  intros HN HL HP. rewrite (same_text_double e (linux_x86_64 Strict)); [vm_compute; reflexivity|exact HN| |exact HL|exact HP|].
  - split; [unfold bits64; cbn; lia|]. apply double_nan_iff; [unfold bits64; cbn; lia|]. split; [reflexivity|discriminate].
  - unfold bits64. cbn. lia.
Qed.

(** ** The sign of zero is lost *)

Lemma zero_sign_lost e u : bits64 u -> double_finite u -> double_value u = 0%R ->
  lexi e (VDouble u) = Ok (str "0.0") /\
  forall point, extract e point TDouble (str "0.0") = Ok (XFloating (S754_zero false)).
Proof.
  intros H F V. split; [apply lexi_zero; assumption|]. intros point.
  unfold extract, ExtractFloat. cbn [bind]. unfold strtold.
  destruct (take_sign (skip_space (c_str_of (str "0.0")))) as [neg r] eqn:T. vm_compute in T. injection T as <- <-.
  set (z := ["0"; "."; "0"]%char).
  change (starts_ci (str "inf") z) with false. change (starts_ci (str "nan") z) with false.
  change (starts_ci (str "0x") z) with false. cbv iota.
  unfold scan_mantissa. change (span c_isdigit z) with (str "0", "."%char :: str "0"). cbv iota beta.
  destruct (Ascii.eqb "." point); reflexivity.
Qed.

(** ** For the examples *)

Lemma sample u : (0 <=? u) && (u <? 2 ^ 64) && negb (exp_field u =? 2047) && negb (u mod 2 ^ 63 =? 0) = true ->
  bits64 u /\ double_finite u /\ double_value u <> 0%R.
Proof.
  intros H. repeat rewrite andb_true_iff in H. destruct H as [[[A B] C] D].
  assert (BB : bits64 u) by (unfold bits64; lia). apply negb_true_iff, Z.eqb_neq in C. apply negb_true_iff, Z.eqb_neq in D.
  assert (F : double_finite u) by (apply double_finite_iff; assumption).
  split; [exact BB|]. split; [exact F|]. apply nonzero_field; assumption.
Qed.

Lemma quiet_nan : bits64 0x7FF8000000000000 /\ double_nan 0x7FF8000000000000.
Proof.
  assert (B : bits64 0x7FF8000000000000) by (unfold bits64; lia).
  split; [exact B|]. apply double_nan_iff; [exact B|]. split; [reflexivity|discriminate].
Qed.

Lemma sample_env pol : nan_ok (e_float (linux_x86_64 pol)) /\ nan_ok (e_float (windows_x64 pol)) /\
  nan_ok (e_float (linux_aarch64 pol)) /\ float_literals_ok default_literals /\ literals_not_nul default_literals.
Proof.
  split; [exact quiet_nan|]. split; [exact quiet_nan|]. split; [exact quiet_nan|].
  split; [|split; [|split]; cbn; repeat constructor; discriminate].
  unfold float_literals_ok. cbn. unfold FLOAT_SIZE. lia.
Qed.

Lemma nan_json_refuted : exists u s, bits64 u /\
  jsonify_of (linux_x86_64 Strict) (VDouble u) = Ok s /\ ~ json_text s.
Proof.
  exists 0x7FF8000000000000, (str "NaN"). split; [apply quiet_nan|]. split; [vm_compute; reflexivity|exact nan_not_json].
Qed.

Lemma third_refuted : exists e u, bits64 u /\ double_finite u /\ lexi e (VDouble u) = UB "POWER10 read out of bounds".
Proof.
  exists (linux_x86_64 Strict), 0x3FD5555555555555.
  destruct (sample 0x3FD5555555555555 eq_refl) as (A & B & _). split; [exact A|]. split; [exact B|].
  vm_compute. reflexivity.
Qed.

Lemma negative_zero : bits64 (2 ^ 63) /\ double_finite (2 ^ 63) /\ double_value (2 ^ 63) = 0%R /\ double_sign (2 ^ 63) = true.
Proof.
  assert (B : bits64 (2 ^ 63)) by (unfold bits64; lia). split; [exact B|].
  assert (Z0 : isZero (2 ^ 63) = true) by reflexivity.
  destruct (classification _ B) as (_ & _ & _ & _ & _ & C & _). apply C in Z0. destruct Z0 as [F V].
  split; [exact F|]. split; [exact V|]. rewrite double_sign_eq by exact B. reflexivity.
Qed.

Lemma zero_sign_refuted : exists u, bits64 u /\ double_finite u /\ double_value u = 0%R /\ double_sign u = true /\
  forall e point, (let* s := lexi e (VDouble u) in extract e point TDouble s) = Ok (XFloating (S754_zero false)).
Proof.
  exists (2 ^ 63). destruct negative_zero as (A & B & C & D). repeat (split; [assumption|]).
  intros e point. destruct (zero_sign_lost e _ A B C) as [L X]. rewrite L. apply X.
Qed.

Lemma same_text e1 e2 : nan_ok (e_float e1) -> nan_ok (e_float e2) ->
  e_lit e1 = e_lit e2 -> tc_policy (fe_tc (e_float e1)) = tc_policy (fe_tc (e_float e2)) ->
  (forall u, bits64 u -> lexi e1 (VDouble u) = lexi e2 (VDouble u)) /\
  (forall u, bits32 u -> lexi e1 (VFloat u) = lexi e2 (VFloat u)) /\
  (forall x, floating_ok e1 (VLongDouble x) -> floating_ok e2 (VLongDouble x) ->
     lexi e1 (VLongDouble x) = lexi e2 (VLongDouble x)).
Proof.
  intros N1 N2 HL HP. split; [|split].
  - intros u H. apply same_text_double; assumption.
  - intros u H. apply same_text_float; assumption.
  - intros x H1 H2. apply same_text_long_double; assumption.
Qed.

Lemma Format_no_fuel e v : platform_ok (e_platform e) -> nan_ok (e_float e) -> e_lit e = default_literals ->
  value_ok e v -> Format e v = overrun \/ exists f, Format e v = Ok f.
Proof.
  intros HP HN HL HV.
  assert (FL : floating_ok e v -> Format e v = overrun \/ exists f, Format e v = Ok f).
  { intros HF. destruct (float_object e v HN) as [X|(f & s & E & _)]; [rewrite HL; apply (sample_env Strict)|exact HF|auto|eauto]. }
  destruct v; try contradiction HV; try (apply FL; exact HV); clear FL; right.
  - destruct (FormatNull_holds (e_lit e)) as (o & EO & HO); [rewrite HL; reflexivity|].
    exists (FNull o). cbn [Format]. rewrite EO. reflexivity.
  - destruct (FormatBool_holds (e_lit e) b) as (o & EO & HO); [rewrite HL; reflexivity..|].
    exists (FBool o). cbn [Format]. rewrite EO. reflexivity.
  - destruct (char_views e c) as (f' & E' & S & _). eauto.
  - destruct (FormatInt_shows _ t v HP HV) as (o & s & EO & _). cbn [Format]. rewrite EO. cbn [bind]. eauto.
  - destruct (FormatInt_shows _ _ v HP (promoted_has _ _ _ HP HV)) as (o & s & EO & _).
    cbn [Format]. unfold FormatEnum_new. rewrite EO. cbn [bind]. eauto.
  - destruct (FormatInt_shows _ _ off HP (streamoff_range _ off HP HV)) as (o & s & EO & _).
    cbn [Format]. rewrite EO. cbn [bind]. eauto.
Qed.

Lemma all_terminate e v : platform_ok (e_platform e) -> nan_ok (e_float e) -> e_lit e = default_literals ->
  value_ok e v -> Format e v <> NoFuel /\ string_of e v <> NoFuel /\ escape_of e v <> NoFuel /\ jsonify_of e v <> NoFuel.
Proof.
  intros HP HN HL HV. destruct (Format_no_fuel e v HP HN HL HV) as [X|[f X]].
  - destruct v; try contradiction HV; unfold string_of, escape_of, jsonify_of; rewrite X; cbn [bind]; unfold overrun; repeat split; discriminate.
  - destruct (all_views e v f HP HN HL HV X) as (s & _ & S & _ & V). rewrite X, S.
    split; [discriminate|]. split; [discriminate|]. destruct v; try contradiction HV;
      try (destruct V as [-> ->]; [intros c; discriminate|]; split; discriminate).
    destruct (char_views e c) as (_ & _ & _ & -> & ->).
    destruct (escape_spec e [c]) as (t & -> & _). destruct (jsonify_decodes e [c]) as (t' & -> & _). split; discriminate.
Qed.
