(** The digits are the closest of the interval at their position, as long as the table of
    powers is not left. *)
From Coq Require Import Reals Lra Psatz.
From Flocq Require Import Core.
From Verif Require Import Machine LibMachine SpecApi SpecDecimal SpecNumber SpecIeee SpecJson ModelIeee ModelDiyfp ModelDtoa
  ModelFloat ModelLexi ModelPlatforms
  ProofDiyfp ProofCached ProofDigits ProofGrisu ProofLayout ProofIeee ProofDtoa ProofNumber ProofShort ProofStrict ProofUnique ProofFloat ProofFloat2 ProofFloat3 ProofFloat4.
Open Scope Z_scope.
Ltac Zify.zify_post_hook ::= idtac.
Open Scope R_scope.

Lemma mid_R u F E k : finite_pos u -> cached_ok (norm_e u) F E k ->
  Rabs (IZR (mid_of (dbl_f u) F) * unit_R u E k - dbl_R u) <= unit_R u E k.
Proof.
  intros H CK. destruct (finite_pos_f u H) as [Hf He]. destruct (boundary_gaps (dbl_f u) Hf) as (B & _ & _ & _ & _ & V & PR).
  cbv zeta in *. pose proof (unit_pos u E k) as UP.
  pose proof (scaled_error u F E k (dbl_f u * 2 ^ lead_shift (dbl_f u)) CK ltac:(lia)) as S.
  fold (mid_of (dbl_f u) F) in S.
  assert (EX : IZR (dbl_f u * 2 ^ lead_shift (dbl_f u)) * bpow radix2 (norm_e u) = dbl_R u).
  { unfold dbl_R, norm_e. rewrite mult_IZR, pow2_bpow, Rmult_assoc, <- bpow_plus by lia. f_equal. f_equal. lia. }
  rewrite EX in S. set (x := dbl_R u) in *.
  rewrite <- (unscale u E k x) at 1. rewrite <- Rmult_minus_distr_r, Rabs_mult, (Rabs_pos_eq (unit_R u E k)) by lra.
  rewrite <- (Rmult_1_l (unit_R u E k)) at 2. apply Rmult_le_compat_r; [lra|]. lra.
Qed.

(** In units, the position [kap]. *)
Lemma abs_scale a b c (P : Prop) : 0 < c -> (Z.abs a <= Z.abs b)%Z /\ (Z.abs a = Z.abs b -> P) ->
  Rabs (IZR a * c) <= Rabs (IZR b * c) /\ (Rabs (IZR a * c) = Rabs (IZR b * c) -> P).
Proof.
  intros C [H X]. rewrite !Rabs_mult, (Rabs_pos_eq c), <- !abs_IZR by lra. split.
  - apply Rmult_le_compat_r; [lra|]. apply IZR_le. exact H.
  - intros E. apply X. apply Rmult_eq_reg_r in E; [|lra]. apply eq_IZR. exact E.
Qed.

Lemma close_R u ds K F E k kap Q : finite_pos u -> grisu_ok u ds K F E k kap -> (-9 <= kap)%Z ->
  lo_R u F E k <= IZR Q * bpow radix10 K <= hi_R u F E k ->
  Rabs (digits_R ds K - IZR (mid_of (dbl_f u) F) * unit_R u E k) <= Rabs (IZR Q * bpow radix10 K - IZR (mid_of (dbl_f u) F) * unit_R u E k) /\
  (Rabs (digits_R ds K - IZR (mid_of (dbl_f u) F) * unit_R u E k) = Rabs (IZR Q * bpow radix10 K - IZR (mid_of (dbl_f u) F) * unit_R u E k) ->
   (Q <= nval ds)%Z).
Proof.
  intros H G Hk [L U]. destruct (scaled_facts u ds K F E k kap H G) as [Hs _]. destruct (finite_pos_f u H) as [Hf He].
  destruct G as [CK DG EK LN V CL]. subst K. pose proof CK as [CF _ _ _].
  pose proof (mid_between (dbl_f u) F Hf CF) as MB. destruct CL as [_ CL]. specialize (CL ltac:(lia) Hk Q).
  unfold lo_R, hi_R in L, U. set (M := hi_of (dbl_f u) F) in *. set (m := lo_of (dbl_f u) F) in *.
  set (w := mid_of (dbl_f u) F) in *. set (s := shift_of u E) in *.
  replace (M - (M - m))%Z with m in CL by ring. replace (M - (M - w))%Z with w in CL by ring.
  unfold digits_R. unfold unit_R in *. fold s in L, U |- *.
  rewrite bpow_plus in *. rewrite bpow_opp in *.
  pose proof (bpow_gt_0 radix10 k) as P1. pose proof (bpow_gt_0 radix2 s) as P2. pose proof (bpow_gt_0 radix10 kap) as P3.
  destruct (Z.leb_spec 0 kap) as [Hp|Hp].
  - rewrite <- (pow10_bpow kap) in * by exact Hp. rewrite <- (pow2_bpow s) in * by lia.
    set (x := bpow radix10 k) in *. set (y := (2 ^ s)%Z) in *. set (z := (10 ^ kap)%Z) in *.
    assert (PP : 0 < x * / IZR y) by (apply Rmult_lt_0_compat; [lra|apply Rinv_0_lt_compat; lra]).
    assert (EQ : forall a, IZR a * (x * IZR z) = IZR (a * (z * y)) * (x * / IZR y)) by (intros a; rewrite !mult_IZR; field; lra).
    rewrite !EQ in L, U. rewrite !EQ.
    apply Rmult_le_reg_r in L; [|exact PP]. apply Rmult_le_reg_r in U; [|exact PP]. apply le_IZR in L. apply le_IZR in U.
    specialize (CL ltac:(lia)). rewrite <- !Rmult_minus_distr_r, <- !minus_IZR. apply abs_scale; [exact PP|exact CL].
  - assert (PJ : (0 < 10 ^ (- kap))%Z) by (apply Z.pow_pos_nonneg; lia).
    assert (EJ : bpow radix10 kap = / IZR (10 ^ (- kap))).
    { rewrite pow10_bpow by lia. rewrite bpow_opp, Rinv_inv. reflexivity. }
    assert (PR : 0 < IZR (10 ^ (- kap))) by (apply IZR_lt; exact PJ).
    rewrite EJ in *. rewrite <- (pow2_bpow s) in * by lia.
    set (x := bpow radix10 k) in *. set (y := (2 ^ s)%Z) in *. set (z := (10 ^ (- kap))%Z) in *.
    assert (PP : 0 < x * / IZR z * / IZR y).
    { apply Rmult_lt_0_compat; [apply Rmult_lt_0_compat; [lra|exact P3]|apply Rinv_0_lt_compat; lra]. }
    assert (EQ : forall a, IZR a * (x * / IZR z) = IZR (a * y) * (x * / IZR z * / IZR y)) by (intros a; rewrite !mult_IZR; field; lra).
    assert (EU : forall a, IZR a * (x * / IZR y) = IZR (z * a) * (x * / IZR z * / IZR y)) by (intros a; rewrite !mult_IZR; field; lra).
    rewrite EQ, EU in L. rewrite EQ, EU in U. rewrite !EQ, !EU.
    apply Rmult_le_reg_r in L; [|exact PP]. apply Rmult_le_reg_r in U; [|exact PP]. apply le_IZR in L. apply le_IZR in U.
    specialize (CL ltac:(lia)). rewrite <- !Rmult_minus_distr_r, <- !minus_IZR. apply abs_scale; [exact PP|exact CL].
Qed.

Lemma closest_value u ds K F E k kap Q : finite_pos u -> grisu_ok u ds K F E k kap -> (-9 <= kap)%Z ->
  lower_R u + bpow radix2 (dbl_e u) / 500 <= IZR Q * bpow radix10 K <= upper_R u - bpow radix2 (dbl_e u) / 500 ->
  Rabs (digits_R ds K - dbl_R u) <= Rabs (IZR Q * bpow radix10 K - dbl_R u) + bpow radix2 (dbl_e u) / 500.
Proof.
  intros H G Hk B. pose proof (interval_covers u ds K F E k kap _ H G B) as I.
  destruct (close_R u ds K F E k kap Q H G Hk ltac:(lra)) as [C _]. pose proof (go_cached _ _ _ _ _ _ _ G) as CK.
  pose proof (mid_R u F E k H CK) as M. pose proof (unit_small u F E k H CK) as U. pose proof (unit_pos u E k) as UP.
  set (w := IZR (mid_of (dbl_f u) F) * unit_R u E k) in *. set (x := dbl_R u) in *. set (y := digits_R ds K) in *. set (z := IZR Q * bpow radix10 K) in *.
  assert (T1 : Rabs (y - x) <= Rabs (y - w) + Rabs (w - x)).
  { replace (y - x) with ((y - w) + (w - x)) by ring. apply Rabs_triang. }
  assert (T2 : Rabs (z - w) <= Rabs (z - x) + Rabs (w - x)).
  { replace (z - w) with ((z - x) + - (w - x)) by ring. rewrite <- (Rabs_Ropp (w - x)). apply Rabs_triang. }
  lra.
Qed.

(** Digits at a position no lower than that of the text. *)
Lemma position_below (N V K K' : Z) : (N mod 10 <> 0)%Z -> IZR N * bpow radix10 K' = IZR V * bpow radix10 K -> (K <= K')%Z.
Proof.
  intros HN E. destruct (Z_le_gt_dec K K') as [|G]; [assumption|]. exfalso. apply HN.
  replace K with ((K - K') + K')%Z in E by lia. rewrite bpow_plus, <- Rmult_assoc in E.
  apply Rmult_eq_reg_r in E; [|pose proof (bpow_gt_0 radix10 K'); lra].
  rewrite <- IZR_Zpower in E by lia. rewrite <- mult_IZR in E. apply eq_IZR in E. rewrite E.
  change (radix_val radix10) with 10%Z. replace (K - K')%Z with (1 + (K - K' - 1))%Z by lia.
  rewrite Z.pow_add_r, Z.pow_1_r by lia. rewrite Z.mul_assoc, (Z.mul_comm V 10), <- Z.mul_assoc, Z.mul_comm.
  apply Z_mod_mult.
Qed.

Lemma closest e u s n N K' D : bits64 u -> double_finite u -> double_value u <> 0 -> lexi e (VDouble u) = Ok s ->
  json_number s n ->
  tc_policy (fe_tc (e_float e)) = Strict \/ (length (strip_zeros (n_digits n)) <= 10)%nat ->
  n_magnitude n = IZR N * bpow radix10 K' -> (N mod 10 <> 0)%Z ->
  let x := Rabs (double_value u) in let margin := ulp radix2 fexp64 x / 500 in
  lower_end x + margin <= IZR D * bpow radix10 K' <= upper_end x - margin ->
  Rabs (n_magnitude n - x) <= Rabs (IZR D * bpow radix10 K' - x) + margin.
Proof.
  intros H F NZ L J' W EN HN x margin B.
  destruct (finite_format_bits (e_float e) u H F NZ) as (ds & K & F0 & E & k & kap & P & G & GC & (o & DF & Ho) & X & XS).
  rewrite lexi_double, double_finite_bits in L by assumption.
  assert (Es : s = sign_text u ++ layout ds K).
  { destruct X as [X|(X & _)]; rewrite X in L; [|discriminate L].
    rewrite DF in L. cbn [bind] in L. symmetry. eapply FormatFloat_holds_string; eassumption. }
  assert (FP : finite_pos (u mod 2 ^ 63)).
  { apply abs_finite; [exact H|apply double_finite_iff; assumption|apply nonzero_field; assumption]. }
  pose proof (digits_good _ _ _ _ _ _ (go_digits _ _ _ _ _ _ _ G)) as GD.
  pose proof (grisu_exponent _ _ _ _ _ _ _ G) as GE.
  pose proof (layout_json (sign_field u) ds K GD GE) as J.
  change ((if sign_field u then ["-"%char] else []) ++ layout ds K) with (sign_text u ++ layout ds K) in J.
  rewrite <- Es in J. pose proof (json_number_unique _ _ _ J' J) as EnN.
  pose proof (layout_magnitude (sign_field u) ds K GD GE) as LM. rewrite <- EnN in LM.
  assert (Hk : (-9 <= kap)%Z).
  { destruct W as [W|W].
    - destruct (Z_le_gt_dec (-9) kap) as [|g]; [assumption|]. rewrite (XS W ltac:(lia)) in L. discriminate L.
    - rewrite EnN in W. pose proof (layout_significant (sign_field u) ds K GD) as [_ LS].
      pose proof (do_length _ _ _ _ _ _ (go_digits _ _ _ _ _ _ _ G)) as DL.
      pose proof (int_count_range (hi_of (dbl_f (u mod 2 ^ 63)) F0) (shift_of (u mod 2 ^ 63) E)) as CR. lia. }
  pose proof (dbl_R_pos _ FP) as PV.
  assert (DV : double_value u = neg_if (sign_field u) (dbl_R (u mod 2 ^ 63))).
  { rewrite double_value_neg_if by assumption. f_equal. unfold dbl_R. destruct (dbl_mod u H) as [-> ->]. reflexivity. }
  assert (Ex : x = dbl_R (u mod 2 ^ 63)).
  { unfold x. rewrite DV. destruct (sign_field u); cbn [neg_if]; [rewrite Rabs_Ropp|]; apply Rabs_pos_eq; lra. }
  unfold margin in B |- *. rewrite Ex in B |- *. rewrite lower_end_eq in B by exact FP.
  unfold upper_end in B. rewrite <- upper_is_mid in B by exact FP. rewrite dbl_ulp in B |- * by exact FP.
  assert (KK : (K <= K')%Z).
  { apply (position_below N (nval ds)); [exact HN|]. rewrite <- EN, LM. reflexivity. }
  replace (IZR D * bpow radix10 K') with (IZR (D * 10 ^ (K' - K)) * bpow radix10 K) in B |- *.
  2:{ rewrite mult_IZR. change 10%Z with (radix_val radix10). rewrite IZR_Zpower, Rmult_assoc, <- bpow_plus by lia.
      f_equal. f_equal. lia. }
  rewrite LM. apply (closest_value (u mod 2 ^ 63) ds K F0 E k kap _ FP G Hk B).
Qed.

(** Where the table of powers is left, zero memory gives a text that is not the closest. *)
Lemma closest_refuted : exists e u s n N K' D, bits64 u /\ double_finite u /\ double_value u <> 0 /\ lexi e (VDouble u) = Ok s /\
  json_number s n /\ n_magnitude n = IZR N * bpow radix10 K' /\ (N mod 10 <> 0)%Z /\
  let x := Rabs (double_value u) in let margin := ulp radix2 fexp64 x / 500 in
  lower_end x + margin <= IZR D * bpow radix10 K' <= upper_end x - margin /\
  ~ Rabs (n_magnitude n - x) <= Rabs (IZR D * bpow radix10 K' - x) + margin.
Proof.
  set (u := 0x3FF0000000000001%Z).
  assert (H : bits64 u) by (split; cbn; lia).
  assert (F : double_finite u) by reflexivity.
  assert (FP : finite_pos u) by (split; cbn; lia).
  assert (DV : double_value u = IZR (2 ^ 52 + 1) * bpow radix2 (-52)).
  { reflexivity. }
  exists (linux_x86_64 zero_memory), u, (str "1.0000000000000003"), (Number false (str "1") (Some (str "0000000000000003")) None),
    10000000000000003%Z, (-16)%Z, 10000000000000002%Z.
  assert (P2 : bpow radix2 (-52) = / IZR (2 ^ 52)) by reflexivity.
  assert (P10 : bpow radix10 (-16) = / IZR (10 ^ 16)) by reflexivity.
  assert (EF : dbl_f u = (2 ^ 52 + 1)%Z) by reflexivity. assert (EE : dbl_e u = (-52)%Z) by reflexivity.
  assert (EX : double_value u = dbl_R u) by (rewrite DV; unfold dbl_R; rewrite EF, EE; reflexivity).
  pose proof (dbl_R_pos u FP) as PV.
  split; [exact H|]. split; [exact F|]. split; [rewrite EX; lra|]. split; [vm_compute; reflexivity|].
  split.
  { split; [exists "e"%char; split; [left; reflexivity|reflexivity]|]. cbn [n_integer n_fraction n_exponent].
    split; [discriminate|]. split; [repeat constructor; cbn; lia|]. split; [intros r X; discriminate X|].
    split; [intros f X; injection X as <-; split; [discriminate|repeat constructor; cbn; lia]|discriminate]. }
  split; [reflexivity|]. split; [discriminate|]. cbn zeta.
  rewrite EX, (Rabs_pos_eq (dbl_R u)) by lra.
  assert (UP : upper_end (dbl_R u) = upper_R u) by (unfold upper_end; symmetry; apply upper_is_mid; exact FP).
  rewrite UP, lower_end_eq, dbl_ulp by exact FP. destruct (gap_R u) as [-> ->].
  replace (dbl_f u =? 2 ^ 52)%Z with false by (rewrite EF; reflexivity).
  change (n_magnitude _) with (10000000000000003 * bpow radix10 (-16)).
  rewrite EE, <- EX, DV, P2, P10. clear. change (IZR (2 ^ 52 + 1)) with 4503599627370497. change (IZR (2 ^ 52)) with 4503599627370496.
  change (IZR (10 ^ 16)) with 10000000000000000.
  split; [lra|]. intros X.
  rewrite (Rabs_pos_eq (10000000000000003 * _ - _)) in X by lra.
  rewrite (Rabs_left1 (10000000000000002 * _ - _)) in X by lra. lra.
Qed.
