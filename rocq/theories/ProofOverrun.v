(** Proofs about when the table POWER10 is overrun. *)
From Coq Require Import Reals Lra Psatz.
From Flocq Require Import Core.
From Flocq Require Import IEEE754.BinarySingleNaN.
From Verif Require Import Machine LibMachine SpecApi SpecDecimal SpecInt SpecNumber SpecIeee SpecString SpecJson SpecOverrun
  ModelItoa ModelInt ModelText ModelIeee ModelDiyfp ModelDtoa
  ModelFloat ModelLexi ProofDiyfp ProofCached ProofDigits ProofGrisu ProofLayout ProofIeee ProofDtoa ProofNumber
  ProofRound ProofStrict ProofUnique ProofShort ProofApi ProofFloat ProofFloat2 ProofFloat3 ProofFloat4 ProofClose.
Open Scope Z_scope.
Ltac Zify.zify_post_hook ::= idtac.

Lemma layout_scale (neg : bool) ds k : good_digits ds -> -1000 < Z.of_nat (length ds) + k - 1 < 1000 ->
  n_scale (layout_number neg ds k) = if (0 <=? k) && (Z.of_nat (length ds) + k <=? 21) then -1 else k.
Proof.
  intros [HD (d & r & Eds & Hd)] Hk. unfold n_scale, n_exponent_value, layout_number.
  set (len := Z.of_nat (length ds)) in *. replace (len <=? len + k) with (0 <=? k) by (apply Bool.eq_true_iff_eq; rewrite !Z.leb_le; lia).
  destruct ((0 <=? k) && _) eqn:E1; [|destruct ((0 <? _)%Z && _) eqn:E2; [|destruct ((-6 <? _)%Z && _) eqn:E3]];
    cbn [n_negative n_integer n_fraction n_exponent optional].
  - reflexivity.
  - rewrite map_length, skipn_length. lia.
  - rewrite app_length, map_length. unfold zeros. rewrite repeat_length. lia.
  - destruct (exp_digits_ok (Z.abs (len + k - 1)) ltac:(lia)) as (X1 & _ & X3).
    assert (HX : (if list_eq_dec ascii_dec (if (len + k - 1 <? 0)%Z then ["-"%char] else []) ["-"%char]
                  then - numeral_value (map dchr (exp_digits (Z.abs (len + k - 1))))
                  else numeral_value (map dchr (exp_digits (Z.abs (len + k - 1)))))%Z = (len + k - 1)%Z).
    { rewrite numeral_value_dchr, X3 by exact X1.
      destruct (Z.ltb_spec (len + k - 1) 0); destruct (list_eq_dec _ _ _) as [Y|Y]; try lia.
      - exfalso. apply Y. reflexivity.
      - discriminate Y. }
    subst ds. destruct r as [|d1 r]; cbn [n_negative n_integer n_fraction n_exponent optional]; rewrite HX; unfold len; cbn [length]; [lia|].
    rewrite map_length. cbn [length]. lia.
Qed.

(** ** The scale of a number *)

Lemma bpow_unique b b' x : (bpow radix2 b <= x < bpow radix2 (b + 1))%R -> (bpow radix2 b' <= x < bpow radix2 (b' + 1))%R -> b = b'.
Proof.
  intros [L U] [L' U']. assert (b < b' + 1) by (apply (lt_bpow radix2); lra). assert (b' < b + 1) by (apply (lt_bpow radix2); lra). lia.
Qed.
Lemma scale_unique x g g' : decimal_scale x g -> decimal_scale x g' -> g = g'.
Proof.
  intros (M & b & B & L & U) (M' & b' & B' & L' & U'). rewrite <- (bpow_unique _ _ _ B B') in *.
  pose proof (bpow_gt_0 radix2 b) as P.
  assert (g - 8 < g').
  { apply (lt_bpow radix10). apply Rmult_lt_reg_r with (1 := P). lra. }
  assert (g' - 8 < g).
  { apply (lt_bpow radix10). apply Rmult_lt_reg_r with (1 := P). lra. }
  pose proof (Z.div_mod g 8 ltac:(lia)). pose proof (Z.div_mod g' 8 ltac:(lia)). lia.
Qed.

Lemma norm_e_bounds u : finite_pos u -> (bpow radix2 (norm_e u + 63) <= dbl_R u < bpow radix2 (norm_e u + 64))%R.
Proof.
  intros FP. destruct (finite_pos_f u FP) as [Hf He]. unfold norm_e, dbl_R.
  pose proof (lead_shift_value (dbl_f u) ltac:(lia)) as [L U].
  replace (IZR (dbl_f u) * bpow radix2 (dbl_e u))%R
    with (IZR (dbl_f u * 2 ^ lead_shift (dbl_f u)) * bpow radix2 (dbl_e u - lead_shift (dbl_f u)))%R.
  2:{ pose proof (lead_shift_bounds (dbl_f u) 64 ltac:(lia) ltac:(lia) ltac:(lia)) as LB.
      rewrite mult_IZR, pow2_bpow, Rmult_assoc, <- bpow_plus by lia. f_equal. f_equal. lia. }
  set (e := dbl_e u - lead_shift (dbl_f u)) in *. rewrite !(Z.add_comm e), !bpow_plus. pose proof (bpow_gt_0 radix2 e) as P.
  apply IZR_le in L. apply IZR_lt in U. change (2 ^ 63)%Z with (Zpower radix2 63) in L. change (2 ^ 64)%Z with (Zpower radix2 64) in U.
  rewrite IZR_Zpower in L, U by lia. split; [apply Rmult_le_compat_r; lra|apply Rmult_lt_compat_r; lra].
Qed.
Lemma abs_double u : bits64 u -> double_finite u -> Rabs (double_value u) = dbl_R (u mod 2 ^ 63).
Proof.
  intros H F. rewrite double_value_neg_if by assumption.
  assert (E : dbl_R u = dbl_R (u mod 2 ^ 63)) by (unfold dbl_R; destruct (dbl_mod u H) as [-> ->]; reflexivity).
  rewrite E. assert (0 <= dbl_R (u mod 2 ^ 63))%R.
  { unfold dbl_R. apply Rmult_le_pos; [apply IZR_le, dbl_f_nonneg|apply bpow_ge_0]. }
  destruct (sign_field u); cbn [neg_if]; [rewrite Rabs_Ropp|]; apply Rabs_pos_eq; assumption.
Qed.
Lemma cached_scale ev u F E k : finite_pos u -> getCachedPower ev (norm_e u) = Ok (MkDiyFp F E, k) -> decimal_scale (dbl_R u) (- k).
Proof.
  intros FP G. destruct (cached_power ev _ (norm_e_range u FP)) as (F' & E' & k' & m & G' & _ & _ & _ & [M1 M2] & K).
  rewrite G in G'. apply Ok_inj in G'. injection G' as <- <- <-.
  pose proof (Z.div_mod (m + 347) 8 ltac:(lia)) as D. pose proof (Z.mod_pos_bound (m + 347) 8 ltac:(lia)) as B.
  split.
  - rewrite K. replace (- (348 - 8 * ((m + 347) / 8 + 1))) with (4 + ((m + 347) / 8 - 43) * 8) by lia. rewrite Z.mod_add by lia. reflexivity.
  - exists (norm_e u + 63). replace (norm_e u + 63 + 1) with (norm_e u + 64) by lia. split; [apply norm_e_bounds; exact FP|].
    set (b := norm_e u + 63). replace (-61 - norm_e u) with (2 - b) in * by (unfold b; lia).
    assert (P2 : (bpow radix2 (2 - b) * bpow radix2 b = 4)%R).
    { rewrite <- bpow_plus. replace (2 - b + b) with 2 by lia. reflexivity. }
    pose proof (bpow_gt_0 radix2 b) as P. rewrite <- P2. split.
    + apply Rmult_lt_compat_r; [exact P|]. apply Rle_lt_trans with (2 := M1). apply bpow_le. lia.
    + apply Rmult_le_compat_r; [lra|]. apply Rle_trans with (1 := M2). apply bpow_le. lia.
Qed.
Lemma scale_exists u : bits64 u -> double_finite u -> double_value u <> 0%R -> exists g, decimal_scale (Rabs (double_value u)) g.
Proof.
  intros H F N. assert (FP : finite_pos (u mod 2 ^ 63)).
  { apply abs_finite; [exact H|apply double_finite_iff; assumption|apply nonzero_field; assumption]. }
  destruct (getCachedPower_ok EvalDouble _ (norm_e_range _ FP)) as (F0 & E & k & G & _).
  exists (- k). rewrite abs_double by assumption. eapply cached_scale; eassumption.
Qed.

(** ** When the table is overrun *)

Lemma overrun_exact e oracle u s n g : tc_policy (fe_tc (e_float e)) = Strict -> bits64 u -> double_finite u ->
  double_value u <> 0%R ->
  lexi (with_policy e (Lenient oracle)) (VDouble u) = Ok s -> json_number s n -> decimal_scale (Rabs (double_value u)) g ->
  (- g - 9 <= n_scale n -> lexi e (VDouble u) = Ok s) /\
  (-4 <= g -> n_scale n < - g - 9 -> lexi e (VDouble u) = overrun) /\
  (forall N P, n_magnitude n = (IZR N * bpow radix10 P)%R -> N mod 10 <> 0 -> P < - g - 9 -> lexi e (VDouble u) = overrun).
Proof.
  intros S H F N L J DS. pose proof (proj1 (double_finite_iff u H) F) as EF.
  pose proof (proj2 (isFinite_iff u H) EF) as IF. pose proof (proj1 (nonzero_field u H F) N) as NZ.
  assert (FP : finite_pos (u mod 2 ^ 63)) by (apply abs_finite; assumption).
  destruct (format_bits_strict (e_float e) oracle u S H IF NZ)
    as (ds & K & F0 & E & k & kap & P & G & GC & X).
  destruct (finite_text _ u s H F N L) as (ds' & K' & F0' & E' & k' & kap' & P' & G' & Es).
  change (fe_tc (defined (e_float (with_policy e (Lenient oracle))))) with (set_policy (fe_tc (e_float e)) (Lenient oracle)) in P'.
  rewrite P in P'. apply Ok_inj in P'. injection P' as <- <-.
  pose proof (digits_good _ _ _ _ _ _ (go_digits _ _ _ _ _ _ _ G)) as GD.
  pose proof (grisu_exponent _ _ _ _ _ _ _ G) as GE.
  pose proof (layout_json (sign_field u) ds K GD GE) as J2.
  change ((if sign_field u then ["-"%char] else []) ++ layout ds K) with (sign_text u ++ layout ds K) in J2.
  rewrite <- Es in J2. rewrite (json_number_unique _ _ _ J J2).
  pose proof (layout_scale (sign_field u) ds K GD GE) as LS. pose proof (layout_magnitude (sign_field u) ds K GD GE) as LM.
  pose proof (cached_scale _ _ _ _ _ FP GC) as CS. rewrite <- abs_double in CS by assumption.
  pose proof (scale_unique _ _ _ DS CS) as Eg. pose proof (go_K _ _ _ _ _ _ _ G) as EK.
  assert (Q : lexi e (VDouble u) = if -9 <=? kap then Ok s else overrun).
  { rewrite lexi_double, double_finite_bits, X by assumption. destruct (-9 <=? kap); [|reflexivity].
    rewrite <- L, lexi_double, double_finite_bits by assumption. reflexivity. }
  rewrite Q, LS. split; [|split].
  - intros B. replace (-9 <=? kap) with true; [reflexivity|]. symmetry. apply Z.leb_le.
    destruct ((0 <=? K) && (Z.of_nat (length ds) + K <=? 21)) eqn:C; [apply andb_prop in C; lia|lia].
  - intros B1 B2. replace (-9 <=? kap) with false; [reflexivity|]. symmetry. apply Z.leb_gt.
    destruct ((0 <=? K) && (Z.of_nat (length ds) + K <=? 21)) eqn:C; [|lia]. lia.
  - intros N0 P0 EM HN B. replace (-9 <=? kap) with false; [reflexivity|]. symmetry. apply Z.leb_gt.
    rewrite LM in EM. unfold digits_R in EM. symmetry in EM. pose proof (position_below _ _ _ _ HN EM). lia.
Qed.

(** Numbers of everyday size. *)
Lemma everyday_scale x : (bpow radix2 (-11) <= x < bpow radix2 16)%R -> decimal_scale x 4.
Proof.
  intros [L U]. split; [reflexivity|]. assert (X : (0 < x)%R) by (pose proof (bpow_gt_0 radix2 (-11)); lra).
  destruct (mag radix2 x) as [b B]. specialize (B ltac:(lra)). rewrite Rabs_pos_eq in B by lra.
  exists (b - 1). replace (b - 1 + 1) with b by lia. split; [exact B|].
  assert (b - 1 < 16) by (apply (lt_bpow radix2); lra). assert (-11 < b) by (apply (lt_bpow radix2); lra).
  split.
  - apply Rle_lt_trans with (bpow radix10 (-4) * bpow radix2 15)%R.
    + apply Rmult_le_compat_l; [apply bpow_ge_0|]. apply bpow_le. lia.
    + cbn. lra.
  - apply Rle_trans with (bpow radix10 4 * bpow radix2 (-11))%R.
    + cbn. lra.
    + apply Rmult_le_compat_l; [apply bpow_ge_0|]. apply bpow_le. lia.
Qed.
Lemma everyday_overrun e oracle u s n : tc_policy (fe_tc (e_float e)) = Strict -> bits64 u -> double_finite u ->
  (bpow radix2 (-11) <= Rabs (double_value u) < bpow radix2 16)%R ->
  lexi (with_policy e (Lenient oracle)) (VDouble u) = Ok s -> json_number s n ->
  lexi e (VDouble u) = if n_scale n <? -13 then overrun else Ok s.
Proof.
  intros S H F B L J. assert (N : double_value u <> 0%R).
  { intros Z0. rewrite Z0, Rabs_R0 in B. pose proof (bpow_gt_0 radix2 (-11)). lra. }
  destruct (overrun_exact e oracle u s n 4 S H F N L J (everyday_scale _ B)) as (A1 & A2 & _).
  destruct (Z.ltb_spec (n_scale n) (-13)); [apply A2|apply A1]; lia.
Qed.

(** Closeness whenever the read stays inside. *)
Lemma policy_again e pol pol' : with_policy (with_policy e pol) pol' = with_policy e pol'.
Proof. reflexivity. Qed.
Lemma policy_same e pol : tc_policy (fe_tc (e_float e)) = pol -> with_policy e pol = e.
Proof. intros <-. destruct e as [p [ld nan [] lit]]. reflexivity. Qed.
Lemma closest_inside e u s n g N K D : bits64 u -> double_finite u -> double_value u <> 0%R ->
  lexi e (VDouble u) = Ok s -> json_number s n ->
  decimal_scale (Rabs (double_value u)) g -> - g - 9 <= n_scale n ->
  n_magnitude n = (IZR N * bpow radix10 K)%R -> N mod 10 <> 0 ->
  let x := Rabs (double_value u) in let margin := (ulp radix2 (binary_format 53 1024) x / 500)%R in
  (lower_end x + margin <= IZR D * bpow radix10 K <= upper_end x - margin)%R ->
  (Rabs (n_magnitude n - x) <= Rabs (IZR D * bpow radix10 K - x) + margin)%R.
Proof.
  intros H F Z0 L J G I. destruct (tc_policy (fe_tc (e_float e))) as [|oracle] eqn:P.
  - intros M N0. apply (closest e u s n N K D H F Z0 L J (or_introl P) M N0).
  - set (e0 := with_policy e Strict).
    assert (L' : lexi (with_policy e0 (Lenient oracle)) (VDouble u) = Ok s).
    { unfold e0. rewrite policy_again, (policy_same e _ P). exact L. }
    destruct (overrun_exact e0 oracle u s n g eq_refl H F Z0 L' J G) as (A & _).
    intros M N0. apply (closest e0 u s n N K D H F Z0 (A I) J (or_introl eq_refl) M N0).
Qed.
