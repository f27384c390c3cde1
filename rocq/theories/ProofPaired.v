(** Proofs about long doubles that are pairs of doubles. *)
From Coq Require Import Reals Lra Psatz Floats.SpecFloat.
From Flocq Require Import Core Relative.
From Flocq Require IEEE754.Binary IEEE754.Bits.
From Flocq Require Import IEEE754.BinarySingleNaN.
From Verif Require Import Machine LibMachine SpecApi SpecDecimal SpecInt SpecNumber SpecIeee SpecRead SpecPaired
  ModelItoa ModelInt ModelText ModelIeee ModelDiyfp ModelDtoa
  ModelFloat ModelLexi ModelPlatforms ModelPaired ProofDiyfp ProofCached ProofDigits ProofGrisu ProofLayout ProofIeee ProofDtoa
  ProofRound ProofShort ProofFloat ProofFloat2 ProofFloat4 ProofRead ProofRead2 ProofRead3 ProofWide ProofFlush.
Open Scope Z_scope.

(** ** Formatting *)

Lemma d_double e u : nan_ok (e_float e) -> bits64 u -> d_lexi e (PDouble u) = lexi e (VDouble u).
Proof.
  intros NO H. rewrite lexi_double. unfold d_lexi, d_FormatFloat, d_format, double_of_pair, pair_of_double. cbn [dp_hi].
  rewrite double_bits by exact H. f_equal. f_equal.
  pose proof (double_nan_iff u H) as N.
  destruct (Z.eqb_spec (exp_field u) 2047) as [E|E], (Z.eqb_spec (frac_field u) 0) as [F|F]; cbn [andb negb].
  2:{ assert (X : double_nan u) by tauto. apply double_of_bits_nan in X. rewrite X. reflexivity. }
  all: rewrite bits_of_double_of_bits; [reflexivity|exact H|]; rewrite N; tauto.
Qed.

Lemma d_float e u : d_lexi e (PFloat u) = lexi e (VFloat u).
Proof. rewrite lexi_float. unfold d_lexi, d_FormatFloat, d_format, double_of_pair, pair_of_float. cbn [dp_hi]. rewrite float_bits. reflexivity. Qed.

(** A pair whose high part is its number rounded to double is printed as that double. *)
Lemma d_long_double e p : nan_ok (e_float e) -> SpecFloat.valid_binary 53 1024 (dp_hi p) = true -> is_finite_SF (dp_hi p) = true ->
  SF2R radix2 (dp_hi p) = nearest 53 1024 (SF2R radix2 (dp_hi p) + SF2R radix2 (dp_lo p)) ->
  exists u, bits64 u /\ double_finite u /\ double_value u = nearest 53 1024 (SF2R radix2 (dp_hi p) + SF2R radix2 (dp_lo p)) /\
    double_sign u = sign_SF (dp_hi p) /\ d_lexi e (PLongDouble p) = lexi e (VDouble u).
Proof.
  intros NO V F C. assert (NN : dp_hi p <> S754_nan) by (intros X; rewrite X in F; discriminate F).
  destruct (double_of_bits_of_double (fe_nan (e_float e)) _ V NN) as [B E].
  exists (bits_of_double (fe_nan (e_float e)) (dp_hi p)). split; [exact B|].
  assert (Fu : double_finite (bits_of_double (fe_nan (e_float e)) (dp_hi p))) by (apply double_of_bits_finite; rewrite E; exact F).
  split; [exact Fu|]. split; [rewrite <- double_of_bits_value, E; exact C|]. split.
  - rewrite <- double_of_bits_sign, E; [reflexivity|]. intros X. apply double_of_bits_nan in X. rewrite E in X. contradiction.
  - rewrite <- (d_double e _ NO B). unfold d_lexi, d_FormatFloat, d_format, double_of_pair, pair_of_double. cbn [dp_hi]. rewrite E. reflexivity.
Qed.

Lemma d_special e p s : e_lit e = default_literals -> nan_ok (e_float e) ->
  (dp_hi p = S754_infinity s -> d_lexi e (PLongDouble p) = Ok (str (if s then "-Infinity" else "Infinity"))) /\
  (dp_hi p = S754_nan -> d_lexi e (PLongDouble p) = Ok (str "NaN")).
Proof.
  intros L [B N]. unfold d_lexi, d_FormatFloat, d_format, double_of_pair. change (fe_lit (e_float e)) with (e_lit e).
  assert (E : forall u, isFinite u = false -> isNan u = true -> (let* o := format_bits (e_float e) u in FormatFloat_string o) = Ok (str "NaN")).
  { intros u A C. unfold format_bits. rewrite A, C. cbn [negb]. change (fe_lit (e_float e)) with (e_lit e). rewrite L. reflexivity. }
  split; intros ->.
  - unfold format_bits. change (fe_lit (e_float e)) with (e_lit e). rewrite L. destruct s; reflexivity.
  - cbn [bits_of_double]. apply E.
    + apply not_true_iff_false. rewrite isFinite_iff by exact B. apply double_nan_iff in N; [|exact B]. tauto.
    + apply isNan_iff; [exact B|]. apply double_nan_iff in N; [|exact B]. exact N.
Qed.

(** ** The number of 106 bits *)

Notation fexp106 := (FLT_exp (-1074) 106).
Global Instance fexp106_valid : Valid_exp fexp106.
Proof. apply FLT_exp_valid. unfold Prec_gt_0. lia. Qed.

Lemma pair_nearest_eq x : nearest 106 971 x = pair_nearest x.
Proof. reflexivity. Qed.

Lemma wide_same x : (bpow radix2 970 <= Rabs x)%R -> nearest 106 2048 x = pair_nearest x.
Proof.
  intros H. unfold nearest, pair_nearest, round, scaled_mantissa, cexp, binary_format, FLT_exp.
  assert (M : 970 < mag radix2 x) by (apply mag_gt_bpow; exact H).
  replace (Z.max (mag radix2 x - 106) (3 - 2048 - 106)) with (Z.max (mag radix2 x - 106) (-1074)) by lia. reflexivity.
Qed.

Lemma far_number x : (bpow radix2 971 <= Rabs (pair_nearest x))%R -> (bpow radix2 970 <= Rabs x)%R.
Proof.
  intros H. apply Rnot_lt_le. intros L. revert H. apply Rlt_not_le.
  apply Rle_lt_trans with (bpow radix2 970); [|apply bpow_lt; lia].
  apply (abs_round_le_generic radix2 fexp106); [apply valid_rnd_N| |lra].
  apply generic_format_bpow. unfold FLT_exp. lia.
Qed.

Definition number_ok (y : spec_float) (neg : bool) (x : R) : Prop :=
  (is_finite_SF y = true /\ SF2R radix2 y = pair_nearest x /\ sign_SF y = neg) \/
  (y = S754_infinity neg /\ (bpow radix2 1024 <= Rabs (pair_nearest x))%R).

Lemma number_joined y1 y2 neg x : rounded 106 971 y1 neg x -> rounded 106 2048 y2 neg x ->
  number_ok (match y1 with S754_infinity _ => y2 | y => y end) neg x.
Proof.
  intros [_ R1] [_ R2]. rewrite pair_nearest_eq in R1. destruct (Rlt_bool_spec (Rabs (pair_nearest x)) (bpow radix2 971)) as [L|L].
  - left. destruct R1 as (A & B & C). destruct y1; try discriminate B; auto.
  - rewrite R1. apply far_number in L as X. rewrite (wide_same x X) in R2.
    destruct (Rlt_bool_spec (Rabs (pair_nearest x)) (bpow radix2 2048)) as [L2|L2].
    + left. destruct R2 as (A & B & C). auto.
    + right. split; [exact R2|]. eapply Rle_trans; [|exact L2]. apply bpow_le. lia.
Qed.

(** ** Splitting it *)

Lemma hi_rounded y neg x : number_ok y neg x -> rounded 53 1024 (convert 53 1024 y) neg (pair_nearest x).
Proof.
  intros [(F & R & S)|(-> & L)].
  - destruct y as [s|s| |s m e]; try discriminate F.
    + cbn [SF2R] in R. cbn [sign_SF] in S. rewrite <- R, <- S. cbn [convert]. apply zero_rounded. exact double_good.
    + cbn [sign_SF] in S. rewrite <- R, <- S. apply (convert_rounded 53 1024 s m e double_good).
  - split; [reflexivity|]. rewrite Rlt_bool_false; [reflexivity|].
    apply (abs_round_ge_generic radix2 fexp64); [apply valid_rnd_N| |exact L]. apply generic_format_bpow. unfold binary_format, FLT_exp. lia.
Qed.

Lemma normalize_value M e : generic_format radix2 fexp64 (F2R (Float radix2 M e)) -> (Rabs (F2R (Float radix2 M e)) < bpow radix2 1024)%R ->
  let z := SpecFloat.binary_normalize 53 1024 M e false in
  SpecFloat.valid_binary 53 1024 z = true /\ is_finite_SF z = true /\ SF2R radix2 z = F2R (Float radix2 M e).
Proof.
  intros G B. cbv zeta. destruct M as [|p|p].
  - cbn. rewrite F2R_0. auto.
  - destruct (binary_normalize_rounded 53 1024 false p e double_good) as [V R].
    change (cond_Zopp false (Z.pos p)) with (Z.pos p) in *. rewrite (nearest_exact 53 1024 _ ltac:(lia) G) in R.
    rewrite Rlt_bool_true in R by exact B. destruct R as (R & F & _). auto.
  - destruct (binary_normalize_rounded 53 1024 true p e double_good) as [V R].
    change (cond_Zopp true (Z.pos p)) with (Z.neg p) in *. rewrite (nearest_exact 53 1024 _ ltac:(lia) G) in R.
    rewrite Rlt_bool_true in R by exact B. destruct R as (R & F & _). auto.
Qed.

Lemma parts_value x : is_finite_SF x = true -> SF2R radix2 x = F2R (Float radix2 (fst (sf_parts x)) (snd (sf_parts x))).
Proof. destruct x; try discriminate; intros _; cbn; [rewrite F2R_0; reflexivity|reflexivity]. Qed.

Lemma aligned m e c : c <= e -> F2R (Float radix2 m e) = F2R (Float radix2 (m * 2 ^ (e - c)) c).
Proof. intros H. apply (F2R_change_exp radix2 c m e H). Qed.

(** The rest after rounding a number of 106 bits to 53 has 53 bits. *)
Lemma rest_format y : generic_format radix2 fexp106 y -> (Rabs (nearest 53 1024 y) < bpow radix2 1024)%R ->
  generic_format radix2 fexp64 (y - nearest 53 1024 y) /\ (Rabs (y - nearest 53 1024 y) < bpow radix2 1024)%R.
Proof.
  intros G L. destruct (Req_dec y 0) as [->|N].
  { assert (E : nearest 53 1024 0 = 0%R) by apply round_0, valid_rnd_N. rewrite E, Rminus_0_r, Rabs_R0.
    split; [apply generic_format_0|apply bpow_gt_0]. }
  assert (Ly : (Rabs y < bpow radix2 1024)%R).
  { apply Rnot_le_lt. intros X. revert L. apply Rle_not_lt. apply (abs_round_ge_generic radix2 fexp64); [apply valid_rnd_N| |exact X].
    apply generic_format_bpow. unfold binary_format, FLT_exp. lia. }
  assert (M : mag radix2 y <= 1024) by (apply mag_le_bpow; assumption).
  set (c := cexp radix2 fexp106 y). set (d := cexp radix2 fexp64 y).
  assert (Cd : c <= d <= c + 53 /\ -1074 <= c /\ d <= 971).
  { unfold c, d, cexp, binary_format, FLT_exp. lia. }
  destruct Cd as ([C1 C2] & C3 & C4).
  pose proof (error_le_half_ulp radix2 fexp64 (fun x => negb (Z.even x)) y) as Er.
  rewrite ulp_neq_0 in Er by exact N. fold d in Er. rewrite Rabs_minus_sym in Er. fold (nearest 53 1024 y) in Er.
  assert (P : exists k, (y - nearest 53 1024 y)%R = F2R (Float radix2 k c)).
  { exists (Ztrunc (scaled_mantissa radix2 fexp106 y) - ZnearestE (scaled_mantissa radix2 fexp64 y) * 2 ^ (d - c)).
    unfold F2R at 1. cbn [Fnum Fexp]. rewrite minus_IZR, Rmult_minus_distr_r. f_equal; [exact G|].
    unfold nearest, round. fold d. rewrite (aligned _ _ _ C1). reflexivity. }
  destruct P as (k & E). rewrite E in *. clear E.
  assert (K : Z.abs k <= 2 ^ 52).
  { apply le_IZR. apply Rmult_le_reg_r with (bpow radix2 c); [apply bpow_gt_0|].
    change (IZR (2 ^ 52)) with (bpow radix2 52). rewrite <- bpow_plus.
    rewrite <- F2R_Zabs in Er. unfold F2R in Er. cbn [Fnum Fexp] in Er.
    eapply Rle_trans; [exact Er|]. replace (/ 2 * bpow radix2 d)%R with (bpow radix2 (-1 + d)) by (rewrite bpow_plus; reflexivity).
    apply bpow_le. lia. }
  split.
  - apply generic_format_FLT. exists (Float radix2 k c); [reflexivity|cbn [Fnum]|cbn [Fexp]; lia].
    eapply Z.le_lt_trans; [exact K|reflexivity].
  - eapply Rle_lt_trans; [exact Er|]. replace (/ 2 * bpow radix2 d)%R with (bpow radix2 (-1 + d)) by (rewrite bpow_plus; reflexivity).
    apply bpow_lt. lia.
Qed.

Lemma split_paired y neg x : number_ok y neg x -> paired (dp_hi (pair_split y)) (dp_lo (pair_split y)) neg x.
Proof.
  intros H. pose proof (hi_rounded y neg x H) as R. unfold paired, pair_split. cbn [dp_hi dp_lo]. set (hi := convert 53 1024 y) in *.
  split; [exact R|].
  assert (X : is_finite_SF hi = true -> let lo := pair_rest y hi in
    SpecFloat.valid_binary 53 1024 lo = true /\ is_finite_SF lo = true /\ (SF2R radix2 hi + SF2R radix2 lo)%R = pair_nearest x).
  { intros F. destruct R as [V R]. destruct (Rlt_bool_spec (Rabs (nearest 53 1024 (pair_nearest x))) (bpow radix2 1024)) as [L|L].
    2:{ rewrite R in F. discriminate F. }
    destruct R as (R & _ & _).
    assert (Y : is_finite_SF y = true /\ SF2R radix2 y = pair_nearest x).
    { destruct H as [(A & B & _)|(_ & B)]; [auto|]. exfalso. revert L. apply Rle_not_lt.
      apply (abs_round_ge_generic radix2 fexp64); [apply valid_rnd_N| |exact B]. apply generic_format_bpow. unfold binary_format, FLT_exp. lia. }
    destruct Y as [Fy Ry].
    assert (G : generic_format radix2 fexp106 (pair_nearest x)) by (apply generic_format_round; [typeclasses eauto|apply valid_rnd_N]).
    destruct (rest_format _ G L) as [GR LR]. rewrite <- R, <- Ry in GR, LR.
    rewrite (parts_value y Fy), (parts_value hi F) in GR, LR.
    unfold pair_rest. cbv zeta.
    pose proof (parts_value y Fy) as Py. pose proof (parts_value hi F) as Ph.
    destruct (sf_parts y) as [m1 e1]. destruct (sf_parts hi) as [m2 e2]. cbn [fst snd] in *.
    set (c := Z.min e1 e2) in *.
    assert (Q : (F2R (Float radix2 m1 e1) - F2R (Float radix2 m2 e2))%R = F2R (Float radix2 (m1 * 2 ^ (e1 - c) - m2 * 2 ^ (e2 - c)) c)).
    { rewrite (aligned m1 e1 c), (aligned m2 e2 c) by (unfold c; lia). unfold F2R. cbn [Fnum Fexp]. rewrite minus_IZR. ring. }
    rewrite Q in GR, LR. destruct (normalize_value _ _ GR LR) as (A & B & C). split; [exact A|]. split; [exact B|].
    rewrite C, <- Q, <- Py, <- Ph. rewrite Ry. ring. }
  destruct hi; try (split; [reflexivity|]; split; [reflexivity|]; intros F; discriminate F).
  - destruct (X eq_refl) as (A & B & C). auto.
  - destruct (X eq_refl) as (A & B & C). auto.
Qed.

Theorem pair_reads point s v : point_ok point -> reads point s v ->
  exists hi lo, pair_read_as v hi lo /\ d_extract_long_double point s = Ok (Pair hi lo) /\
    d_extract_double point s = Ok hi /\ exists z, d_extract_float point s = Ok z /\ narrowed 24 128 hi z.
Proof.
  intros P R. set (p := d_strtold point s). exists (dp_hi p), (dp_lo p).
  pose proof (strtold_reads 106 971 point s v ltac:(split; lia) P R) as R1.
  pose proof (strtold_reads 106 2048 point s v ltac:(split; lia) P R) as R2.
  assert (Z : d_extract_long_double point s = Ok (Pair (dp_hi p) (dp_lo p)) /\ d_extract_double point s = Ok (dp_hi p) /\
    exists z, d_extract_float point s = Ok z /\ narrowed 24 128 (dp_hi p) z).
  { split; [reflexivity|]. split; [reflexivity|]. exists (convert 24 128 (dp_hi p)). split; [reflexivity|]. apply convert_narrowed. exact float_good. }
  split; [|exact Z]. clear Z. unfold p, d_strtold, pair_number. clear p.
  destruct v as [neg D K|neg M E|neg| |]; cbn [pair_read_as read_as] in *.
  - apply split_paired. pose proof (number_joined _ _ _ _ R1 R2) as N. destruct (strtold 106 971 point s); exact N.
  - apply split_paired. pose proof (number_joined _ _ _ _ R1 R2) as N. destruct (strtold 106 971 point s); exact N.
  - rewrite R1, R2. reflexivity.
  - rewrite R1. reflexivity.
  - rewrite R1. split; reflexivity.
Qed.

(** ** Round trips *)

Open Scope R_scope.

(** Below 2^-1021 the pairs are no finer than the doubles. *)
Lemma pair_small v : 0 < v < bpow radix2 (-1021) -> pair_nearest v = nearest 53 1024 v.
Proof.
  intros [P L]. unfold nearest, pair_nearest, round, scaled_mantissa, cexp, binary_format, FLT_exp.
  assert (M : (mag radix2 v <= -1021)%Z) by (apply mag_le_bpow; [lra|rewrite Rabs_pos_eq by lra; exact L]).
  replace (Z.max (mag radix2 v - 106) (-1074)) with (Z.max (mag radix2 v - 53) (3 - 1024 - 53)) by lia. reflexivity.
Qed.

Lemma odd_format_pair m x : (-1074 <= x)%Z -> (Z.abs m < 2 ^ 106)%Z -> generic_format radix2 fexp106 (IZR m * bpow radix2 x).
Proof. intros Hx Hm. apply generic_format_FLT. exists (Float radix2 m x); [reflexivity|exact Hm|exact Hx]. Qed.

Lemma pair_between u v : finite_pos u -> lower_R u < v < upper_R u -> lower_R u <= pair_nearest v <= upper_R u.
Proof.
  intros H B. pose proof (lower_positive u H) as LP. pose proof (bpow_gt_0 radix2 (-1076)) as P0.
  destruct (finite_pos_f u H) as [Hf He]. destruct (Rlt_le_dec v (bpow radix2 (-1021))) as [L|L].
  - rewrite pair_small by lra. rewrite (between_round u v _ H B : nearest 53 1024 v = _).
    destruct (gap_R u) as [-> ->]. pose proof (bpow_gt_0 radix2 (dbl_e u)). destruct (_ =? _)%Z; lra.
  - assert (E : (-1073 <= dbl_e u)%Z).
    { apply Z.nlt_ge. intros X. assert (X' : dbl_e u = (-1074)%Z) by lia. revert L. apply Rlt_not_le. eapply Rlt_le_trans; [apply B|].
      unfold upper_R. rewrite X'. change (-1021)%Z with (54 + -1075)%Z. rewrite bpow_plus. apply Rmult_le_compat_r; [apply bpow_ge_0|].
      change (bpow radix2 54) with (IZR (2 ^ 54)). apply IZR_le. lia. }
    split.
    + unfold lower_R. destruct (Z.eqb_spec (dbl_f u) (2 ^ 52)) as [X|X].
      * destruct (Z.eq_dec (dbl_e u) (-1073)) as [Y|Y].
        -- apply Rle_trans with (bpow radix2 (-1021)).
           ++ rewrite X, Y. change (-1021)%Z with (54 + -1075)%Z. rewrite bpow_plus. apply Rmult_le_compat_r; [apply bpow_ge_0|].
              change (bpow radix2 54) with (IZR (2 ^ 54)). apply IZR_le. lia.
           ++ apply round_ge_generic; [typeclasses eauto|apply valid_rnd_N| |exact L]. apply generic_format_bpow. unfold FLT_exp. lia.
        -- apply round_ge_generic; [typeclasses eauto|apply valid_rnd_N|apply odd_format_pair; lia|].
           destruct B as [B _]. unfold lower_R in B. rewrite (proj2 (Z.eqb_eq _ _) X) in B. lra.
      * apply round_ge_generic; [typeclasses eauto|apply valid_rnd_N|apply odd_format_pair; lia|].
        destruct B as [B _]. unfold lower_R in B. rewrite (proj2 (Z.eqb_neq _ _) X) in B. lra.
    + apply round_le_generic; [typeclasses eauto|apply valid_rnd_N|apply odd_format_pair; lia|]. apply Rlt_le, B.
Qed.

Lemma pair_error v : 0 < v -> Rabs (pair_nearest v - v) <= bpow radix2 (-1075) + bpow radix2 (-106) * v.
Proof.
  intros P. pose proof (error_le_half_ulp radix2 fexp106 (fun x => negb (Z.even x)) v) as E.
  rewrite ulp_neq_0 in E by lra. fold (pair_nearest v) in E. eapply Rle_trans; [exact E|].
  replace (/ 2 * bpow radix2 (cexp radix2 fexp106 v)) with (bpow radix2 (-1 + cexp radix2 fexp106 v)) by (rewrite bpow_plus; reflexivity).
  unfold cexp, FLT_exp. pose proof (bpow_gt_0 radix2 (-1075)). pose proof (bpow_gt_0 radix2 (-106)).
  destruct (Z.max_spec (mag radix2 v - 106) (-1074)) as [[_ ->]|[_ ->]].
  - change (-1 + -1074)%Z with (-1075)%Z. nra.
  - assert (M : bpow radix2 (mag radix2 v - 1) <= v) by (apply Rle_trans with (Rabs v); [apply bpow_mag_le; lra|rewrite Rabs_pos_eq; lra]).
    replace (-1 + (mag radix2 v - 106))%Z with (-106 + (mag radix2 v - 1))%Z by lia. rewrite bpow_plus. nra.
Qed.

(** From 2^-1001 on the number read stays strictly inside. *)
Lemma pair_inside u ds K F E k kap : finite_pos u -> grisu_ok u ds K F E k kap -> bpow radix2 (-1001) <= dbl_R u ->
  lower_R u < pair_nearest (digits_R ds K) < upper_R u.
Proof.
  intros H G L. pose proof (go_value _ _ _ _ _ _ _ G) as V. pose proof (go_cached _ _ _ _ _ _ _ G) as CK.
  pose proof (unit_large u F E k H CK) as UL. pose proof (unit_pos u E k) as UP.
  pose proof (lower_positive u H) as LP. pose proof (bpow_gt_0 radix2 (-1076)) as P0.
  destruct (gap_R u) as [GU _]. pose proof (bpow_gt_0 radix2 (dbl_e u)) as PE.
  set (v := digits_R ds K) in *. pose proof (pair_error v ltac:(lra)) as R. apply Rabs_le_inv in R.
  assert (X1 : bpow radix2 (-106) * v <= 1 / 10000 * unit_R u E k).
  { apply Rle_trans with (bpow radix2 (-106) * (bpow radix2 65 * unit_R u E k)).
    - apply Rmult_le_compat_l; [apply bpow_ge_0|]. lra.
    - rewrite <- Rmult_assoc, <- bpow_plus. apply Rmult_le_compat_r; [lra|].
      apply Rle_trans with (bpow radix2 (-14)); [apply bpow_le; lia|]. change (bpow radix2 (-14)) with (/ 16384). lra. }
  assert (X2 : bpow radix2 (-1075) < 34 / 10000 * unit_R u E k); [|lra].
  assert (Y : bpow radix2 (-1066) <= unit_R u E k).
  { apply Rmult_le_reg_l with (bpow radix2 65); [apply bpow_gt_0|]. rewrite <- bpow_plus. change (65 + -1066)%Z with (-1001)%Z. lra. }
  eapply Rlt_le_trans; [|apply Rmult_le_compat_l; [lra|exact Y]].
  change (-1075)%Z with (-9 + -1066)%Z. rewrite bpow_plus. apply Rmult_lt_compat_r; [apply bpow_gt_0|]. change (bpow radix2 (-9)) with (/ 512). lra.
Qed.

(** What is known of the pair read. *)
Lemma pair_read_between e u s : nan_ok (e_float e) -> bits64 u -> double_finite u -> double_value u <> 0 -> d_lexi e (PDouble u) = Ok s ->
  exists hi lo ds K F E k kap, let v := (u mod 2 ^ 63)%Z in
    finite_pos v /\ grisu_ok v ds K F E k kap /\ double_value u = neg_if (sign_field u) (dbl_R v) /\
    lower_R v < digits_R ds K < upper_R v /\
    d_extract_long_double "."%char s = Ok (Pair hi lo) /\ d_extract_double "."%char s = Ok hi /\
    paired hi lo (sign_field u) (neg_if (sign_field u) (digits_R ds K)).
Proof.
  intros NO H Fi N L. rewrite d_double in L by assumption.
  destruct (finite_number e u s H Fi N L) as (ds & K & F & E & k & kap & FP & G & GD & GE & Es & J & M & V & Bn & DV).
  destruct (pair_reads "."%char s _ dot_ok (json_reads s _ J)) as (hi & lo & Pr & E1 & E2 & _).
  exists hi, lo, ds, K, F, E, k, kap. cbn zeta.
  split; [exact FP|]. split; [exact G|]. split; [exact DV|]. split; [exact Bn|]. split; [exact E1|]. split; [exact E2|].
  unfold pair_read_as, whole_number in Pr. rewrite signed_value in Pr. rewrite V, layout_negative in Pr. exact Pr.
Qed.

Lemma pair_nearest_neg b x : pair_nearest (neg_if b x) = neg_if b (pair_nearest x).
Proof. destruct b; [|reflexivity]. apply round_NE_opp. Qed.

Theorem pair_round_trip e u s : nan_ok (e_float e) -> bits64 u -> double_finite u -> double_value u <> 0 -> d_lexi e (PDouble u) = Ok s ->
  Rabs (double_value u) < bpow radix2 (-1021) \/ bpow radix2 (-1001) <= Rabs (double_value u) \/ Z.even u = true ->
  exists z, d_extract_double "."%char s = Ok z /\ same_double z u.
Proof.
  intros NO H Fi N L C.
  destruct (pair_read_between e u s NO H Fi N L) as (hi & lo & ds & K & F & E & k & kap & FP & G & DV & Bn & E1 & E2 & (R & _)).
  exists hi. split; [exact E2|]. rewrite pair_nearest_neg in R. apply (rounded_same u hi _ H FP DV R).
  pose proof (dbl_R_pos _ FP) as P. rewrite DV, Rabs_neg_if in C by lra.
  pose proof (lower_positive _ FP) as LP. pose proof (bpow_gt_0 radix2 (-1076)) as P0.
  destruct C as [C|[C|C]].
  - assert (X : upper_R (u mod 2 ^ 63) <= bpow radix2 (-1021)).
    { destruct (finite_pos_f _ FP) as [Hf He]. assert (Ee : dbl_e (u mod 2 ^ 63) = (-1074)%Z).
      { apply Z.le_antisymm; [|lia]. apply Z.nlt_ge. intros X. revert C. apply Rle_not_lt. unfold dbl_R.
        assert (Hn : (2 ^ 52 <= dbl_f (u mod 2 ^ 63))%Z).
        { revert X. unfold dbl_e, dbl_f, finite_pos in *. pose proof (Z.mod_pos_bound (u mod 2 ^ 63) (2 ^ 52) ltac:(lia)).
          unfold frac_field. destruct (_ =? 0)%Z; [lia|]. lia. }
        apply Rle_trans with (IZR (2 ^ 52) * bpow radix2 (-1073)).
        - change (IZR (2 ^ 52)) with (bpow radix2 52). rewrite <- bpow_plus. apply bpow_le. lia.
        - apply Rmult_le_compat; [apply IZR_le; lia|apply bpow_ge_0|apply IZR_le; exact Hn|apply bpow_le; lia]. }
      unfold upper_R. rewrite Ee. change (-1021)%Z with (54 + -1075)%Z. rewrite bpow_plus. apply Rmult_le_compat_r; [apply bpow_ge_0|].
      change (bpow radix2 54) with (IZR (2 ^ 54)). apply IZR_le. lia. }
    rewrite pair_small by lra. rewrite (between_round _ _ _ FP Bn : nearest 53 1024 _ = _).
    apply nearest_exact; [lia|apply dbl_format; exact FP].
  - exact (between_round _ _ _ FP (pair_inside _ _ _ _ _ _ _ FP G C)).
  - apply closed_even; [exact FP|apply even_significand; assumption|]. apply pair_between; assumption.
Qed.

(** The others are read as themselves or as a neighbour, the latter exactly when the number of 106 bits
    is in the middle of the two. *)
Theorem pair_or_tie e u s : nan_ok (e_float e) -> bits64 u -> double_finite u -> double_value u <> 0 -> d_lexi e (PDouble u) = Ok s ->
  exists hi lo, d_extract_long_double "."%char s = Ok (Pair hi lo) /\ d_extract_double "."%char s = Ok hi /\
    SpecFloat.valid_binary 53 1024 hi = true /\ is_finite_SF hi = true /\ sign_SF hi = double_sign u /\
    let x := Rabs (double_value u) in let y := Rabs (SF2R radix2 hi + SF2R radix2 lo) in
    pred radix2 fexp64 x <= Rabs (SF2R radix2 hi) <= succ radix2 fexp64 x /\
    (~ same_double hi u <-> Z.even u = false /\ (y = (x + pred radix2 fexp64 x) / 2 \/ y = (x + succ radix2 fexp64 x) / 2)).
Proof.
  intros NO H Fi N L.
  destruct (pair_read_between e u s NO H Fi N L) as (hi & lo & ds & K & F & E & k & kap & FP & G & DV & Bn & E1 & E2 & (R & Vl & Fl & Sm)).
  exists hi, lo. split; [exact E1|]. split; [exact E2|]. rewrite pair_nearest_neg in *. cbn zeta.
  pose proof (dbl_R_pos _ FP) as P. pose proof (lower_positive _ FP) as LP. pose proof (bpow_gt_0 radix2 (-1076)) as P0.
  pose proof (pair_between _ _ FP Bn) as B2. pose proof (closed_neighbours _ _ FP B2) as CN.
  pose proof (dbl_format _ FP) as FF.
  pose proof (rounded_same u hi _ H FP DV R) as RS.
  assert (AX : Rabs (double_value u) = dbl_R (u mod 2 ^ 63)) by (rewrite DV; apply Rabs_neg_if; lra). rewrite AX.
  assert (P1 : 0 <= pred radix2 fexp64 (dbl_R (u mod 2 ^ 63))) by (apply pred_ge_0; [typeclasses eauto|exact P|exact FF]).
  set (r := pair_nearest (digits_R ds K)) in *.
  assert (T : nearest 53 1024 r < bpow radix2 1024).
  { destruct (Rle_lt_dec (bpow radix2 (-1001)) (dbl_R (u mod 2 ^ 63))) as [C|C].
    - rewrite (between_round _ _ _ FP (pair_inside _ _ _ _ _ _ _ FP G C) : nearest 53 1024 r = _).
      pose proof (dbl_R_max _ FP). pose proof (bpow_gt_0 radix2 971). lra.
    - apply Rle_lt_trans with (bpow radix2 (-1000)); [|apply bpow_lt; lia].
      apply round_le_generic; [apply FLT_exp_valid; reflexivity|apply valid_rnd_N| |].
      + apply generic_format_bpow. unfold binary_format, FLT_exp. lia.
      + eapply Rle_trans; [apply B2|]. destruct (gap_R (u mod 2 ^ 63)) as [-> _]. destruct (finite_pos_f _ FP) as [Hf He].
        assert (Q : 1 * bpow radix2 (dbl_e (u mod 2 ^ 63)) <= dbl_R (u mod 2 ^ 63)).
        { unfold dbl_R. apply Rmult_le_compat_r; [apply bpow_ge_0|]. apply IZR_le. lia. }
        change (-1000)%Z with (1 + -1001)%Z. rewrite bpow_plus. change (bpow radix2 1) with 2. lra. }
  destruct R as [Vh R]. rewrite nearest_neg, Rabs_neg_if, Rlt_bool_true in R by lra. destruct R as (R & Fh & Sh).
  split; [exact Vh|]. split; [exact Fh|]. split; [rewrite double_sign_field by exact H; exact Sh|].
  rewrite (Sm Fh), R, !Rabs_neg_if by lra. split; [exact CN|].
  assert (SI : same_double hi u -> nearest 53 1024 r = dbl_R (u mod 2 ^ 63)).
  { intros (_ & _ & X & _). rewrite R, DV in X. apply (f_equal Rabs) in X. rewrite !Rabs_neg_if in X by lra. exact X. }
  split.
  - intros NS. destruct (Z.even u) eqn:Ev.
    { contradiction NS. apply RS. apply closed_even; [exact FP|apply even_significand; assumption|exact B2]. }
    split; [reflexivity|].
    pose proof (lower_above_mid _ FP) as LM. pose proof (upper_is_mid _ FP) as UM.
    destruct (Req_dec r ((dbl_R (u mod 2 ^ 63) + pred radix2 fexp64 (dbl_R (u mod 2 ^ 63))) / 2)) as [|N1]; [tauto|].
    destruct (Req_dec r ((dbl_R (u mod 2 ^ 63) + succ radix2 fexp64 (dbl_R (u mod 2 ^ 63))) / 2)) as [|N2]; [tauto|].
    contradiction NS. apply RS. apply Rle_antisym.
    + apply round_N_le_midp; [typeclasses eauto|exact FF|lra].
    + apply round_N_ge_midp; [typeclasses eauto|exact FF|lra].
  - intros [Od TI] S. pose proof (odd_significand u H Od) as O. destruct (midpoints _ FP O) as [M1 M2]. rewrite M1, M2 in TI.
    pose proof (SI S) as NV. destruct TI as [TI|TI].
    + revert NV. apply (round_half _ _ false FP O). exact TI.
    + revert NV. apply (round_half _ _ true FP O). exact TI.
Qed.

Theorem pair_float_round_trip e u s : nan_ok (e_float e) -> bits32 u -> float_finite u -> float_value u <> 0 -> d_lexi e (PFloat u) = Ok s ->
  exists z, d_extract_float "."%char s = Ok z /\ same_float z u.
Proof.
  intros NO H Fi N L. rewrite d_float in L. destruct (float_printed e u NO H) as (w & Hw & _ & E & _ & _ & FW).
  destruct (FW Fi) as (Fw & Vw & Sw). rewrite E, <- (d_double e w NO Hw) in L. rewrite <- Vw in N.
  destruct (float_value_facts u) as [FF FM]. rewrite <- Vw in FF, FM.
  assert (B : bpow radix2 (-149) <= Rabs (double_value w)).
  { rewrite <- (Rabs_Rabsolu (double_value w)). apply generic_format_ge_bpow with (fexp := binary_format 24 128).
    - intros x. unfold binary_format, FLT_exp. lia.
    - rewrite Rabs_Rabsolu. apply Rabs_pos_lt. exact N.
    - rewrite Rabs_Rabsolu. apply generic_format_abs. exact FF. }
  destruct (pair_round_trip e w s NO Hw Fw N L) as (hi & Eh & Vh & Fh & Rh & Sh).
  { right. left. eapply Rle_trans; [|exact B]. apply bpow_le. lia. }
  unfold d_extract_double, d_ExtractFloat in Eh. cbn [bind] in Eh. unfold double_of_pair in Eh. apply (f_equal (fun o => match o with Ok x => x | _ => hi end)) in Eh. cbv beta iota in Eh.
  exists (convert 24 128 hi). unfold d_extract_float, d_ExtractFloat, float_of_pair. cbn [bind]. rewrite Eh. split; [reflexivity|].
  pose proof (convert_narrowed 24 128 hi float_good) as C.
  destruct hi as [b|b| |b m x]; try discriminate Fh.
  - exfalso. cbn [SF2R] in Rh. lra.
  - cbn [narrowed] in C. destruct C as [Vz R]. rewrite Rh, nearest_exact in R by (try lia; exact FF).
    rewrite Rlt_bool_true in R by exact FM. destruct R as (R & F & S). split; [exact Vz|]. split; [exact F|].
    rewrite <- Vw, <- Sw, <- Sh. auto.
Qed.

Theorem pair_refuted : exists u s z, let e := linux_aarch64 zero_memory in
  bits64 u /\ double_finite u /\ double_value u <> 0 /\
  d_lexi e (PDouble u) = Ok s /\ d_extract_double "."%char s = Ok z /\ ~ same_double z u.
Proof.
  exists 9327455228242893%Z, (str "4.76660266577987e-308"), (double_of_bits 9327455228242892). cbv zeta.
  split; [split; cbn; lia|]. split; [vm_compute; reflexivity|].
  split.
  { rewrite <- double_of_bits_value. replace (double_of_bits 9327455228242893) with (S754_finite false 4823855600872397 (-1073)) by (vm_compute; reflexivity).
    cbn [SF2R cond_Zopp]. apply Rgt_not_eq. apply F2R_gt_0. reflexivity. }
  split; [vm_compute; reflexivity|]. split; [vm_compute; reflexivity|].
  intros (_ & _ & X & _). revert X. rewrite <- double_of_bits_value.
  replace (double_of_bits 9327455228242893) with (S754_finite false 4823855600872397 (-1073)) by (vm_compute; reflexivity).
  replace (double_of_bits 9327455228242892) with (S754_finite false 4823855600872396 (-1073)) by (vm_compute; reflexivity).
  cbn [SF2R]. intros X. apply eq_F2R in X. discriminate X.
Qed.

(** The low part of a long double is not printed. *)
Theorem low_lost : exists p q s, let e := linux_aarch64 zero_memory in
  SF2R radix2 (dp_hi p) + SF2R radix2 (dp_lo p) <> SF2R radix2 (dp_hi q) + SF2R radix2 (dp_lo q) /\
  d_lexi e (PLongDouble p) = Ok s /\ d_lexi e (PLongDouble q) = Ok s /\ d_extract_long_double "."%char s = Ok p.
Proof.
  exists (Pair (S754_finite false 4503599627370496 (-52)) (S754_zero false)),
         (Pair (S754_finite false 4503599627370496 (-52)) (S754_finite false 4503599627370496 (-152))), (str "1.0"). cbv zeta.
  split; [|repeat (split; [vm_compute; reflexivity|]); vm_compute; reflexivity].
  cbn [dp_hi dp_lo SF2R cond_Zopp]. pose proof (F2R_gt_0 radix2 (Float radix2 4503599627370496 (-152)) eq_refl). lra.
Qed.
