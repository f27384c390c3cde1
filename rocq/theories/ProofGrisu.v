(** Grisu2 (dtoa.cpp:276-292): the generated digits denote a decimal strictly inside the
    rounding interval of the double. *)
From Coq Require Import Reals Lra Psatz.
From Flocq Require Import Core.
From Verif Require Import Machine LibMachine SpecApi SpecNumber ModelIeee ModelDiyfp ModelDtoa ProofDiyfp ProofCached ProofDigits.
Open Scope Z_scope.
Ltac Zify.zify_post_hook ::= idtac.

(** The bit pattern of a finite, positive, non-zero double. *)
Definition finite_pos (u : Z) : Prop := 0 < u < 2 ^ 63 /\ exp_field u <> 2047.

(** Ghost version of grisu2. *)
Definition pure_grisu (tc : toolchain) (value : Z) : outcome (list Z * Z) :=
  let v := DiyFp_of_double value in
  let* (w_m, w_p) := normalizedBoundaries (tc_norm_boundary tc) v in
  let* (c_mk, k) := getCachedPower (tc_eval tc) (de w_p) in
  let* vn := normalize (tc_norm tc) v in
  let W := mul (tc_mul tc) vn c_mk in
  let Wp := mul (tc_mul tc) w_p c_mk in
  let Wm := mul (tc_mul tc) w_m c_mk in
  let Wm := MkDiyFp (u64 (df Wm + 1)) (de Wm) in
  let Wp := MkDiyFp (u64 (df Wp - 1)) (de Wp) in
  pure_digits (tc_policy tc) (tc_char_signed tc) W Wp (u64 (df Wp - df Wm)) k.

(** The integers grisu2 works with, for the cached power [F * 2^E]. *)
Definition hi_of (f F : Z) : Z := mul_high (plus_f f) F - 1.
Definition lo_of (f F : Z) : Z := mul_high (minus_f f) F + 1.
Definition norm_e (u : Z) : Z := dbl_e u - lead_shift (dbl_f u).
Definition shift_of (u E : Z) : Z := - (norm_e u + E + 64).

Lemma finite_pos_f u : finite_pos u -> 0 < dbl_f u < 2 ^ 53 /\ -1074 <= dbl_e u <= 971.
Proof.
  intros [H1 H2]. pose proof (dbl_range u ltac:(lia) H2) as R.
  pose proof (dbl_f_nonzero u ltac:(lia)) as N.
  assert (dbl_f u <> 0).
  { intros X. apply N in X. rewrite Z.mod_small in X by lia. lia. }
  lia.
Qed.

Lemma norm_e_range u : finite_pos u -> -1137 <= norm_e u <= 960.
Proof.
  intros H. destruct (finite_pos_f u H) as [Hf He].
  destruct (boundary_gaps (dbl_f u) Hf) as (B & _). unfold norm_e. lia.
Qed.

(** Bounds on the scaled boundaries. *)
Lemma scaled_bounds f F : 0 < f < 2 ^ 53 -> 2 ^ 63 <= F < 2 ^ 64 ->
  0 < hi_of f F - lo_of f F < hi_of f F /\ 2 ^ 60 <= hi_of f F /\ hi_of f F + 1 < 2 ^ 64 /\
  0 < lo_of f F < 2 ^ 64 /\ hi_of f F <= 10 ^ 16 * (hi_of f F - lo_of f F) /\
  700 <= hi_of f F - lo_of f F.
Proof.
  intros Hf HF. destruct (boundary_gaps f Hf) as (B & P & M1 & M2 & Mr & V & PR).
  assert (Hls : 2 ^ 11 <= 2 ^ lead_shift f) by (apply Z.pow_le_mono_r; lia).
  assert (E2 : 2 ^ lead_shift f = 2 * 2 ^ (lead_shift f - 1))
    by (rewrite <- Z.pow_succ_r by lia; f_equal; lia).
  assert (HD : (plus_f f - minus_f f = 1536 /\ plus_f f = 2 ^ 63 + 1024) \/ 2048 <= plus_f f - minus_f f).
  { destruct (Z.eq_dec f (2 ^ 52)) as [X|X].
    - left. destruct (M2 X) as [X1 X2]. rewrite X1 in *. subst f.
      change (2 ^ (11 - 1)) with 1024 in *. change (2 ^ 52 * 2 ^ 11) with (2 ^ 63) in *. lia.
    - right. specialize (M1 X). lia. }
  set (p := plus_f f) in *. set (m := minus_f f) in *.
  assert (Hpm : 0 < m < p) by lia.
  set (PF := p * F). set (MF := m * F).
  assert (HP : 2 ^ 63 * F <= PF < 2 ^ 64 * F) by (unfold PF; nia).
  assert (HMF : 0 < MF) by (unfold MF; nia).
  assert (HD2 : (PF - MF = 1536 * F /\ PF = (2 ^ 63 + 1024) * F) \/ 2048 * F <= PF - MF).
  { unfold PF, MF. rewrite <- Z.mul_sub_distr_r. destruct HD as [[H1 H2]|H]; [left|right].
    - rewrite H1, H2. split; reflexivity.
    - apply Z.mul_le_mono_nonneg_r; lia. }
  assert (EP : hi_of f F = (PF + 2 ^ 63) / 2 ^ 64 - 1) by reflexivity.
  assert (EM : lo_of f F = (MF + 2 ^ 63) / 2 ^ 64 + 1) by reflexivity.
  rewrite EP, EM.
  pose proof (Z.div_mod (PF + 2 ^ 63) (2 ^ 64) ltac:(lia)) as DP.
  pose proof (Z.mod_pos_bound (PF + 2 ^ 63) (2 ^ 64) ltac:(lia)) as RP.
  pose proof (Z.div_mod (MF + 2 ^ 63) (2 ^ 64) ltac:(lia)) as DM.
  pose proof (Z.mod_pos_bound (MF + 2 ^ 63) (2 ^ 64) ltac:(lia)) as RM.
  set (a := (PF + 2 ^ 63) / 2 ^ 64) in *. set (ra := (PF + 2 ^ 63) mod 2 ^ 64) in *.
  set (b := (MF + 2 ^ 63) / 2 ^ 64) in *. set (rb := (MF + 2 ^ 63) mod 2 ^ 64) in *.
  clearbody a ra b rb PF MF.
  clear EP EM P M1 M2 Mr V PR HD Hpm p m E2 Hls B Hf.
  change (2 ^ 63) with 9223372036854775808 in *. change (2 ^ 64) with 18446744073709551616 in *.
  change (2 ^ 60) with 1152921504606846976 in *. change (10 ^ 16) with 10000000000000000 in *.
  lia.
Qed.

(** The value itself, scaled, is inside of the interval. *)
Definition mid_of (f F : Z) : Z := mul_high (f * 2 ^ lead_shift f) F.

Lemma mid_between f F : 0 < f < 2 ^ 53 -> 2 ^ 63 <= F < 2 ^ 64 -> lo_of f F <= mid_of f F <= hi_of f F.
Proof.
  intros Hf HF. destruct (boundary_gaps f Hf) as (B & P & M1 & M2 & Mr & V & PR). cbv zeta in *.
  assert (Hls : 2 ^ 10 <= 2 ^ (lead_shift f - 1)) by (apply Z.pow_le_mono_r; lia).
  assert (G1 : 512 <= f * 2 ^ lead_shift f - minus_f f).
  { destruct (Z.eq_dec f (2 ^ 52)) as [X|X]; [destruct (M2 X); lia|specialize (M1 X); lia]. }
  unfold lo_of, mid_of, hi_of, mul_high. set (v := f * 2 ^ lead_shift f) in *. set (p := plus_f f) in *. set (m := minus_f f) in *.
  assert (G2 : 1024 <= p - v) by lia. clearbody v p m. clear - G1 G2 HF.
  assert (A1 : m * F + 512 * F <= v * F) by (rewrite <- Z.mul_add_distr_r; apply Z.mul_le_mono_nonneg_r; lia).
  assert (A2 : v * F + 1024 * F <= p * F) by (rewrite <- Z.mul_add_distr_r; apply Z.mul_le_mono_nonneg_r; lia).
  split.
  - apply Z.le_trans with ((m * F + 2 ^ 63 + 1 * 2 ^ 64) / 2 ^ 64); [rewrite Z.div_add by lia; lia|]. apply Z.div_le_mono; lia.
  - apply Z.le_trans with ((p * F + 2 ^ 63 + (-1) * 2 ^ 64) / 2 ^ 64); [apply Z.div_le_mono; lia|]. rewrite Z.div_add by lia. lia.
Qed.

Lemma pow2_range s : 32 <= s <= 60 -> 2 ^ 32 <= 2 ^ s <= 2 ^ 60.
Proof. intros H. split; apply Z.pow_le_mono_r; lia. Qed.

(** grisu2 runs the digit generator on those integers. *)
Lemma grisu2_unfold tc u : finite_pos u ->
  exists F E k, cached_ok (norm_e u) F E k /\
    getCachedPower EvalDouble (norm_e u) = Ok (MkDiyFp F E, k) /\
    let Wp := MkDiyFp (hi_of (dbl_f u) F) (- shift_of u E) in
    let W := MkDiyFp (mul_high (dbl_f u * 2 ^ lead_shift (dbl_f u)) F) (- shift_of u E) in
    let delta := hi_of (dbl_f u) F - lo_of (dbl_f u) F in
    (forall b base, grisu2 tc u b base =
      generateDigits (tc_policy tc) (tc_char_signed tc) W Wp delta b base k) /\
    pure_grisu tc u = pure_digits (tc_policy tc) (tc_char_signed tc) W Wp delta k.
Proof.
  intros H. destruct (finite_pos_f u H) as [Hf He].
  pose proof (norm_e_range u H) as Hn.
  destruct (getCachedPower_ok (tc_eval tc) (norm_e u) Hn) as (F & E & k & G & CK & G2).
  exists F, E, k. split; [exact CK|]. split; [rewrite <- G2; exact G|]. cbn zeta.
  destruct CK as [CF Ce _ _].
  destruct (scaled_bounds (dbl_f u) F Hf CF) as (S1 & S2 & S3 & S4 & S5 & S6).
  destruct (boundary_gaps (dbl_f u) Hf) as (B & _ & _ & _ & Mr & V & PR).
  unfold grisu2, pure_grisu. rewrite DiyFp_of_double_eq.
  rewrite normalizedBoundaries_ok by exact Hf. cbn [bind de]. fold (norm_e u). rewrite G. cbn [bind].
  rewrite normalize_ok by (cbn [df]; lia). cbn [bind].
  rewrite !mul_ok by (unfold normalized; cbn [df]; lia). unfold normalized. cbn [df de].
  fold (norm_e u).
  unfold hi_of, lo_of, shift_of in *.
  rewrite (u64_small (mul_high (plus_f (dbl_f u)) F - 1)) by lia.
  rewrite (u64_small (mul_high (minus_f (dbl_f u)) F + 1)) by lia.
  rewrite u64_small by lia.
  rewrite !Z.opp_involutive.
  split; [intros; reflexivity|reflexivity].
Qed.

(** ** In the reals *)

Open Scope R_scope.

(** The value of a bit pattern's magnitude, and the neighbouring boundaries. *)
Definition dbl_R (u : Z) : R := IZR (dbl_f u) * bpow radix2 (dbl_e u).
Definition upper_R (u : Z) : R := IZR (2 * dbl_f u + 1) * bpow radix2 (dbl_e u - 1).
Definition lower_R (u : Z) : R :=
  if (dbl_f u =? 2 ^ 52)%Z then IZR (4 * dbl_f u - 1) * bpow radix2 (dbl_e u - 2)
  else IZR (2 * dbl_f u - 1) * bpow radix2 (dbl_e u - 1).

Lemma mul_high_R X F : (0 <= X)%Z -> (0 <= F)%Z ->
  Rabs (IZR (mul_high X F) - IZR X * IZR F * bpow radix2 (-64)) <= / 2.
Proof.
  intros HX HF. unfold mul_high.
  pose proof (Z.div_mod (X * F + 2 ^ 63) (2 ^ 64) ltac:(lia)) as D.
  pose proof (Z.mod_pos_bound (X * F + 2 ^ 63) (2 ^ 64) ltac:(lia)) as R.
  set (q := ((X * F + 2 ^ 63) / 2 ^ 64)%Z) in *. set (r := ((X * F + 2 ^ 63) mod 2 ^ 64)%Z) in *.
  assert (E : IZR X * IZR F = 18446744073709551616 * IZR q + IZR r - 9223372036854775808).
  { rewrite <- mult_IZR. replace (X * F)%Z with (2 ^ 64 * q + r - 2 ^ 63)%Z by lia.
    rewrite minus_IZR, plus_IZR, mult_IZR. reflexivity. }
  rewrite E. change (bpow radix2 (-64)) with (/ 18446744073709551616).
  destruct R as [R1 R2]. apply IZR_le in R1. apply IZR_lt in R2.
  change (IZR (2 ^ 64)) with 18446744073709551616 in R2.
  apply Rabs_le. lra.
Qed.

(** The error of a scaled boundary. *)
Lemma scaled_error u F E k X : cached_ok (norm_e u) F E k -> (0 <= X < 2 ^ 64)%Z ->
  Rabs (IZR (mul_high X F) - IZR X * bpow radix2 (norm_e u) * bpow radix10 (- k) * bpow radix2 (shift_of u E))
    <= 9965 / 10000.
Proof.
  intros [CF Ce Ck CC] HX.
  pose proof (mul_high_R X F ltac:(lia) ltac:(lia)) as H1.
  pose proof (close_check_R F E (- k) CC) as H2.
  assert (E1 : IZR X * bpow radix2 (norm_e u) * bpow radix10 (- k) * bpow radix2 (shift_of u E)
               = IZR X * (bpow radix10 (- k) * bpow radix2 (- E)) * bpow radix2 (-64)).
  { unfold shift_of. replace (- (norm_e u + E + 64))%Z with (- norm_e u + (- E + -64))%Z by ring.
    rewrite !bpow_plus. rewrite (bpow_opp radix2 (norm_e u)).
    pose proof (bpow_gt_0 radix2 (norm_e u)). field. lra. }
  rewrite E1. set (T := bpow radix10 (- k) * bpow radix2 (- E)) in *.
  assert (H3 : Rabs (IZR X * IZR F * bpow radix2 (-64) - IZR X * T * bpow radix2 (-64)) <= 4965 / 10000).
  { replace (IZR X * IZR F * bpow radix2 (-64) - IZR X * T * bpow radix2 (-64))
      with ((IZR X * bpow radix2 (-64)) * (IZR F - T)) by ring.
    rewrite Rabs_mult.
    assert (0 <= IZR X * bpow radix2 (-64) <= 1).
    { destruct HX as [X1 X2]. apply IZR_le in X1. apply IZR_lt in X2.
      change (IZR (2 ^ 64)) with 18446744073709551616 in X2.
      change (bpow radix2 (-64)) with (/ 18446744073709551616). lra. }
    rewrite Rabs_pos_eq by lra.
    pose proof (Rabs_pos (IZR F - T)). nra. }
  apply Rabs_le_inv in H1. apply Rabs_le_inv in H3. apply Rabs_le. lra.
Qed.

Lemma plus_f_R u : finite_pos u -> IZR (plus_f (dbl_f u)) * bpow radix2 (norm_e u) = upper_R u.
Proof.
  intros H. destruct (finite_pos_f u H) as [Hf He]. destruct (boundary_gaps (dbl_f u) Hf) as (B & _).
  unfold plus_f, upper_R, norm_e. rewrite mult_IZR, pow2_bpow by lia. rewrite Rmult_assoc, <- bpow_plus.
  do 2 f_equal. lia.
Qed.

Lemma minus_f_R u : finite_pos u -> IZR (minus_f (dbl_f u)) * bpow radix2 (norm_e u) = lower_R u.
Proof.
  intros H. destruct (finite_pos_f u H) as [Hf He]. destruct (boundary_gaps (dbl_f u) Hf) as (B & _).
  unfold minus_f, lower_R, norm_e. destruct (_ =? _)%Z;
  rewrite mult_IZR, pow2_bpow by lia; rewrite Rmult_assoc, <- bpow_plus; do 2 f_equal; lia.
Qed.

(** One unit of the scaled integers, as a real. *)
Definition unit_R (u E k : Z) : R := bpow radix10 k * bpow radix2 (- shift_of u E).

Lemma unit_pos u E k : 0 < unit_R u E k.
Proof. apply Rmult_lt_0_compat; apply bpow_gt_0. Qed.

Lemma unscale u E k x : x * bpow radix10 (- k) * bpow radix2 (shift_of u E) * unit_R u E k = x.
Proof.
  unfold unit_R. rewrite !bpow_opp.
  pose proof (bpow_gt_0 radix10 k). pose proof (bpow_gt_0 radix2 (shift_of u E)). field. lra.
Qed.

Lemma rescale u E k y : y * unit_R u E k * bpow radix10 (- k) * bpow radix2 (shift_of u E) = y.
Proof.
  unfold unit_R. rewrite !bpow_opp.
  pose proof (bpow_gt_0 radix10 k). pose proof (bpow_gt_0 radix2 (shift_of u E)). field. lra.
Qed.

(** The scaled integers are inside, by at least 35/10000 of a unit and at most 2 units. *)
Lemma hi_inside u F E k : finite_pos u -> cached_ok (norm_e u) F E k ->
  upper_R u - 2 * unit_R u E k <= IZR (hi_of (dbl_f u) F) * unit_R u E k <= upper_R u - 35 / 10000 * unit_R u E k.
Proof.
  intros H CK. destruct (finite_pos_f u H) as [Hf He].
  destruct (boundary_gaps (dbl_f u) Hf) as (_ & _ & _ & _ & _ & _ & PR).
  pose proof (scaled_error u F E k (plus_f (dbl_f u)) CK ltac:(lia)) as S.
  rewrite plus_f_R in S by exact H. apply Rabs_le_inv in S.
  pose proof (unit_pos u E k) as U.
  unfold hi_of. rewrite minus_IZR.
  assert (EQ := unscale u E k (upper_R u)).
  set (v := upper_R u * bpow radix10 (- k) * bpow radix2 (shift_of u E)) in *.
  rewrite <- EQ. nra.
Qed.

Lemma lo_inside u F E k : finite_pos u -> cached_ok (norm_e u) F E k ->
  lower_R u + 35 / 10000 * unit_R u E k <= IZR (lo_of (dbl_f u) F) * unit_R u E k <= lower_R u + 2 * unit_R u E k.
Proof.
  intros H CK. destruct (finite_pos_f u H) as [Hf He].
  destruct (boundary_gaps (dbl_f u) Hf) as (_ & _ & _ & _ & Mr & _ & PR).
  pose proof (scaled_error u F E k (minus_f (dbl_f u)) CK ltac:(lia)) as S.
  rewrite minus_f_R in S by exact H. apply Rabs_le_inv in S.
  pose proof (unit_pos u E k) as U.
  unfold lo_of. rewrite plus_IZR.
  assert (EQ := unscale u E k (lower_R u)).
  set (v := lower_R u * bpow radix10 (- k) * bpow radix2 (shift_of u E)) in *.
  rewrite <- EQ. nra.
Qed.

(** The printed digits as a real. *)
Definition digits_R (ds : list Z) (K : Z) : R := IZR (nval ds) * bpow radix10 K.

Lemma digits_inside M m s C ds kap k : (0 <= s)%Z ->
  digits_ok M (M - m) s C ds kap ->
  IZR m * (bpow radix10 k * bpow radix2 (- s)) <= digits_R ds (k + kap) <= IZR M * (bpow radix10 k * bpow radix2 (- s)).
Proof.
  intros Hs [_ _ _ D _ _]. unfold digits_R. rewrite bpow_plus.
  pose proof (bpow_gt_0 radix10 k) as P1. pose proof (bpow_gt_0 radix2 s) as P2.
  pose proof (bpow_gt_0 radix10 kap) as P3.
  rewrite bpow_opp.
  destruct (Z.leb_spec 0 kap) as [Hk|Hk].
  - replace (M - (M - m))%Z with m in D by ring. destruct D as [D1 D2].
    apply IZR_le in D1. apply IZR_le in D2. rewrite !mult_IZR, pow10_bpow, pow2_bpow in D1, D2 by lia.
    set (x := bpow radix10 k) in *. set (y := bpow radix2 s) in *. set (z := bpow radix10 kap) in *.
    assert (PP : 0 < x * / y) by (apply Rmult_lt_0_compat; [lra|apply Rinv_0_lt_compat; lra]).
    replace (IZR (nval ds) * (x * z)) with (IZR (nval ds) * (z * y) * (x * / y)) by (field; lra).
    split; apply Rmult_le_compat_r; lra.
  - replace (M - (M - m))%Z with m in D by ring. destruct D as [D1 D2].
    apply IZR_le in D1. apply IZR_le in D2. rewrite !mult_IZR, pow10_bpow, pow2_bpow in D1, D2 by lia.
    rewrite bpow_opp in D1, D2.
    set (x := bpow radix10 k) in *. set (y := bpow radix2 s) in *. set (z := bpow radix10 kap) in *.
    assert (PP : 0 < x * z * / y) by (apply Rmult_lt_0_compat; [nra|apply Rinv_0_lt_compat; lra]).
    replace (IZR (nval ds) * (x * z)) with (IZR (nval ds) * y * (x * z * / y)) by (field; lra).
    replace (IZR m * (x * / y)) with (/ z * IZR m * (x * z * / y)) by (field; lra).
    replace (IZR M * (x * / y)) with (/ z * IZR M * (x * z * / y)) by (field; lra).
    split; apply Rmult_le_compat_r; lra.
Qed.

(** ** Summary *)

Record grisu_ok (u : Z) (ds : list Z) (K : Z) (F E k kap : Z) : Prop := {
  go_cached : cached_ok (norm_e u) F E k;
  go_digits : digits_ok (hi_of (dbl_f u) F) (hi_of (dbl_f u) F - lo_of (dbl_f u) F) (shift_of u E)
                (int_count (hi_of (dbl_f u) F) (shift_of u E)) ds kap;
  go_K : K = (k + kap)%Z;
  go_length : (1 <= length ds <= 17)%nat;
  go_value : lower_R u + 35 / 10000 * unit_R u E k <= digits_R ds K <= upper_R u - 35 / 10000 * unit_R u E k;
  go_close : closest (hi_of (dbl_f u) F) (hi_of (dbl_f u) F - lo_of (dbl_f u) F) (shift_of u E)
               (hi_of (dbl_f u) F - mid_of (dbl_f u) F) ds kap
}.

Theorem grisu2_ok tc u : lenient tc -> finite_pos u ->
  exists ds K F E k kap, pure_grisu tc u = Ok (ds, K) /\ grisu_ok u ds K F E k kap /\
    getCachedPower EvalDouble (norm_e u) = Ok (MkDiyFp F E, k) /\
    forall b pre n, holds_digits b pre [] n -> (length pre + 17 <= n)%nat ->
      exists b', grisu2 tc u b (Z.of_nat (length pre)) = Ok (b', Z.of_nat (length ds), K) /\
                 holds_digits b' pre ds n.
Proof.
  intros [o Ho] H. destruct (grisu2_unfold tc u H) as (F & E & k & CK & G & U1 & U2). cbn zeta in *.
  destruct (finite_pos_f u H) as [Hf He]. pose proof CK as [CF Ce Ckk CC].
  destruct (scaled_bounds (dbl_f u) F Hf CF) as (S1 & S2 & S3 & S4 & S5 & S6).
  assert (Hs : (32 <= shift_of u E <= 60)%Z) by (unfold shift_of; lia).
  pose proof (pow2_range _ Hs) as Hp.
  rewrite Ho in U1, U2.
  match type of U2 with _ = pure_digits _ ?cs ?W ?Wp ?d _ =>
    pose proof (generateDigits_ok o cs W Wp d k) as GD;
    destruct (pure_digits_ok o cs W Wp d k) as (ds & kap & P & D & CL) end;
    cbn [df de] in *; rewrite ?Z.opp_involutive in *; try lia.
  assert (GD' : forall b pre n, holds_digits b pre [] n -> (length pre + 17 <= n)%nat -> _)
    by (intros b pre n; apply (GD b pre n); lia).
  clear GD.
  assert (L : (1 <= length ds <= 17)%nat).
  { destruct (GD' (repeat None 17) [] 17%nat) as (b' & ds' & kap' & _ & _ & P' & _ & L').
    - exists (repeat None 17). split; reflexivity.
    - cbn. lia.
    - rewrite P in P'. apply Ok_inj in P'. injection P' as <- _. exact L'. }
  exists ds, (k + kap)%Z, F, E, k, kap. split; [rewrite U2; exact P|]. split; [|split; [exact G|]].
  - split; try assumption; try reflexivity.
    pose proof (digits_inside _ _ (shift_of u E) _ _ _ k ltac:(lia) D) as DI. fold (unit_R u E k) in DI.
    pose proof (hi_inside u F E k H CK). pose proof (lo_inside u F E k H CK). lra.
    unfold DiyFp_sub in CL. cbn [df de] in CL. fold (mid_of (dbl_f u) F) in CL.
    pose proof (mid_between (dbl_f u) F Hf CF). rewrite u64_small in CL by lia. exact CL.
  - intros b pre n Hb Hn. destruct (GD' b pre n Hb Hn) as (b' & ds' & kap' & E1 & Hb' & P' & _ & _).
    rewrite P in P'. apply Ok_inj in P'. injection P' as <- EK. exists b'.
    rewrite U1, E1, EK. auto.
Qed.
