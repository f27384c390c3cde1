(** The digit generator stops at the first possible position: shortness, and integers. *)
From Coq Require Import Reals Lra Psatz.
From Flocq Require Import Core.
From Verif Require Import Machine LibMachine SpecDecimal SpecNumber SpecIeee ModelIeee ModelDiyfp ModelDtoa
  ProofDiyfp ProofCached ProofDigits ProofGrisu ProofLayout ProofIeee ProofDtoa ProofNumber.
Open Scope Z_scope.
Ltac Zify.zify_post_hook ::= idtac.

Lemma int_count_spec M s : 0 <= s -> 2 ^ s <= M -> M / 2 ^ s < 2 ^ 32 ->
  10 ^ (int_count M s - 1) * 2 ^ s <= M < 10 ^ int_count M s * 2 ^ s.
Proof.
  intros Hs H H32. assert (P : 0 < 2 ^ s) by (apply Z.pow_pos_nonneg; lia).
  assert (D : 1 <= M / 2 ^ s) by (apply Z.div_le_lower_bound; lia).
  destruct (decimalCount_spec (M / 2 ^ s) ltac:(lia)) as (C & C1 & C2). specialize (C2 ltac:(lia)).
  fold (int_count M s) in *. pose proof (Z.div_mod M (2 ^ s) ltac:(lia)) as DM.
  pose proof (Z.mod_pos_bound M (2 ^ s) P) as MB. nia.
Qed.

Open Scope R_scope.

(** The scaled interval. *)
Definition hi_R (u F E k : Z) : R := IZR (hi_of (dbl_f u) F) * unit_R u E k.
Definition lo_R (u F E k : Z) : R := IZR (lo_of (dbl_f u) F) * unit_R u E k.

Lemma scaled_facts u ds K F E k kap : finite_pos u -> grisu_ok u ds K F E k kap ->
  (32 <= shift_of u E <= 60)%Z /\
  (10 ^ (int_count (hi_of (dbl_f u) F) (shift_of u E) - 1) * 2 ^ shift_of u E <= hi_of (dbl_f u) F <
   10 ^ int_count (hi_of (dbl_f u) F) (shift_of u E) * 2 ^ shift_of u E)%Z.
Proof.
  intros H G. destruct (finite_pos_f u H) as [Hf He]. pose proof (go_cached _ _ _ _ _ _ _ G) as [CF Ce _ _].
  destruct (scaled_bounds (dbl_f u) F Hf CF) as (S1 & S2 & S3 & S4 & S5 & S6).
  assert (Hs : (32 <= shift_of u E <= 60)%Z) by (unfold shift_of; lia). split; [exact Hs|].
  pose proof (pow2_range _ Hs) as P. apply int_count_spec; [lia|lia|].
  apply Z.div_lt_upper_bound; [lia|]. lia.
Qed.

(** A position in units. *)
Lemma in_units u E k D K' : (0 <= shift_of u E)%Z ->
  IZR D * bpow radix10 K' = IZR D * bpow radix10 (K' - k) * bpow radix2 (shift_of u E) * unit_R u E k.
Proof.
  intros Hs. unfold unit_R. unfold Z.sub at 1. rewrite bpow_plus, !bpow_opp.
  pose proof (bpow_gt_0 radix10 k). pose proof (bpow_gt_0 radix2 (shift_of u E)). field. lra.
Qed.

(** No decimal with its last digit at a higher position lies in the interval. *)
Theorem position_first u ds K F E k kap D K' : finite_pos u -> grisu_ok u ds K F E k kap ->
  (0 < D)%Z -> lo_R u F E k < IZR D * bpow radix10 K' <= hi_R u F E k -> (K' <= K)%Z.
Proof.
  intros H G HD [L U]. destruct (scaled_facts u ds K F E k kap H G) as [Hs [C1 C2]].
  destruct (Z.le_gt_cases K' K) as [|Hgt]; [assumption|exfalso].
  destruct G as [CK DG EK LN V]. rewrite EK in Hgt.
  unfold lo_R, hi_R in L, U. set (M := hi_of (dbl_f u) F) in *. set (m := lo_of (dbl_f u) F) in *.
  set (s := shift_of u E) in *. set (C := int_count M s) in *.
  pose proof (unit_pos u E k) as UP. rewrite (in_units u E k D K') in L, U by (fold s; lia). fold s in L, U.
  apply Rmult_lt_reg_r in L; [|exact UP]. apply Rmult_le_reg_r in U; [|exact UP].
  set (j := (K' - k)%Z) in *.
  assert (P2 : (0 < 2 ^ s)%Z) by (apply Z.pow_pos_nonneg; lia).
  destruct (Z.le_gt_cases C j) as [HC|HC].
  - (* too large *)
    assert (B : IZR (10 ^ C * 2 ^ s) <= IZR D * bpow radix10 j * bpow radix2 s).
    { rewrite mult_IZR, (pow2_bpow s) by lia. apply Rmult_le_compat_r; [apply bpow_ge_0|].
      pose proof (int_count_range M s). fold C in H0. rewrite pow10_bpow by lia.
      apply Rle_trans with (1 * bpow radix10 j).
      - rewrite Rmult_1_l. apply bpow_le. exact HC.
      - apply Rmult_le_compat_r; [apply bpow_ge_0|]. apply IZR_le. lia. }
    apply IZR_lt in C2. lra.
  - pose proof (do_first _ _ _ _ _ _ DG j ltac:(lia)) as X. unfold rest_at in X.
    destruct (Z.leb_spec 0 j) as [Hj|Hj].
    + assert (PJ : (0 < 10 ^ j)%Z) by (apply Z.pow_pos_nonneg; lia).
      rewrite <- pow10_bpow, <- pow2_bpow, <- !mult_IZR in L, U by lia.
      apply lt_IZR in L. apply le_IZR in U. rewrite <- Z.mul_assoc in L, U.
      set (q := (10 ^ j * 2 ^ s)%Z) in *. assert (Pq : (0 < q)%Z) by (unfold q; nia).
      pose proof (Z.div_mod M q ltac:(lia)) as DM. pose proof (Z.mod_pos_bound M q Pq) as MB.
      assert (D <= M / q)%Z by (apply Z.div_le_lower_bound; lia).
      assert (D * q <= M / q * q)%Z by (apply Z.mul_le_mono_nonneg_r; lia). lia.
    + assert (PJ : (0 < 10 ^ (- j))%Z) by (apply Z.pow_pos_nonneg; lia).
      assert (EJ : bpow radix10 j = / IZR (10 ^ (- j))).
      { rewrite pow10_bpow by lia. rewrite bpow_opp, Rinv_inv. reflexivity. }
      assert (PR : 0 < IZR (10 ^ (- j))) by (apply IZR_lt; exact PJ).
      rewrite EJ, <- pow2_bpow in L, U by lia.
      assert (L' : IZR (10 ^ (- j) * m) < IZR (D * 2 ^ s)).
      { rewrite !mult_IZR. apply Rmult_lt_reg_r with (/ IZR (10 ^ (- j))); [apply Rinv_0_lt_compat; exact PR|].
        replace (IZR (10 ^ (- j)) * IZR m * / IZR (10 ^ (- j))) with (IZR m) by (field; lra). lra. }
      assert (U' : IZR (D * 2 ^ s) <= IZR (10 ^ (- j) * M)).
      { rewrite !mult_IZR. apply Rmult_le_reg_r with (/ IZR (10 ^ (- j))); [apply Rinv_0_lt_compat; exact PR|].
        replace (IZR (10 ^ (- j)) * IZR M * / IZR (10 ^ (- j))) with (IZR M) by (field; lra). lra. }
      apply lt_IZR in L'. apply le_IZR in U'.
      set (q := (10 ^ (- j))%Z) in *. set (t := (2 ^ s)%Z) in *.
      pose proof (Z.div_mod (q * M) t ltac:(lia)) as DM. pose proof (Z.mod_pos_bound (q * M) t P2) as MB.
      assert (D <= q * M / t)%Z by (apply Z.div_le_lower_bound; lia).
      assert (D * t <= q * M / t * t)%Z by (apply Z.mul_le_mono_nonneg_r; lia). lia.
Qed.

Lemma digits_good M delta s C ds kap : digits_ok M delta s C ds kap -> good_digits ds.
Proof. intros [D H _ _ _ _]. split; assumption. Qed.

(** No decimal with fewer digits lies in the interval. *)
Theorem fewest_digits u ds K F E k kap D K' : finite_pos u -> grisu_ok u ds K F E k kap ->
  (0 < D < 10 ^ (Z.of_nat (length ds) - 1))%Z ->
  lo_R u F E k < IZR D * bpow radix10 K' <= hi_R u F E k -> False.
Proof.
  intros H G HD B. destruct (scaled_facts u ds K F E k kap H G) as [Hs [C1 C2]].
  pose proof (position_first u ds K F E k kap D K' H G ltac:(lia) B) as HK.
  pose proof (go_length _ _ _ _ _ _ _ G) as LN.
  pose proof (do_length _ _ _ _ _ _ (go_digits _ _ _ _ _ _ _ G)) as DL.
  pose proof (go_K _ _ _ _ _ _ _ G) as EK.
  set (len := Z.of_nat (length ds)) in *.
  set (C := int_count (hi_of (dbl_f u) F) (shift_of u E)) in *.
  assert (P : lo_R u F E k < 1 * bpow radix10 (k + C - 1) <= hi_R u F E k).
  { split.
    - eapply Rlt_le_trans; [apply B|]. apply Rle_trans with (bpow radix10 (len - 1) * bpow radix10 K).
      + apply Rmult_le_compat; [apply IZR_le; lia|apply bpow_ge_0| |apply bpow_le; exact HK].
        rewrite <- pow10_bpow by lia. apply IZR_le. lia.
      + rewrite <- bpow_plus, Rmult_1_l. apply bpow_le. lia.
    - rewrite (in_units u E k 1 (k + C - 1)) by lia. unfold hi_R.
      apply Rmult_le_compat_r; [apply Rlt_le, unit_pos|].
      pose proof (int_count_range (hi_of (dbl_f u) F) (shift_of u E)). fold C in H0.
      replace (k + C - 1 - k)%Z with (C - 1)%Z by lia.
      rewrite Rmult_1_l, <- pow10_bpow, <- pow2_bpow, <- mult_IZR by lia. apply IZR_le. exact C1. }
  pose proof (position_first u ds K F E k kap 1 (k + C - 1) H G ltac:(lia) P) as X.
  assert (len = 1)%Z by lia. rewrite H0 in HD. cbn in HD. lia.
Qed.

(** ** The size of a unit *)

Lemma unit_small u F E k : finite_pos u -> cached_ok (norm_e u) F E k ->
  1023 * unit_R u E k <= bpow radix2 (dbl_e u).
Proof.
  intros H CK. destruct (finite_pos_f u H) as [Hf He].
  destruct (boundary_gaps (dbl_f u) Hf) as (B & _). pose proof CK as [CF Ce Ckk CC].
  pose proof (close_check_R F E (- k) CC) as X. apply Rabs_le_inv in X.
  assert (EU : bpow radix2 (dbl_e u) =
    bpow radix2 (lead_shift (dbl_f u)) * (bpow radix10 (- k) * bpow radix2 (- E)) * bpow radix2 (-64) * unit_R u E k).
  { unfold unit_R, shift_of, norm_e. rewrite Z.opp_involutive.
    rewrite (bpow_opp radix10 k).
    replace (bpow radix2 (dbl_e u - lead_shift (dbl_f u) + E + 64))
      with (bpow radix2 (dbl_e u) * / bpow radix2 (lead_shift (dbl_f u)) * / bpow radix2 (- E) * / bpow radix2 (-64)).
    2:{ rewrite <- !bpow_opp, <- !bpow_plus. f_equal. lia. }
    pose proof (bpow_gt_0 radix10 k). pose proof (bpow_gt_0 radix2 (lead_shift (dbl_f u))).
    pose proof (bpow_gt_0 radix2 (- E)). pose proof (bpow_gt_0 radix2 (-64)). field. repeat split; lra. }
  rewrite EU. apply Rmult_le_compat_r; [apply Rlt_le, unit_pos|].
  assert (L11 : bpow radix2 11 <= bpow radix2 (lead_shift (dbl_f u))) by (apply bpow_le; lia).
  change (bpow radix2 11) with 2048 in L11.
  assert (FR : 9223372036854775808 <= IZR F) by (apply IZR_le; lia).
  set (T := bpow radix10 (- k) * bpow radix2 (- E)) in *. change (bpow radix2 (-64)) with (/ 18446744073709551616).
  assert (TR : 9223372036854775807 <= T) by lra.
  apply Rle_trans with (2048 * 9223372036854775807 * / 18446744073709551616); [lra|].
  apply Rmult_le_compat_r; [lra|]. apply Rmult_le_compat; lra.
Qed.

(** The interval covers all but two units at each end. *)
Lemma interval_covers u ds K F E k kap y : finite_pos u -> grisu_ok u ds K F E k kap ->
  lower_R u + bpow radix2 (dbl_e u) / 500 <= y <= upper_R u - bpow radix2 (dbl_e u) / 500 ->
  lo_R u F E k < y <= hi_R u F E k.
Proof.
  intros H G B. pose proof (go_cached _ _ _ _ _ _ _ G) as CK.
  pose proof (unit_small u F E k H CK) as U. pose proof (unit_pos u E k) as UP.
  pose proof (hi_inside u F E k H CK) as HI. pose proof (lo_inside u F E k H CK) as LO.
  unfold lo_R, hi_R. lra.
Qed.

(** ** Integers *)

Lemma gap_R u : upper_R u = dbl_R u + bpow radix2 (dbl_e u) / 2 /\
  lower_R u = dbl_R u - (if (dbl_f u =? 2 ^ 52)%Z then bpow radix2 (dbl_e u) / 4 else bpow radix2 (dbl_e u) / 2).
Proof.
  assert (H1 : bpow radix2 (dbl_e u - 1) = bpow radix2 (dbl_e u) / 2).
  { replace (dbl_e u - 1)%Z with (dbl_e u + -1)%Z by lia. rewrite bpow_plus. reflexivity. }
  assert (H2 : bpow radix2 (dbl_e u - 2) = bpow radix2 (dbl_e u) / 4).
  { replace (dbl_e u - 2)%Z with (dbl_e u + -2)%Z by lia. rewrite bpow_plus. reflexivity. }
  unfold upper_R, lower_R, dbl_R. rewrite H1, H2. split.
  - rewrite plus_IZR, mult_IZR. field.
  - destruct (_ =? _)%Z; rewrite minus_IZR, mult_IZR; field.
Qed.

(** The digits of an integral double of at most 53 bits are that integer. *)
Theorem integer_digits u ds K F E k kap n : finite_pos u -> grisu_ok u ds K F E k kap ->
  dbl_R u = IZR n -> (0 < n <= 2 ^ 53)%Z -> (0 <= K)%Z /\ (nval ds * 10 ^ K = n)%Z.
Proof.
  intros H G En Hn. destruct (finite_pos_f u H) as [Hf He].
  assert (Pe : 0 < bpow radix2 (dbl_e u)) by apply bpow_gt_0.
  destruct (gap_R u) as [GU GL].
  assert (HK : (0 <= K)%Z).
  { apply (position_first u ds K F E k kap n 0 H G); [lia|]. cbn [bpow]. rewrite Rmult_1_r, <- En.
    apply (interval_covers u ds K F E k kap _ H G). rewrite GU, GL. destruct (_ =? _)%Z; lra. }
  split; [exact HK|].
  pose proof (go_value _ _ _ _ _ _ _ G) as V. pose proof (unit_pos u E k) as UP.
  unfold digits_R in V. rewrite <- pow10_bpow, <- mult_IZR in V by exact HK.
  (* the gap is at most 1 on each side *)
  assert (Ge : bpow radix2 (dbl_e u) <= 1 \/ (n = 2 ^ 53)%Z /\ bpow radix2 (dbl_e u) = 2 /\ (dbl_f u = 2 ^ 52)%Z).
  { destruct (Z.le_gt_cases (dbl_e u) 0) as [L|L].
    - left. change 1 with (bpow radix2 0). apply bpow_le. exact L.
    - right. unfold dbl_R in En.
      assert (F52 : (2 ^ 52 <= dbl_f u)%Z).
      { unfold dbl_f, dbl_e in *. destruct (exp_field u =? 0)%Z; [lia|].
        pose proof (Z.mod_pos_bound u (2 ^ 52) ltac:(lia)) as FF. fold (frac_field u) in FF. lia. }
      rewrite <- pow2_bpow, <- mult_IZR in En by lia. apply eq_IZR in En.
      assert (E1 : dbl_e u = 1%Z).
      { destruct (Z.eq_dec (dbl_e u) 1) as [|N1]; [assumption|exfalso].
        assert (2 ^ 2 <= 2 ^ dbl_e u)%Z by (apply Z.pow_le_mono_r; lia). nia. }
      rewrite E1 in *. change (2 ^ 1)%Z with 2%Z in En. split; [lia|]. split; [reflexivity|lia]. }
  rewrite GU, GL, En in V.
  assert (B : IZR (n - 1) < IZR (nval ds * 10 ^ K) < IZR (n + 1)).
  { rewrite minus_IZR, plus_IZR. destruct Ge as [Ge|(N53 & E2 & F2)].
    - destruct (_ =? _)%Z; lra.
    - rewrite E2, F2 in V. rewrite Z.eqb_refl in V. lra. }
  destruct B as [B1 B2]. apply lt_IZR in B1. apply lt_IZR in B2. lia.
Qed.
