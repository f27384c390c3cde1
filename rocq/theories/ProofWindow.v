(** Exactly which decimal is printed. *)
From Coq Require Import Reals Lra Psatz.
From Flocq Require Import Core.
From Verif Require Import Machine LibMachine SpecApi SpecDecimal SpecNumber SpecIeee SpecOverrun SpecGrisu
  ModelIeee ModelDiyfp ModelDtoa ModelFloat ModelLexi ModelPlatforms
  ProofDiyfp ProofCached ProofDigits ProofGrisu ProofLayout ProofIeee ProofDtoa ProofNumber ProofShort ProofStrict ProofUnique
  ProofFloat ProofFloat2 ProofFloat3 ProofFloat4 ProofClose ProofOverrun ProofRead3.
Open Scope Z_scope.
Ltac Zify.zify_post_hook ::= idtac.

(** ** The table once more *)

Lemma table_inner : forallb (fun F => (2 ^ 63 + 1 <=? F) && (F <=? 2 ^ 64 - 2)) CACHED_POWERS_F = true.
Proof. vm_compute. reflexivity. Qed.

Lemma table_at_in t i F : table_at t i = Ok F -> In F t.
Proof.
  unfold table_at. destruct (in_range i (Z.of_nat (length t))) eqn:R; [|discriminate].
  intros X. apply Ok_inj in X. rewrite <- X. apply nth_In.
  unfold in_range in R. apply andb_true_iff in R as [R1 R2]. apply Z.leb_le in R1. apply Z.ltb_lt in R2. lia.
Qed.

Lemma cached_inner ev e F E k : getCachedPower ev e = Ok (MkDiyFp F E, k) -> 2 ^ 63 + 1 <= F <= 2 ^ 64 - 2.
Proof.
  unfold getCachedPower. destruct (int_of_double _) as [n| | |]; cbn [bind]; try discriminate.
  destruct (table_at CACHED_POWERS_F _) as [f| | |] eqn:T1; cbn [bind]; try discriminate.
  destruct (table_at CACHED_POWERS_E _) as [x| | |]; cbn [bind]; try discriminate.
  intros X. apply Ok_inj in X. injection X as <- _ _. apply table_at_in in T1.
  pose proof table_inner as T. rewrite forallb_forall in T. specialize (T f T1). cbv beta in T.
  apply andb_true_iff in T as [A B]. apply Z.leb_le in A. apply Z.leb_le in B. lia.
Qed.

Open Scope R_scope.

Lemma half_up_mul a b : half_up (IZR a * IZR b / bpow radix2 64) = mul_high a b.
Proof.
  unfold half_up, mul_high. rewrite <- Zfloor_div by discriminate. f_equal.
  rewrite plus_IZR, mult_IZR. change (bpow radix2 64) with (IZR (2 ^ 64)).
  change (2 ^ 64)%Z with (2 * 2 ^ 63)%Z. rewrite (mult_IZR 2). set (h := (2 ^ 63)%Z).
  assert (0 < IZR h) by (apply IZR_lt; unfold h; lia). field. lra.
Qed.

Lemma value_f_R u : finite_pos u -> IZR (dbl_f u * 2 ^ lead_shift (dbl_f u)) * bpow radix2 (norm_e u) = dbl_R u.
Proof.
  intros H. destruct (finite_pos_f u H) as [Hf He]. destruct (boundary_gaps (dbl_f u) Hf) as (B & _).
  unfold dbl_R, norm_e. rewrite mult_IZR, pow2_bpow, Rmult_assoc, <- bpow_plus by lia. f_equal. f_equal. lia.
Qed.

Lemma window_of u F E k : finite_pos u -> getCachedPower EvalDouble (norm_e u) = Ok (MkDiyFp F E, k) ->
  cached_ok (norm_e u) F E k ->
  window (dbl_R u) (- k) (lo_of (dbl_f u) F) (mid_of (dbl_f u) F) (hi_of (dbl_f u) F) (unit_R u E k).
Proof.
  intros H G CK. split; [eapply cached_scale; eassumption|]. pose proof CK as [CF Ce Ckk CC].
  destruct (finite_pos_f u H) as [Hf He]. destruct (boundary_gaps (dbl_f u) Hf) as (_ & _ & _ & _ & _ & _ & PR).
  exists F, E, (plus_f (dbl_f u)), (dbl_f u * 2 ^ lead_shift (dbl_f u))%Z, (minus_f (dbl_f u)), (norm_e u).
  split; [exact CF|]. split.
  - destruct (cached_power EvalDouble _ (norm_e_range u H)) as (F' & E' & k' & m & G' & _ & _ & X & _).
    rewrite G in G'. apply Ok_inj in G'. injection G' as <- <- <-. exact X.
  - split; [apply plus_f_range; exact Hf|]. split; [|split; [|split]].
    + rewrite plus_f_R by exact H. unfold upper_end. rewrite upper_is_mid by exact H. reflexivity.
    + symmetry. apply value_f_R. exact H.
    + rewrite minus_f_R by exact H. apply lower_end_eq. exact H.
    + rewrite !half_up_mul. unfold lo_of, mid_of, hi_of. repeat split.
      unfold unit_R, shift_of. rewrite !Z.opp_involutive. reflexivity.
Qed.

(** ** There is one window *)

Lemma bpow_two a b : (a < b)%Z -> 2 * bpow radix2 a <= bpow radix2 b.
Proof.
  intros H. replace 2 with (bpow radix2 1) by reflexivity. rewrite <- bpow_plus. apply bpow_le. lia.
Qed.

Lemma normal_unique p t p' t' : (2 ^ 63 <= p < 2 ^ 64)%Z -> (2 ^ 63 <= p' < 2 ^ 64)%Z ->
  IZR p * bpow radix2 t = IZR p' * bpow radix2 t' -> p = p' /\ t = t'.
Proof.
  intros [A B] [A' B'] E. apply IZR_le in A, A'. apply IZR_lt in B, B'.
  change (2 ^ 64)%Z with (2 * 2 ^ 63)%Z in *. rewrite mult_IZR in *. set (h := IZR (2 ^ 63)) in *.
  assert (Hh : 0 < h) by (apply IZR_lt; lia).
  pose proof (bpow_gt_0 radix2 t) as P. pose proof (bpow_gt_0 radix2 t') as P'.
  assert (T : t = t').
  { destruct (Z.lt_trichotomy t t') as [L|[L|L]]; [exfalso|exact L|exfalso]; apply bpow_two in L; nra. }
  subst t'. split; [|reflexivity]. apply Rmult_eq_reg_r in E; [|lra]. apply eq_IZR. exact E.
Qed.

Lemma nearest_unique F E F' E' T : (2 ^ 63 + 1 <= F <= 2 ^ 64 - 2)%Z -> (2 ^ 63 <= F' < 2 ^ 64)%Z ->
  Rabs (IZR F - T * bpow radix2 (- E)) <= 4965 / 10000 ->
  Rabs (IZR F' * bpow radix2 E' - T) <= bpow radix2 E' / 2 -> F = F' /\ E = E'.
Proof.
  intros [A B] [A' B'] N N'. apply Rabs_le_inv in N. apply Rabs_le_inv in N'.
  pose proof (bpow_gt_0 radix2 E) as P. pose proof (bpow_gt_0 radix2 E') as P'. pose proof (bpow_gt_0 radix2 (- E)) as PO.
  assert (I : bpow radix2 E * bpow radix2 (- E) = 1) by (rewrite <- bpow_plus, Z.add_opp_diag_r; reflexivity).
  assert (TE : T = T * bpow radix2 (- E) * bpow radix2 E) by (rewrite Rmult_assoc, (Rmult_comm (bpow radix2 (- E))), I; ring).
  set (y := T * bpow radix2 (- E)) in *.
  apply IZR_le in A, B, A'. assert (B2 : (F' <= 2 ^ 64 - 1)%Z) by lia. apply IZR_le in B2.
  rewrite plus_IZR in A. rewrite minus_IZR in B, B2. change (2 ^ 64)%Z with (2 * 2 ^ 63)%Z in *. rewrite mult_IZR in *.
  set (h := IZR (2 ^ 63)) in *. assert (Hh : 4 <= h) by (apply IZR_le; lia).
  assert (EE : E = E').
  { destruct (Z.lt_trichotomy E E') as [L|[L|L]]; [exfalso|exact L|exfalso]; apply bpow_two in L; nra. }
  subst E'. split; [|reflexivity].
  assert (X : -1 < IZR (F - F') < 1).
  { rewrite minus_IZR. rewrite TE in N'. split; nra. }
  destruct X as [X1 X2]. apply lt_IZR in X1, X2. lia.
Qed.

Lemma window_unique u F E k g lo mid hi unit : finite_pos u -> getCachedPower EvalDouble (norm_e u) = Ok (MkDiyFp F E, k) ->
  cached_ok (norm_e u) F E k -> window (dbl_R u) g lo mid hi unit ->
  g = (- k)%Z /\ lo = lo_of (dbl_f u) F /\ mid = mid_of (dbl_f u) F /\ hi = hi_of (dbl_f u) F /\ unit = unit_R u E k.
Proof.
  intros H G CK (S & F' & E' & p & v & m & t & HF & N & Hp & Ep & Ev & Em & -> & -> & -> & ->).
  pose proof (scale_unique _ _ _ S (cached_scale _ _ _ _ _ H G)) as Eg. subst g. split; [reflexivity|].
  pose proof CK as [CF Ce Ckk CC]. destruct (finite_pos_f u H) as [Hf He].
  destruct (nearest_unique F E F' E' (bpow radix10 (- k)) (cached_inner _ _ _ _ _ G) HF (close_check_R F E (- k) CC) N) as [<- <-].
  unfold upper_end in Ep. rewrite <- upper_is_mid in Ep by exact H. rewrite <- plus_f_R in Ep by exact H.
  destruct (normal_unique _ _ _ _ (plus_f_range _ Hf) Hp Ep) as [<- <-].
  pose proof (bpow_gt_0 radix2 (norm_e u)) as P.
  rewrite <- value_f_R in Ev by exact H. apply Rmult_eq_reg_r in Ev; [|lra]. apply eq_IZR in Ev. subst v.
  rewrite lower_end_eq in Em by exact H. rewrite <- minus_f_R in Em by exact H. apply Rmult_eq_reg_r in Em; [|lra].
  apply eq_IZR in Em. subst m.
  rewrite !half_up_mul. unfold lo_of, mid_of, hi_of, unit_R, shift_of. rewrite !Z.opp_involutive. auto.
Qed.

(** ** The search *)

Lemma search_above u ds K F E k kap D K' : finite_pos u -> grisu_ok u ds K F E k kap ->
  candidate (- k) (lo_of (dbl_f u) F) (hi_of (dbl_f u) F) (unit_R u E k) K' D -> (K' <= K)%Z.
Proof.
  intros H G [[L U] X]. destruct (scaled_facts u ds K F E k kap H G) as [Hs [C1 C2]]. rewrite Z.opp_involutive in X.
  destruct (finite_pos_f u H) as [Hf He]. pose proof (go_cached _ _ _ _ _ _ _ G) as [CF Ce Ckk CC].
  destruct (scaled_bounds (dbl_f u) F Hf CF) as (S1 & S2 & S3 & S4 & S5 & S6).
  pose proof (unit_pos u E k) as UP.
  assert (HD : (0 < D)%Z).
  { apply lt_IZR. pose proof (bpow_gt_0 radix10 K') as Pk.
    assert (PL : 0 < IZR (lo_of (dbl_f u) F) * unit_R u E k) by (apply Rmult_lt_0_compat; [apply IZR_lt; lia|exact UP]).
    nra. }
  destruct (Z.lt_ge_cases K' k) as [C|C].
  - apply (position_first u ds K F E k kap D K' H G HD). split; [apply X; exact C|exact U].
  - destruct (Z.le_gt_cases K' K) as [|Hgt]; [assumption|exfalso]. clear X.
    destruct G as [CK DG EK LN V]. rewrite EK in Hgt.
    set (M := hi_of (dbl_f u) F) in *. set (m := lo_of (dbl_f u) F) in *.
    set (s := shift_of u E) in *. set (C0 := int_count M s) in *.
    rewrite (in_units u E k D K') in L, U by (fold s; lia). fold s in L, U.
    apply Rmult_le_reg_r in L; [|exact UP]. apply Rmult_le_reg_r in U; [|exact UP].
    set (j := (K' - k)%Z) in *.
    assert (P2 : (0 < 2 ^ s)%Z) by (apply Z.pow_pos_nonneg; lia).
    assert (Hj : (0 <= j)%Z) by lia.
    assert (PJ : (0 < 10 ^ j)%Z) by (apply Z.pow_pos_nonneg; lia).
    rewrite <- pow10_bpow, <- pow2_bpow, <- !mult_IZR in L, U by lia.
    apply le_IZR in L. apply le_IZR in U. rewrite <- Z.mul_assoc in L, U.
    set (q := (10 ^ j * 2 ^ s)%Z) in *. assert (Pq : (0 < q)%Z) by (unfold q; nia).
    destruct (Z.le_gt_cases C0 j) as [HC|HC].
    + assert (10 ^ C0 * 2 ^ s <= q)%Z.
      { unfold q. apply Z.mul_le_mono_nonneg_r; [lia|]. apply Z.pow_le_mono_r; lia. }
      nia.
    + pose proof (do_first _ _ _ _ _ _ DG j ltac:(fold C0; lia)) as Y. unfold rest_at in Y.
      rewrite (proj2 (Z.leb_le 0 j) Hj) in Y. fold q in Y.
      pose proof (Z.div_mod M q ltac:(lia)) as DM. pose proof (Z.mod_pos_bound M q Pq) as MB.
      assert (D <= M / q)%Z by (apply Z.div_le_lower_bound; lia).
      assert (D * q <= M / q * q)%Z by (apply Z.mul_le_mono_nonneg_r; lia). lia.
Qed.

Lemma digits_within u ds K F E k kap : finite_pos u -> grisu_ok u ds K F E k kap ->
  within (lo_of (dbl_f u) F) (hi_of (dbl_f u) F) (unit_R u E k) (digits_R ds K).
Proof.
  intros H G. destruct (scaled_facts u ds K F E k kap H G) as [Hs _]. destruct G as [CK DG EK LN V CL].
  rewrite EK. apply (digits_inside _ _ (shift_of u E) _ _ _ k ltac:(lia) DG).
Qed.

Lemma search_found u ds K F E k kap : finite_pos u -> grisu_ok u ds K F E k kap ->
  exists D, candidate (- k) (lo_of (dbl_f u) F) (hi_of (dbl_f u) F) (unit_R u E k) K D.
Proof.
  intros H G. destruct (scaled_facts u ds K F E k kap H G) as [Hs _].
  pose proof (digits_within u ds K F E k kap H G) as W.
  destruct G as [CK DG EK LN V [CL _]]. unfold candidate. rewrite Z.opp_involutive.
  destruct (Z.le_gt_cases 0 kap) as [C|C].
  - exists (nval ds). split; [exact W|lia].
  - specialize (CL C). unfold rest_at in CL. rewrite (proj2 (Z.leb_gt 0 kap) C) in CL. clear W.
    set (M := hi_of (dbl_f u) F) in *. set (m := lo_of (dbl_f u) F) in *. set (s := shift_of u E) in *.
    set (q := (10 ^ (- kap))%Z) in *. set (t := (2 ^ s)%Z) in *.
    assert (P2 : (0 < t)%Z) by (apply Z.pow_pos_nonneg; lia). assert (PQ : (0 < q)%Z) by (apply Z.pow_pos_nonneg; lia).
    pose proof (Z.div_mod (q * M) t ltac:(lia)) as DM. pose proof (Z.mod_pos_bound (q * M) t P2) as MB.
    exists (q * M / t)%Z. set (D := (q * M / t)%Z) in *.
    assert (L : (q * m < D * t)%Z) by lia. assert (U : (D * t <= q * M)%Z) by lia.
    assert (EQ : IZR D * bpow radix10 K = IZR (D * t) * (/ IZR q * unit_R u E k)).
    { rewrite (in_units u E k D K) by (fold s; lia). rewrite EK. replace (k + kap - k)%Z with kap by lia.
      replace kap with (- - kap)%Z at 1 by lia. rewrite bpow_opp, <- pow10_bpow by lia. fold q. fold s. rewrite <- pow2_bpow by lia. fold t.
      rewrite mult_IZR. ring. }
    assert (PR : 0 < IZR q) by (apply IZR_lt; exact PQ). pose proof (unit_pos u E k) as UP.
    assert (PP : 0 < / IZR q * unit_R u E k) by (apply Rmult_lt_0_compat; [apply Rinv_0_lt_compat; exact PR|exact UP]).
    assert (EZ : forall a, IZR a * unit_R u E k = IZR (q * a) * (/ IZR q * unit_R u E k)) by (intros a; rewrite mult_IZR; field; lra).
    unfold within. rewrite EQ, !EZ. apply IZR_lt in L. apply IZR_le in U.
    assert (IZR (q * m) * (/ IZR q * unit_R u E k) < IZR (D * t) * (/ IZR q * unit_R u E k)) by (apply Rmult_lt_compat_r; assumption).
    repeat split; [lra|apply Rmult_le_compat_r; lra|intros _; assumption].
Qed.

Lemma search_place u ds K F E k kap : finite_pos u -> grisu_ok u ds K F E k kap ->
  place (- k) (lo_of (dbl_f u) F) (hi_of (dbl_f u) F) (unit_R u E k) K.
Proof.
  intros H G. split; [eapply search_found; eassumption|]. intros P' D L C.
  pose proof (search_above u ds K F E k kap D P' H G C). lia.
Qed.

Lemma place_unique g lo hi unit P P' : place g lo hi unit P -> place g lo hi unit P' -> P = P'.
Proof.
  intros [[D A] B] [[D' A'] B']. destruct (Z.lt_trichotomy P P') as [L|[L|L]]; [|exact L|].
  - elim (B P' D' L A').
  - elim (B' P D L A).
Qed.

Lemma fewest_candidate u ds K F E k kap D K' : finite_pos u -> grisu_ok u ds K F E k kap ->
  candidate (- k) (lo_of (dbl_f u) F) (hi_of (dbl_f u) F) (unit_R u E k) K' D -> (10 ^ (Z.of_nat (length ds) - 1) <= D)%Z.
Proof.
  intros H G B. destruct (scaled_facts u ds K F E k kap H G) as [Hs [C1 C2]].
  destruct (Z.le_gt_cases (10 ^ (Z.of_nat (length ds) - 1)) D) as [|HD]; [assumption|exfalso].
  pose proof (search_above u ds K F E k kap D K' H G B) as HK.
  pose proof (go_length _ _ _ _ _ _ _ G) as LN.
  pose proof (do_length _ _ _ _ _ _ (go_digits _ _ _ _ _ _ _ G)) as DL.
  pose proof (go_K _ _ _ _ _ _ _ G) as EK. destruct B as [[B1 B2] _].
  set (len := Z.of_nat (length ds)) in *.
  set (C := int_count (hi_of (dbl_f u) F) (shift_of u E)) in *.
  assert (D0 : (0 < D)%Z).
  { apply lt_IZR. destruct (finite_pos_f u H) as [Hf He]. pose proof (go_cached _ _ _ _ _ _ _ G) as [CF Ce Ckk CC].
    destruct (scaled_bounds (dbl_f u) F Hf CF) as (S1 & S2 & S3 & S4 & S5 & S6).
    pose proof (bpow_gt_0 radix10 K') as Pk. pose proof (unit_pos u E k) as UP.
    assert (PL : 0 < IZR (lo_of (dbl_f u) F) * unit_R u E k) by (apply Rmult_lt_0_compat; [apply IZR_lt; lia|exact UP]).
    nra. }
  assert (P : lo_R u F E k < 1 * bpow radix10 (k + C - 1) <= hi_R u F E k).
  { split.
    - eapply Rle_lt_trans; [apply B1|]. apply Rlt_le_trans with (bpow radix10 (len - 1) * bpow radix10 K').
      + apply Rmult_lt_compat_r; [apply bpow_gt_0|]. rewrite <- pow10_bpow by lia. apply IZR_lt. exact HD.
      + rewrite <- bpow_plus, Rmult_1_l. apply bpow_le. lia.
    - rewrite (in_units u E k 1 (k + C - 1)) by lia. unfold hi_R.
      apply Rmult_le_compat_r; [apply Rlt_le, unit_pos|].
      pose proof (int_count_range (hi_of (dbl_f u) F) (shift_of u E)). fold C in H0.
      replace (k + C - 1 - k)%Z with (C - 1)%Z by lia.
      rewrite Rmult_1_l, <- pow10_bpow, <- pow2_bpow, <- mult_IZR by lia. apply IZR_le. exact C1. }
  pose proof (position_first u ds K F E k kap 1 (k + C - 1) H G ltac:(lia) P) as X.
  assert (L1 : len = 1%Z) by lia. rewrite L1 in HD. cbn in HD. lia.
Qed.

(** ** The interface *)

Lemma printed_facts e u : bits64 u -> double_finite u -> double_value u <> 0 ->
  exists ds K F E k kap, let v := u mod 2 ^ 63 in let n := layout_number (sign_field u) ds K in
    finite_pos v /\ Rabs (double_value u) = dbl_R v /\ grisu_ok v ds K F E k kap /\
    getCachedPower EvalDouble (norm_e v) = Ok (MkDiyFp F E, k) /\ good_digits ds /\
    (forall s, lexi e (VDouble u) = Ok s -> json_number s n) /\ n_magnitude n = digits_R ds K /\
    (tc_policy (fe_tc (e_float e)) = Strict ->
     ((kap < -9)%Z -> lexi e (VDouble u) = overrun) /\ ((-9 <= kap)%Z -> exists s, lexi e (VDouble u) = Ok s)) /\
    ((-9 <= kap)%Z -> lexi e (VDouble u) = Ok (sign_text u ++ layout ds K)).
Proof.
  intros H F N. destruct (finite_format_bits (e_float e) u H F N) as (ds & K & F0 & E & k & kap & P & G & GC & (o & D & Ho) & X & Y).
  exists ds, K, F0, E, k, kap. cbv zeta.
  assert (FP : finite_pos (u mod 2 ^ 63)).
  { apply abs_finite; [exact H|apply double_finite_iff; assumption|apply nonzero_field; assumption]. }
  pose proof (digits_good _ _ _ _ _ _ (go_digits _ _ _ _ _ _ _ G)) as GD.
  pose proof (grisu_exponent _ _ _ _ _ _ _ G) as GE.
  split; [exact FP|]. split; [apply abs_double; assumption|]. split; [exact G|]. split; [exact GC|]. split; [exact GD|].
  split; [|split; [|split]].
  - intros s L. rewrite lexi_double, double_finite_bits in L by assumption. destruct X as [X|(X & _)].
    + rewrite X, D in L. cbn [bind] in L. rewrite <- (FormatFloat_holds_string _ _ _ Ho L). apply layout_json; assumption.
    + rewrite X in L. discriminate L.
  - apply layout_magnitude; assumption.
  - intros S. rewrite lexi_double, double_finite_bits by assumption. split; intros C.
    + rewrite (Y S C). reflexivity.
    + destruct X as [X|(_ & _ & X)]; [|lia]. rewrite X, D. cbn [bind]. exists (sign_text u ++ layout ds K). apply Ho.
  - intros C. rewrite lexi_double, double_finite_bits by assumption.
    destruct X as [X|(_ & _ & X)]; [|lia]. rewrite X, D. cbn [bind]. apply Ho.
Qed.

Section Windows.
Context (u : Z) (H : bits64 u) (HF : double_finite u) (HN : double_value u <> 0).

Lemma window_exists : exists g lo mid hi unit, window (Rabs (double_value u)) g lo mid hi unit.
Proof.
  destruct (printed_facts (linux_x86_64 Strict) u H HF HN) as (ds & K & F0 & E & k & kap & FP & Ex & G & GC & _).
  rewrite Ex. do 5 eexists. apply (window_of _ _ _ _ FP GC (go_cached _ _ _ _ _ _ _ G)).
Qed.

Lemma window_same g lo mid hi unit g' lo' mid' hi' unit' :
  window (Rabs (double_value u)) g lo mid hi unit -> window (Rabs (double_value u)) g' lo' mid' hi' unit' ->
  g = g' /\ lo = lo' /\ mid = mid' /\ hi = hi' /\ unit = unit'.
Proof.
  destruct (printed_facts (linux_x86_64 Strict) u H HF HN) as (ds & K & F0 & E & k & kap & FP & Ex & G & GC & _).
  rewrite Ex. pose proof (go_cached _ _ _ _ _ _ _ G) as CK. intros A B.
  apply (window_unique _ _ _ _ _ _ _ _ _ FP GC CK) in A. apply (window_unique _ _ _ _ _ _ _ _ _ FP GC CK) in B.
  destruct A as (-> & -> & -> & -> & ->). destruct B as (-> & -> & -> & -> & ->). auto.
Qed.

Lemma last_place_exists : exists P, last_place (Rabs (double_value u)) P.
Proof.
  destruct (printed_facts (linux_x86_64 Strict) u H HF HN) as (ds & K & F0 & E & k & kap & FP & Ex & G & GC & _).
  rewrite Ex. exists K. do 5 eexists. split; [apply (window_of _ _ _ _ FP GC (go_cached _ _ _ _ _ _ _ G))|].
  eapply search_place; eassumption.
Qed.

Lemma last_place_unique P P' : last_place (Rabs (double_value u)) P -> last_place (Rabs (double_value u)) P' -> P = P'.
Proof.
  intros (g & lo & mid & hi & unit & W & A) (g' & lo' & mid' & hi' & unit' & W' & A').
  destruct (window_same _ _ _ _ _ _ _ _ _ _ W W') as (<- & <- & _ & <- & <-). eapply place_unique; eassumption.
Qed.

Lemma printed_unique N P N' P' : printed_decimal (Rabs (double_value u)) N P -> printed_decimal (Rabs (double_value u)) N' P' ->
  N = N' /\ P = P'.
Proof.
  intros (g & lo & mid & hi & unit & W & A & I & C) (g' & lo' & mid' & hi' & unit' & W' & A' & I' & C').
  destruct (window_same _ _ _ _ _ _ _ _ _ _ W W') as (<- & <- & <- & <- & <-).
  pose proof (place_unique _ _ _ _ _ _ A A') as <-. split; [|reflexivity].
  destruct (C N' I') as [C1 C2]. destruct (C' N I) as [C3 C4]. cbv zeta beta in *.
  assert (X := Rle_antisym _ _ C1 C3). specialize (C2 X). specialize (C4 (eq_sym X)). lia.
Qed.

Lemma place_printed e s n : lexi e (VDouble u) = Ok s -> json_number s n ->
  exists N P, n_magnitude n = IZR N * bpow radix10 P /\
    (exists g lo mid hi unit, window (Rabs (double_value u)) g lo mid hi unit /\ place g lo hi unit P /\
      within lo hi unit (n_magnitude n)) /\
    (tc_policy (fe_tc (e_float e)) = Strict \/ (exists g, decimal_scale (Rabs (double_value u)) g /\ (- g - 9 <= P)%Z) ->
     printed_decimal (Rabs (double_value u)) N P).
Proof.
  intros L J'. destruct (printed_facts e u H HF HN) as (ds & K & F0 & E & k & kap & FP & Ex & G & GC & GD & J & M & S & _).
  cbv zeta in *. rewrite (json_number_unique _ _ _ J' (J s L)), M. rewrite Ex. exists (nval ds), K.
  pose proof (window_of _ _ _ _ FP GC (go_cached _ _ _ _ _ _ _ G)) as W.
  pose proof (search_place _ _ _ _ _ _ _ FP G) as PL. pose proof (digits_within _ _ _ _ _ _ _ FP G) as I.
  split; [reflexivity|]. split.
  - do 5 eexists. split; [exact W|]. split; [exact PL|exact I].
  - intros C. assert (Hk : (-9 <= kap)%Z).
    { destruct C as [C|(g & DS & C)].
      - destruct (Z.le_gt_cases (-9) kap) as [|B]; [assumption|exfalso]. destruct (S C) as [S1 _]. rewrite (S1 B) in L. discriminate L.
      - rewrite (scale_unique _ _ _ DS (cached_scale _ _ _ _ _ FP GC)) in C. pose proof (go_K _ _ _ _ _ _ _ G). lia. }
    do 5 eexists. split; [exact W|]. split; [exact PL|]. split; [exact I|].
    intros D B. cbv zeta. apply (close_R _ _ _ _ _ _ _ D FP G Hk B).
Qed.

Lemma overrun_decided e g P : tc_policy (fe_tc (e_float e)) = Strict -> decimal_scale (Rabs (double_value u)) g ->
  last_place (Rabs (double_value u)) P ->
  ((P < - g - 9)%Z -> lexi e (VDouble u) = overrun) /\ ((- g - 9 <= P)%Z -> exists s, lexi e (VDouble u) = Ok s).
Proof.
  intros S DS (g' & lo & mid & hi & unit & W & A).
  destruct (printed_facts e u H HF HN) as (ds & K & F0 & E & k & kap & FP & Ex & G & GC & GD & J & M & X & _).
  rewrite Ex in *. destruct (window_unique _ _ _ _ _ _ _ _ _ FP GC (go_cached _ _ _ _ _ _ _ G) W) as (-> & -> & -> & -> & ->).
  rewrite (place_unique _ _ _ _ _ _ A (search_place _ _ _ _ _ _ _ FP G)).
  rewrite (scale_unique _ _ _ DS (cached_scale _ _ _ _ _ FP GC)). pose proof (go_K _ _ _ _ _ _ _ G) as EK.
  destruct (X S) as [X1 X2]. split; intros C; [apply X1|apply X2]; lia.
Qed.

Lemma shortest_in_window e s n g lo mid hi unit D P : lexi e (VDouble u) = Ok s -> json_number s n ->
  window (Rabs (double_value u)) g lo mid hi unit -> candidate g lo hi unit P D ->
  (10 ^ (Z.of_nat (length (significant (n_digits n))) - 1) <= D)%Z.
Proof.
  intros L J' W C.
  destruct (printed_facts e u H HF HN) as (ds & K & F0 & E & k & kap & FP & Ex & G & GC & GD & J & M & X & _).
  cbv zeta in *. rewrite (json_number_unique _ _ _ J' (J s L)). rewrite Ex in *.
  destruct (window_unique _ _ _ _ _ _ _ _ _ FP GC (go_cached _ _ _ _ _ _ _ G) W) as (-> & -> & -> & -> & ->).
  pose proof (layout_significant (sign_field u) ds K GD) as [LS _].
  eapply Z.le_trans; [|eapply fewest_candidate; eassumption]. apply Z.pow_le_mono_r; lia.
Qed.

Lemma short_decimal_exactly e s n g lo mid hi unit D P : lexi e (VDouble u) = Ok s -> json_number s n ->
  bpow radix2 (-1022) <= Rabs (double_value u) -> (0 < D < 10 ^ 15)%Z -> window (Rabs (double_value u)) g lo mid hi unit ->
  (candidate g lo hi unit P D -> n_magnitude n = IZR D * bpow radix10 P) /\
  (n_magnitude n = IZR D * bpow radix10 P -> within lo hi unit (IZR D * bpow radix10 P)).
Proof.
  intros L J' NR HD W.
  destruct (printed_facts e u H HF HN) as (ds & K & F0 & E & k & kap & FP & Ex & G & GC & GD & J & M & X & _).
  cbv zeta in *. rewrite (json_number_unique _ _ _ J' (J s L)), M. rewrite Ex in *. pose proof (go_cached _ _ _ _ _ _ _ G) as CK.
  destruct (window_unique _ _ _ _ _ _ _ _ _ FP GC CK W) as (-> & -> & -> & -> & ->).
  pose proof (digits_within _ _ _ _ _ _ _ FP G) as I. split; [|intros <-; exact I].
  intros C. pose proof (fewest_candidate _ _ _ _ _ _ _ _ _ FP G C) as LD.
  pose proof (go_length _ _ _ _ _ _ _ G) as GL. destruct (nval_bounds ds GD) as [N0 N1].
  assert (L15 : (Z.of_nat (length ds) <= 15)%Z).
  { destruct (Z.le_gt_cases (Z.of_nat (length ds)) 15) as [|B]; [assumption|exfalso].
    assert (10 ^ 15 <= 10 ^ (Z.of_nat (length ds) - 1))%Z by (apply Z.pow_le_mono_r; lia). lia. }
  assert (NB : (0 < nval ds < 10 ^ 15)%Z).
  { assert (0 < 10 ^ (Z.of_nat (length ds) - 1))%Z by (apply Z.pow_pos_nonneg; lia).
    split; [lia|]. eapply Z.lt_le_trans; [exact N1|]. apply Z.pow_le_mono_r; lia. }
  unfold digits_R in *. pose proof (hi_inside _ _ _ _ FP CK) as HI. pose proof (lo_inside _ _ _ _ FP CK) as LO.
  pose proof (unit_pos (u mod 2 ^ 63) E k) as UP. destruct C as [C _]. unfold within in C, I.
  apply (decimals_apart _ _ _ _ (u mod 2 ^ 63) FP); [apply normal_significand; assumption|exact NB|exact HD| |]; lra.
Qed.

End Windows.

(** The double nearest to 1e23: the window ends one unit below. *)
Lemma window_case : let x := Rabs (double_value 0x44B52D02C7E14AF6) in
  let unit := bpow radix10 20 * bpow radix2 (-53) in
  window x (-20) 9007199254740990490 9007199254740991245 9007199254740991999 unit /\
  IZR 1 * bpow radix10 23 = IZR (9007199254740991999 + 1) * unit /\
  ~ within 9007199254740990490 9007199254740991999 unit (IZR 1 * bpow radix10 23) /\
  within 9007199254740990490 9007199254740991999 unit (IZR 9999999999999999 * bpow radix10 7).
Proof.
  set (u := 0x44B52D02C7E14AF6%Z). destruct (sample u eq_refl) as (A & B & C).
  assert (FP : finite_pos u) by (split; [unfold u; lia|discriminate]).
  assert (V : Rabs (double_value u) = dbl_R u).
  { rewrite double_value_neg_if by assumption. change (sign_field u) with false. cbn [neg_if]. apply Rabs_pos_eq.
    pose proof (dbl_R_pos u FP). lra. }
  rewrite V. cbn zeta. split.
  - destruct (getCachedPower_ok EvalDouble _ (norm_e_range _ FP)) as (F & E & k & G & CK & _).
    assert (G' : getCachedPower EvalDouble (norm_e u) = Ok (MkDiyFp 13611294676837538539 (-130), 20%Z)) by (vm_compute; reflexivity).
    pose proof G as G2. rewrite G' in G2. apply Ok_inj in G2. injection G2 as <- <- <-.
    pose proof (window_of u _ _ _ FP G CK) as W.
    replace (lo_of (dbl_f u) 13611294676837538539) with 9007199254740990490%Z in W by (vm_compute; reflexivity).
    replace (mid_of (dbl_f u) 13611294676837538539) with 9007199254740991245%Z in W by (vm_compute; reflexivity).
    replace (hi_of (dbl_f u) 13611294676837538539) with 9007199254740991999%Z in W by (vm_compute; reflexivity).
    exact W.
  - change (bpow radix10 20) with (IZR (10 ^ 20)). change (bpow radix10 23) with (IZR (10 ^ 23)). change (bpow radix10 7) with (IZR (10 ^ 7)).
    change (bpow radix2 (-53)) with (/ IZR (2 ^ 53)). unfold within.
    change (10 ^ 20)%Z with 100000000000000000000%Z. change (10 ^ 23)%Z with 100000000000000000000000%Z. change (10 ^ 7)%Z with 10000000%Z.
    change (2 ^ 53)%Z with 9007199254740992%Z. change (9007199254740991999 + 1)%Z with 9007199254740992000%Z. lra.
Qed.
