(** The rounding direction does not matter to the formatting of doubles, C77. *)
From Coq Require Import Reals Lra Psatz Floats.SpecFloat.
From Flocq Require Import Core IEEE754.BinarySingleNaN.
From Verif Require Import Machine LibMachine SpecNumber SpecIeee SpecRead SpecRounding ModelIeee ModelDiyfp ModelDtoa ModelFloat ModelRounding
  ProofDiyfp ProofCached ProofDigits ProofGrisu ProofIeee ProofRound ProofStrtod ProofDtoa ProofSigned.
Open Scope Z_scope.
Ltac Zify.zify_post_hook ::= idtac.

Lemma neighbour_error p x y : 53 <= p -> neighbour p x y -> (Rabs (y - x) <= Rabs x * / 10 ^ 15)%R.
Proof.
  intros Hp H. assert (P0 : 0 < p) by lia.
  assert (V : Valid_exp (FLX_exp p)) by (apply FLX_exp_valid; exact P0).
  assert (B : (Rabs (y - x) <= ulp radix2 (FLX_exp p) x)%R).
  { destruct H as [-> | ->]; apply error_le_ulp; auto with typeclass_instances. }
  assert (U : (ulp radix2 (FLX_exp p) x <= Rabs x * bpow radix2 (1 - p))%R) by (apply ulp_FLX_le; exact P0).
  assert (Q : (bpow radix2 (1 - p) <= / 10 ^ 15)%R).
  { apply Rle_trans with (bpow radix2 (-52)); [apply bpow_le; lia|]. cbn [bpow].
    change (Z.pow_pos radix2 52) with 4503599627370496. lra. }
  pose proof (Rabs_pos x). eapply Rle_trans; [exact B|]. eapply Rle_trans; [exact U|].
  apply Rmult_le_compat_l; assumption.
Qed.

Lemma neighbour_0 p y : neighbour p 0 y -> y = 0%R.
Proof. intros [-> | ->]; apply round_0; auto with typeclass_instances. Qed.

Lemma neighbour_format p x y : 0 < p -> generic_format radix2 (FLX_exp p) x -> neighbour p x y -> y = x.
Proof.
  intros Hp G [-> | ->]; apply round_generic; auto with typeclass_instances.
Qed.

Lemma format_347 p : 53 <= p -> generic_format radix2 (FLX_exp p) 347.
Proof.
  intros H. apply generic_format_FLX. exists (Float radix2 347 0).
  - unfold F2R. cbn. lra.
  - cbn [Fnum]. apply Z.lt_le_trans with (2 ^ 53); [reflexivity|]. change (radix_val radix2) with 2; apply Z.pow_le_mono_r; lia.
Qed.

(** The value is within 10^-6 of the exact one, and exact when that is 347. *)
Lemma expression_close e dk : -1137 <= e <= 960 -> value_of_expression e dk ->
  (Rabs (SF2R radix2 dk - (IZR (-61 - e) * (30102999566398114 / 10 ^ 17) + 347)) < / 10 ^ 6)%R /\
  (e = -61 -> SF2R radix2 dk = 347%R).
Proof.
  intros He (_ & _ & p1 & p2 & p3 & c & t & s & H1 & H2 & H3 & Hc & Ht & Hs & Hd).
  split.
  - set (x := IZR (-61 - e)) in *. assert (Hx : (-1100 <= x <= 1100)%R) by (split; apply IZR_le; lia).
    clearbody x. set (v := SF2R radix2 dk) in *. clearbody v.
    apply neighbour_error in Hc; [|exact H1]. rewrite (Rabs_pos_eq (30102999566398114 / _)) in Hc by lra.
    assert (Ec : (Rabs (c - 30102999566398114 / 10 ^ 17) <= / 10 ^ 15)%R) by lra.
    apply Rabs_le_inv in Ec. clear Hc.
    assert (Xc : (Rabs (x * c - x * (30102999566398114 / 10 ^ 17)) <= 1100 * / 10 ^ 15)%R).
    { rewrite <- Rmult_minus_distr_l, Rabs_mult. apply Rmult_le_compat; try apply Rabs_pos; apply Rabs_le; lra. }
    assert (Xb : (Rabs (x * c) <= 400)%R).
    { rewrite Rabs_mult. replace 400%R with (1100 * (400 / 1100))%R by field.
      apply Rmult_le_compat; try apply Rabs_pos; apply Rabs_le; lra. }
    assert (Et : (Rabs (t - x * c) <= 400 * / 10 ^ 15)%R).
    { destruct Ht as [-> |Ht].
      - unfold Rminus. rewrite Rplus_opp_r, Rabs_R0. lra.
      - apply neighbour_error in Ht; [|exact H2]. lra. }
    apply neighbour_error in Hs; [|exact H3]. apply neighbour_error in Hd; [|lia].
    apply Rabs_le_inv in Xc, Xb, Et.
    assert (St : (Rabs (t + 347) <= 800)%R) by (apply Rabs_le; lra).
    assert (Es : (Rabs (s - (t + 347)) <= 800 * / 10 ^ 15)%R) by lra. apply Rabs_le_inv in Es, St.
    assert (Sb : (Rabs s <= 900)%R) by (apply Rabs_le; lra).
    assert (Ed : (Rabs (v - s) <= 900 * / 10 ^ 15)%R) by lra. apply Rabs_le_inv in Ed, Sb.
    apply Rabs_lt. lra.
  - intros ->. assert (T : t = 0%R).
    { replace (IZR (-61 - -61)) with 0%R in Ht by reflexivity. rewrite Rmult_0_l in Ht.
      destruct Ht as [-> |Ht]; [reflexivity|exact (neighbour_0 _ _ Ht)]. }
    subst t. rewrite Rplus_0_l in Hs. apply neighbour_format in Hs; [|lia|apply format_347; exact H3]. subst s.
    apply neighbour_format in Hd; [exact Hd|lia|apply format_347; lia].
Qed.

(** ** From the value to the index *)

Lemma small_int_double n : 0 <= n <= 2 ^ 52 ->
  SpecFloat.valid_binary 53 1024 (SpecFloat.binary_normalize 53 1024 n 0 false) = true /\
  is_finite_SF (SpecFloat.binary_normalize 53 1024 n 0 false) = true /\
  SF2R radix2 (SpecFloat.binary_normalize 53 1024 n 0 false) = IZR n.
Proof.
  intros H. destruct n as [|p|p]; [cbn; auto| |lia].
  destruct (binary_normalize_rounded 53 1024 false p 0 double_good) as [V R]. cbn [cond_Zopp] in V, R.
  assert (X : F2R (Float radix2 (Zpos p) 0) = IZR (Zpos p)) by (unfold F2R; cbn [Fnum Fexp bpow]; apply Rmult_1_r).
  rewrite X in R. rewrite nearest_exact in R by (try apply small_format; lia).
  rewrite Rlt_bool_true in R; [tauto|].
  rewrite Rabs_pos_eq by (apply IZR_le; lia). apply Rle_lt_trans with (bpow radix2 52); [|apply bpow_lt; lia].
  cbn [bpow]. change (Z.pow_pos radix2 52) with (2 ^ 52). apply IZR_le. lia.
Qed.

Lemma SFeqb_value a b : SpecFloat.valid_binary 53 1024 a = true -> SpecFloat.valid_binary 53 1024 b = true ->
  is_finite_SF a = true -> is_finite_SF b = true ->
  SFeqb a b = Req_bool (SF2R radix2 a) (SF2R radix2 b).
Proof.
  intros Va Vb Fa Fb. unfold SFeqb.
  pose proof (BinarySingleNaN.Bcompare_correct 53 1024 (SF2B a Va) (SF2B b Vb)) as H.
  rewrite !is_finite_SF2B, !B2R_SF2B in H. specialize (H Fa Fb).
  unfold BinarySingleNaN.Bcompare in H. rewrite !B2SF_SF2B in H. rewrite H.
  destruct (Rcompare_spec (SF2R radix2 a) (SF2R radix2 b)).
  - rewrite Req_bool_false; [reflexivity|lra].
  - rewrite Req_bool_true; [reflexivity|assumption].
  - rewrite Req_bool_false; [reflexivity|lra].
Qed.

Lemma truncated m e (v : R) : v = SF2R radix2 (S754_finite false m e) -> (v < 2 ^ 30)%R ->
  exists t, int_of_double (S754_finite false m e) = Ok t /\ 0 <= t < 2 ^ 30 /\ (IZR t <= v < IZR t + 1)%R.
Proof.
  intros E B. rewrite SF2R_finite in E. unfold F2R in E. cbn [Fnum Fexp cond_Zopp] in E.
  unfold int_of_double. cbv zeta.
  set (t := if 0 <=? e then Zpos m * 2 ^ e else Zpos m / 2 ^ (- e)).
  assert (T : 0 <= t /\ (IZR t <= v < IZR t + 1)%R).
  { unfold t. destruct (Z.leb_spec 0 e).
    - split; [apply Z.mul_nonneg_nonneg; [lia|apply Z.pow_nonneg; lia]|].
      rewrite mult_IZR. change 2 with (radix_val radix2). rewrite IZR_Zpower by lia. rewrite E. lra.
    - assert (P : 0 < 2 ^ (- e)) by (apply Z.pow_pos_nonneg; lia).
      split; [apply Z.div_pos; lia|].
      pose proof (Z.div_mod (Zpos m) (2 ^ (- e)) ltac:(lia)) as D. pose proof (Z.mod_pos_bound (Zpos m) (2 ^ (- e)) P) as M.
      set (q := Zpos m / 2 ^ (- e)) in *. set (r := Zpos m mod 2 ^ (- e)) in *.
      assert (W : (IZR (Zpos m) = v * IZR (2 ^ (- e)))%R).
      { change 2 with (radix_val radix2). rewrite IZR_Zpower by lia. rewrite E, Rmult_assoc, <- bpow_plus.
        replace (e + - e) with 0 by lia. cbn [bpow]. lra. }
      assert (PR : (0 < IZR (2 ^ (- e)))%R) by (apply IZR_lt; exact P).
      assert (L1 : (IZR (2 ^ (- e)) * IZR q <= v * IZR (2 ^ (- e)))%R) by (rewrite <- W, <- mult_IZR; apply IZR_le; lia).
      assert (L2 : (v * IZR (2 ^ (- e)) < IZR (2 ^ (- e)) * (IZR q + 1))%R).
      { rewrite <- W, <- plus_IZR, <- mult_IZR. apply IZR_lt. lia. }
      split.
      + apply Rmult_le_reg_r with (IZR (2 ^ (- e))); [exact PR|]. rewrite (Rmult_comm (IZR q)). exact L1.
      + apply Rmult_lt_reg_r with (IZR (2 ^ (- e))); [exact PR|]. rewrite (Rmult_comm (IZR q + 1)). exact L2. }
  clearbody t. destruct T as [T0 T1].
  assert (T2 : t < 2 ^ 30).
  { apply lt_IZR. change (IZR (2 ^ 30)) with 1073741824%R. change (2 ^ 30)%R with (2 ^ 30)%R in B. lra. }
  exists t. rewrite (proj2 (Z.leb_le _ _)), (proj2 (Z.ltb_lt _ _)) by lia. cbn [andb]. auto.
Qed.

(** The index is computed from the ceiling of the value. *)
Lemma value_ceiling dk n : SpecFloat.valid_binary 53 1024 dk = true -> is_finite_SF dk = true ->
  0 < n < 1000 -> (IZR n - 1 < SF2R radix2 dk <= IZR n)%R ->
  exists t, int_of_double dk = Ok t /\ (if int_neq_double t dk then t + 1 else t) = n.
Proof.
  intros V F Hn B.
  assert (N1 : (IZR n - 1 = IZR (n - 1))%R) by (rewrite minus_IZR; reflexivity).
  assert (N0 : (0 <= IZR (n - 1))%R) by (apply IZR_le; lia). assert (N2 : (IZR n <= 1000)%R) by (apply IZR_le; lia).
  destruct dk as [s|s| |s m e]; try discriminate F; [cbn [SF2R] in B; lra|].
  destruct s.
  { exfalso. rewrite SF2R_finite in B. unfold F2R in B. cbn [Fnum Fexp cond_Zopp] in B.
    pose proof (bpow_gt_0 radix2 e). assert (X : (IZR (- Zpos m) < 0)%R) by (apply IZR_lt; lia). nra. }
  destruct (truncated m e _ eq_refl) as (t & I & T & R); [lra|]. exists t. split; [exact I|].
  destruct (small_int_double t) as (V2 & F2 & E2); [lia|].
  unfold int_neq_double. rewrite SFeqb_value, E2 by assumption.
  set (v := SF2R radix2 _) in *. clearbody v.
  destruct (Req_bool_spec (IZR t) v) as [X|X]; cbn [negb].
  - assert (n - 1 < t) by (apply lt_IZR; lra). assert (t <= n) by (apply le_IZR; lra). lia.
  - assert (t < n) by (apply lt_IZR; lra). assert (n - 1 < t + 1) by (apply lt_IZR; rewrite plus_IZR; lra). lia.
Qed.

(** The ceiling of the exact value, with some room on both sides. *)
Lemma ceiling_room x m : -1021 <= x <= 1076 -> x <> 0 -> ceil_check x m = true ->
  (IZR m - 1 + / 10 ^ 6 < IZR x * (30102999566398114 / 10 ^ 17) < IZR m - / 10 ^ 6)%R.
Proof.
  intros H N C. unfold ceil_check in C.
  assert (X : 0 < x /\ 789 * x + 1 <= 2621 * m /\ 2136 * (m - 1) + 1 <= 643 * x \/
              x < 0 /\ 643 * x + 1 <= 2136 * m /\ 2621 * (m - 1) + 1 <= 789 * x).
  { destruct (Z.leb_spec 0 x); apply andb_true_iff in C; destruct C as [C1 C2].
    - left. split; [lia|]. split; [|lia]. destruct (Z.eq_dec (789 * x) (2621 * m)) as [E|]; [|lia]. exfalso.
      assert (D : (2621 | 789 * x)) by (exists m; lia).
      apply Z.gauss in D; [|reflexivity]. destruct D as [q Q]. lia.
    - right. split; [lia|]. split; [|lia]. destruct (Z.eq_dec (643 * x) (2136 * m)) as [E|]; [|lia]. exfalso.
      assert (D : (2136 | 643 * x)) by (exists m; lia).
      apply Z.gauss in D; [|reflexivity]. destruct D as [q Q]. lia. }
  assert (HX : (-1021 <= IZR x <= 1076)%R) by (split; apply IZR_le; lia).
  destruct X as [(X1 & X2 & X3)|(X1 & X2 & X3)]; apply IZR_le in X2, X3; apply IZR_lt in X1;
    repeat rewrite ?plus_IZR, ?mult_IZR, ?minus_IZR in X2; repeat rewrite ?plus_IZR, ?mult_IZR, ?minus_IZR in X3; lra.
Qed.

Lemma same_power ev e dk : -1137 <= e <= 960 -> value_of_expression e dk -> r_getCachedPower dk = getCachedPower ev e.
Proof.
  intros He HV. destruct (expression_close e dk He HV) as [C1 C2]. destruct HV as (V & F & _).
  pose proof (index_check_at e He) as C. unfold index_check in C.
  destruct (kk_of EvalDouble e) as [kk| | |] eqn:K1; try discriminate.
  destruct (kk_of EvalFused e) as [kk2| | |] eqn:K2; try discriminate.
  destruct (kk_of EvalExtended e) as [kk3| | |] eqn:K3; try discriminate.
  repeat rewrite andb_true_iff in C. destruct C as [[[[[[D1 D2] D3] D4] D5] _] _].
  assert (kk2 = kk) by lia. assert (kk3 = kk) by lia. subst kk2 kk3.
  assert (K : kk_of ev e = Ok kk) by (destruct ev; assumption).
  assert (RK : 0 <= kk < 688).
  { split; [lia|]. pose proof (Z.div_mod kk 8 ltac:(lia)). pose proof (Z.mod_pos_bound kk 8 ltac:(lia)). lia. }
  clear K1 K2 K3 D1 D2 D3 D4.
  assert (B : 0 < kk /\ (IZR kk - 1 < SF2R radix2 dk <= IZR kk)%R).
  { destruct (Z.eq_dec e (-61)) as [-> |N].
    - rewrite C2 by reflexivity. change (-61 - -61) with 0 in D5. unfold ceil_check in D5.
      change (0 <=? 0) with true in D5. cbv iota in D5. apply andb_true_iff in D5. destruct D5 as [D5 D6].
      assert (kk = 347) by lia. subst kk. split; [lia|lra].
    - assert (R : (IZR (kk - 347) - 1 + / 10 ^ 6 < IZR (-61 - e) * (30102999566398114 / 10 ^ 17) < IZR (kk - 347) - / 10 ^ 6)%R)
        by (apply ceiling_room; [lia|lia|exact D5]).
      apply Rabs_lt_inv in C1. rewrite minus_IZR in R. split; [|lra].
      assert (HX : (-1021 <= IZR (-61 - e))%R) by (apply IZR_le; lia). apply lt_IZR. lra. }
  destruct (value_ceiling dk kk V F ltac:(lia) (proj2 B)) as (t & I & T).
  unfold r_getCachedPower, getCachedPower. rewrite I. cbn [bind]. rewrite T.
  unfold kk_of in K. destruct (int_of_double (cached_dk ev e)) as [n| | |]; cbn [bind] in *; try discriminate.
  injection K as ->. reflexivity.
Qed.

Lemma r_grisu2_same tc dk u b base : finite_pos u -> (forall e, -1137 <= e <= 960 -> value_of_expression e (dk e)) ->
  r_grisu2 tc dk u b base = grisu2 tc u b base.
Proof.
  intros H HV. destruct (finite_pos_f u H) as [Hf _]. pose proof (norm_e_range u H) as Hn.
  unfold r_grisu2, grisu2. rewrite DiyFp_of_double_eq, normalizedBoundaries_ok by exact Hf. cbn [bind de].
  fold (norm_e u). rewrite (same_power (tc_eval tc) _ _ Hn (HV _ Hn)). reflexivity.
Qed.

Lemma r_dtoa_same tc dk u c : bits64 u -> double_finite u -> (forall e, -1137 <= e <= 960 -> value_of_expression e (dk e)) ->
  r_dtoa tc dk u c = dtoa tc u c.
Proof.
  intros H F HV. apply double_finite_iff in F; [|exact H].
  unfold r_dtoa, dtoa. destruct (double_is_zero u) eqn:Z0; [reflexivity|].
  apply bind_cong. intros [c' v] E.
  assert (FP : finite_pos v).
  { unfold double_is_zero in Z0. apply Z.eqb_neq in Z0. unfold double_is_negative in E.
    unfold double_is_zero in E. rewrite (proj2 (Z.eqb_neq _ _) Z0) in E. cbn [negb] in E. rewrite andb_true_r in E.
    assert (M : finite_pos (u mod 2 ^ 63)) by (apply abs_finite; assumption).
    destruct (Z.leb_spec (2 ^ 63) u).
    - destruct put; cbn [bind] in E; try discriminate. injection E as _ <-.
      rewrite negate_spec by (unfold bits64 in *; lia). exact M.
    - injection E as _ <-. unfold bits64 in H. rewrite Z.mod_small in M by lia. exact M. }
  rewrite r_grisu2_same by assumption. reflexivity.
Qed.

(** ** The five rounding directions of IEEE 754 *)

Lemma int_double m x : Z.abs x <= 2 ^ 52 -> B2R (ieee_int m x) = IZR x /\ is_finite (ieee_int m x) = true.
Proof.
  intros H. unfold ieee_int. pose proof (binary_normalize_correct 53 1024 eq_refl eq_refl m x 0 false) as C.
  assert (X : F2R (Float radix2 x 0) = IZR x) by (unfold F2R; cbn [Fnum Fexp bpow]; apply Rmult_1_r).
  cbv zeta in C. rewrite X in C. rewrite round_generic in C.
  - rewrite Rlt_bool_true in C; [tauto|].
    rewrite <- abs_IZR. apply Rle_lt_trans with (bpow radix2 52); [|apply bpow_lt; lia].
    cbn [bpow]. change (Z.pow_pos radix2 52) with (2 ^ 52). apply IZR_le. lia.
  - destruct m; auto with typeclass_instances.
  - apply (small_format x). lia.
Qed.

Lemma literal_double : B2R ieee_literal = (5422874305198590 / 18014398509481984)%R /\ is_finite ieee_literal = true.
Proof.
  unfold ieee_literal. pose proof (binary_normalize_correct 53 1024 eq_refl eq_refl mode_NE 5422874305198590 (-54) false) as C.
  assert (X : F2R (Float radix2 5422874305198590 (-54)) = (5422874305198590 / 18014398509481984)%R) by reflexivity.
  cbv zeta in C. rewrite round_generic in C.
  - rewrite X in C. rewrite Rlt_bool_true in C; [tauto|].
    rewrite Rabs_pos_eq by lra. apply Rlt_trans with 1%R; [lra|]. change 1%R with (bpow radix2 0). apply bpow_lt. lia.
  - auto with typeclass_instances.
  - apply generic_format_FLT. exists (Float radix2 5422874305198590 (-54)); [reflexivity|reflexivity|].
    vm_compute. discriminate.
Qed.

Lemma literal_neighbour : neighbour 53 (30102999566398114 / 10 ^ 17) (5422874305198590 / 18014398509481984).
Proof.
  assert (CE : cexp radix2 (FLX_exp 53) (30102999566398114 / 10 ^ 17) = -54).
  { unfold cexp. rewrite (mag_unique radix2 _ (-1)); [reflexivity|].
    rewrite Rabs_pos_eq by lra. change (bpow radix2 (-1 - 1)) with (/ 4)%R. change (bpow radix2 (-1)) with (/ 2)%R. lra. }
  assert (SM : scaled_mantissa radix2 (FLX_exp 53) (30102999566398114 / 10 ^ 17) =
               (30102999566398114 / 10 ^ 17 * 18014398509481984)%R).
  { unfold scaled_mantissa. rewrite CE. reflexivity. }
  unfold neighbour, round. rewrite CE, SM.
  right. rewrite (Zceil_imp 5422874305198590); [reflexivity|]. split; [rewrite minus_IZR|]; lra.
Qed.

Lemma neighbour_FLT m x : (bpow radix2 (-1022) <= Rabs x)%R \/ x = 0%R ->
  neighbour 53 x (round radix2 (SpecFloat.fexp 53 1024) (round_mode m) x).
Proof.
  intros H. assert (E : round radix2 (SpecFloat.fexp 53 1024) (round_mode m) x = round radix2 (FLX_exp 53) (round_mode m) x).
  { destruct H as [H| ->].
    - apply (round_FLT_FLX radix2 (-1074) 53). exact H.
    - rewrite !round_0; auto with typeclass_instances; destruct m; auto with typeclass_instances. }
  rewrite E. apply round_DN_or_UP. destruct m; auto with typeclass_instances.
Qed.

Lemma neighbour_self p x y : 0 < p -> neighbour p x y -> neighbour p y y.
Proof.
  intros P H. assert (G : generic_format radix2 (FLX_exp p) y).
  { destruct H as [-> | ->]; apply generic_format_round; auto with typeclass_instances; apply FLX_exp_valid; exact P. }
  left. symmetry. apply round_generic; auto with typeclass_instances.
Qed.

Lemma ieee_value m e : -1137 <= e <= 960 -> value_of_expression e (ieee_expression m e).
Proof.
  intros He. unfold ieee_expression.
  set (x := -61 - e). assert (Hx : -1021 <= x <= 1076) by (unfold x; lia).
  assert (XR : (-1021 <= IZR x <= 1076)%R) by (split; apply IZR_le; lia).
  destruct (int_double m x) as [X1 X2]; [lia|]. destruct (int_double m 347) as [Y1 Y2]; [lia|].
  destruct literal_double as [L1 L2]. pose proof literal_neighbour as LN.
  set (c := (5422874305198590 / 18014398509481984)%R) in *.
  assert (CB : (0.301 < c < 0.302)%R) by (unfold c; lra). clearbody c.
  pose proof (@Bmult_correct 53 1024 eq_refl eq_refl m (ieee_int m x) ieee_literal) as M.
  rewrite X1, L1, X2, L2 in M.
  assert (N1 : neighbour 53 (IZR x * c) (round radix2 (SpecFloat.fexp 53 1024) (round_mode m) (IZR x * c))).
  { apply neighbour_FLT. destruct (Z.eq_dec x 0) as [-> |N]; [right; apply Rmult_0_l|left].
    rewrite Rabs_mult, (Rabs_pos_eq c) by lra. apply Rle_trans with (bpow radix2 (-2)); [apply bpow_le; lia|].
    change (bpow radix2 (-2)) with (/ 4)%R. assert (1 <= Rabs (IZR x))%R by (rewrite <- abs_IZR; apply IZR_le; lia). nra. }
  assert (XC : (Rabs (IZR x * c) <= 330)%R) by (apply Rabs_le; nra).
  pose proof (neighbour_error 53 _ _ (Z.le_refl 53) N1) as E1.
  set (t := round radix2 (SpecFloat.fexp 53 1024) (round_mode m) (IZR x * c)) in *.
  assert (TE : (Rabs (t - IZR x * c) <= / 1000)%R) by lra.
  assert (TB : (-310 <= t <= 330)%R) by (apply Rabs_le_inv in TE; nra).
  rewrite Rlt_bool_true in M.
  2:{ apply Rle_lt_trans with (bpow radix2 10); [|apply bpow_lt; lia]. change (bpow radix2 10) with 1024%R. apply Rabs_le. lra. }
  destruct M as (M1 & M2 & _). cbn [andb] in M2.
  pose proof (@Bplus_correct 53 1024 eq_refl eq_refl m _ _ M2 Y2) as P. rewrite M1, Y1 in P.
  assert (N2 : neighbour 53 (t + 347) (round radix2 (SpecFloat.fexp 53 1024) (round_mode m) (t + 347))).
  { apply neighbour_FLT. left. rewrite Rabs_pos_eq by lra. apply Rle_trans with (bpow radix2 0); [apply bpow_le; lia|].
    change (bpow radix2 0) with 1%R. lra. }
  pose proof (neighbour_error 53 _ _ (Z.le_refl 53) N2) as E2. rewrite (Rabs_pos_eq (t + 347)) in E2 by lra.
  set (s := round radix2 (SpecFloat.fexp 53 1024) (round_mode m) (t + 347)) in *.
  assert (SE : (Rabs (s - (t + 347)) <= / 1000)%R) by lra. apply Rabs_le_inv in SE.
  rewrite Rlt_bool_true in P.
  2:{ apply Rle_lt_trans with (bpow radix2 10); [|apply bpow_lt; lia]. change (bpow radix2 10) with 1024%R. apply Rabs_le. lra. }
  destruct P as (P1 & P2 & _).
  split; [apply valid_binary_B2SF|]. split; [rewrite is_finite_SF_B2SF; exact P2|].
  exists 53, 53, 53, c, t, s. rewrite SF2R_B2SF, P1.
  repeat split; try lia; try assumption.
  - right. exact N1.
  - apply (neighbour_self 53 (t + 347)); [lia|exact N2].
Qed.

Lemma r_dtoa_modes tc m u c : bits64 u -> double_finite u -> r_dtoa tc (ieee_expression m) u c = dtoa tc u c.
Proof. intros H F. apply r_dtoa_same; try assumption. apply ieee_value. Qed.

(** The three evaluations of ModelDtoa are covered by the same program. *)
Lemma r_dtoa_model tc u c : r_dtoa tc (cached_dk (tc_eval tc)) u c = dtoa tc u c.
Proof. reflexivity. Qed.
