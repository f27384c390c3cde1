(** Doubles beyond 2^53 read as integers; which doubles are read back; floats and readers that round
    correctly. *)
From Coq Require Import Reals Lra Psatz Floats.SpecFloat.
From Flocq Require Import Core IEEE754.BinarySingleNaN.
From Verif Require Import Machine LibMachine SpecApi SpecDecimal SpecInt SpecNumber SpecIeee SpecRead SpecMore SpecWide
  ModelItoa ModelInt ModelText ModelIeee ModelDiyfp ModelDtoa ModelFloat ModelLexi ModelPlatforms
  ProofDiyfp ProofCached ProofDigits ProofGrisu ProofLayout ProofText ProofInt ProofIeee ProofDtoa ProofNumber
  ProofRound ProofStrict ProofUnique ProofShort ProofApi ProofFloat ProofFloat2 ProofFloat3 ProofFloat4 ProofRead ProofRead2 ProofRead3
  ProofMore ProofMore2 ProofMore3 ProofMore4 ProofMore5 ProofMore6 ProofDirected2.
Open Scope Z_scope.
Ltac Zify.zify_post_hook ::= idtac.

(** ** C59 *)
Lemma strip_zeros_split l : exists a, l = repeat "0"%char a ++ strip_zeros l.
Proof.
  induction l as [|c l IH]; [exists 0%nat; reflexivity|]. cbn [strip_zeros].
  destruct (Ascii.eqb_spec c "0"%char) as [->|N].
  - destruct IH as [a IH]. exists (S a). cbn [repeat app]. rewrite <- IH. reflexivity.
  - exists 0%nat. pose proof (strip_zeros_cons c l N) as X. cbn [strip_zeros] in X. rewrite X. reflexivity.
Qed.

Lemma significant_split l : exists a b, l = repeat "0"%char a ++ significant l ++ repeat "0"%char b.
Proof.
  destruct (strip_zeros_split l) as [a A]. destruct (strip_zeros_split (rev (strip_zeros l))) as [b B].
  exists a, b. unfold significant. rewrite A at 1. f_equal. rewrite <- (rev_involutive (strip_zeros l)) at 1. rewrite B at 1.
  rewrite rev_app_distr. f_equal. clear. induction b as [|b IH]; [reflexivity|]. cbn [repeat rev]. rewrite IH. clear.
  induction b as [|b IH]; [reflexivity|]. cbn [repeat app]. rewrite IH. reflexivity.
Qed.

Lemma significant_digits l : Forall is_digit l -> Forall is_digit (significant l) /\
  exists b, 0 <= b /\ numeral_value l = numeral_value (significant l) * 10 ^ b.
Proof.
  intros D. destruct (significant_split l) as (a & b & E). split.
  - rewrite E in D. apply Forall_app in D. destruct D as [_ D]. apply Forall_app in D. apply D.
  - exists (Z.of_nat b). split; [lia|]. rewrite E at 1.
    pose proof (numeral_value_zeros_l (significant l ++ repeat "0"%char b) (Z.of_nat a)) as A.
    pose proof (numeral_value_zeros (significant l) (Z.of_nat b) ltac:(lia)) as B.
    unfold zeros in A, B. rewrite Nat2Z.id in A, B. rewrite A. exact B.
Qed.

Lemma number_digits s n : json_number s n -> Forall is_digit (n_digits n).
Proof.
  intros (_ & _ & DI & _ & FI & _). unfold n_digits. apply Forall_app. split; [exact DI|].
  destruct (n_fraction n) as [f|]; [apply (FI f eq_refl)|constructor].
Qed.

(** A number with few significant digits is whole from some size on. *)
Lemma few_digits_whole s n k : json_number s n -> (length (significant (n_digits n)) <= k)%nat -> (1 <= k)%nat ->
  (bpow radix10 (Z.of_nat k - 1) <= n_magnitude n)%R -> exists m, n_magnitude n = IZR m.
Proof.
  intros J Lk K1 B. destruct (significant_digits _ (number_digits s n J)) as [D (b & B0 & E)].
  unfold n_magnitude in *. rewrite E in *. pose proof (numeral_value_bounds _ D) as NB.
  rewrite mult_IZR in *. assert (P : IZR (10 ^ b) = bpow radix10 b) by (rewrite <- IZR_Zpower by exact B0; reflexivity).
  rewrite P, Rmult_assoc, <- bpow_plus in *. set (c := b + n_scale n) in *. clearbody c.
  set (v := numeral_value (significant (n_digits n))) in *.
  assert (C : 0 <= c).
  { apply Z.nlt_ge. intros X.
    assert (IZR v * bpow radix10 c < bpow radix10 (Z.of_nat k - 1))%R; [|lra].
    apply Rlt_le_trans with (bpow radix10 (Z.of_nat k) * bpow radix10 c)%R.
    - apply Rmult_lt_compat_r; [apply bpow_gt_0|]. rewrite <- IZR_Zpower by lia. apply IZR_lt. apply Z.lt_le_trans with (1 := proj2 NB).
      apply Z.pow_le_mono_r; [reflexivity|lia].
    - rewrite <- bpow_plus. apply bpow_le. lia. }
  exists (v * 10 ^ c). rewrite mult_IZR. f_equal. rewrite <- IZR_Zpower by exact C. reflexivity.
Qed.

Lemma magnitude_nearest e u s n : bits64 u -> double_finite u -> lexi e (VDouble u) = Ok s -> json_number s n ->
  (0 <= n_magnitude n)%R /\ Rabs (double_value u) = nearest 53 1024 (n_magnitude n) /\
  double_value u = if n_negative n then (- Rabs (double_value u))%R else Rabs (double_value u).
Proof.
  intros H F L J. pose proof (finite_nearest e u s n H F L J) as R.
  assert (M0 : (0 <= n_magnitude n)%R).
  { unfold n_magnitude. apply Rmult_le_pos; [apply IZR_le, numeral_value_bounds, (number_digits s n J)|apply bpow_ge_0]. }
  assert (N0 : (0 <= nearest 53 1024 (n_magnitude n))%R) by (rewrite <- nearest_0; apply nearest_le; [lia|exact M0]).
  split; [exact M0|]. rewrite <- R. unfold n_value. destruct (n_negative n).
  - rewrite nearest_opp, Rabs_Ropp, Rabs_pos_eq by exact N0. auto.
  - rewrite Rabs_pos_eq by exact N0. auto.
Qed.

(** From 2^53 on the numbers printed are whole. *)
Lemma wide_whole e u s n : bits64 u -> double_finite u -> lexi e (VDouble u) = Ok s -> json_number s n ->
  (bpow radix2 53 <= Rabs (double_value u))%R -> exists m, n_magnitude n = IZR m.
Proof.
  intros H F L J B.
  assert (N : double_value u <> 0%R) by (intros X; rewrite X, Rabs_R0 in B; pose proof (bpow_gt_0 radix2 53); lra).
  destruct (magnitude_nearest e u s n H F L J) as (M0 & EA & _).
  pose proof (digit_count e u s n H F N L J) as DC.
  set (x := Rabs (double_value u)) in *.
  assert (IX : exists m, x = IZR m /\ 0 < m).
  { assert (GF : generic_format radix2 (binary_format 53 1024) x).
    { unfold x. apply generic_format_abs. unfold double_value. apply Binary.generic_format_B2R. }
    assert (M : 54 <= mag radix2 x).
    { apply mag_ge_bpow. rewrite Rabs_pos_eq by (unfold x; apply Rabs_pos). exact B. }
    exists (Ztrunc (scaled_mantissa radix2 (binary_format 53 1024) x) * 2 ^ cexp radix2 (binary_format 53 1024) x).
    assert (C : 0 <= cexp radix2 (binary_format 53 1024) x) by (unfold cexp, binary_format, FLT_exp; lia).
    assert (E : x = IZR (Ztrunc (scaled_mantissa radix2 (binary_format 53 1024) x) * 2 ^ cexp radix2 (binary_format 53 1024) x)).
    { rewrite mult_IZR. rewrite GF at 1. unfold F2R. cbn [Fnum Fexp]. f_equal. rewrite <- IZR_Zpower by exact C. reflexivity. }
    split; [exact E|]. apply lt_IZR. rewrite <- E. pose proof (bpow_gt_0 radix2 53). lra. }
  destruct IX as (X & EX & X0).
  assert (P15 : (bpow radix10 15 <= bpow radix2 53)%R).
  { rewrite <- !IZR_Zpower by lia. apply IZR_le. vm_compute. discriminate. }
  assert (E15 : nearest 53 1024 (bpow radix2 53) = bpow radix2 53).
  { apply nearest_exact; [lia|]. apply generic_format_bpow. cbn. lia. }
  assert (F16 : generic_format radix2 (binary_format 53 1024) (bpow radix10 16)).
  { apply generic_format_FLT. exists (Float radix2 (5 ^ 16) 16); [|reflexivity|cbn; lia].
    unfold F2R. cbn [Fnum Fexp]. rewrite <- !IZR_Zpower, <- mult_IZR by lia. reflexivity. }
  destruct (Z.lt_ge_cases X (10 ^ 16)) as [S|S].
  - apply (few_digits_whole s n 16 J); [|lia|].
    + apply (exact_decimal_digits e u s n X 0 16 H F N L J); [fold x; rewrite EX; change (bpow radix10 0) with 1%R; ring|]. exact (conj X0 S).
    + change (Z.of_nat 16 - 1) with 15. destruct (Rle_or_lt (bpow radix10 15) (n_magnitude n)) as [Q|Q]; [exact Q|exfalso].
      assert (F15 : generic_format radix2 (binary_format 53 1024) (bpow radix10 15)).
      { apply generic_format_FLT. exists (Float radix2 (5 ^ 15) 15); [|reflexivity|cbn; lia].
        unfold F2R. cbn [Fnum Fexp]. rewrite <- !IZR_Zpower, <- mult_IZR by lia. reflexivity. }
      apply Rlt_le, (nearest_le 53 1024) in Q; [|lia]. rewrite <- EA, nearest_exact in Q by (lia || exact F15).
      assert (bpow radix10 15 < bpow radix2 53)%R by (rewrite <- !IZR_Zpower by lia; apply IZR_lt; reflexivity). lra.
  - destruct (Z.eq_dec X (10 ^ 16)) as [Y|Y].
    + apply (few_digits_whole s n 16 J); [|lia|].
      * apply Nat.le_trans with 1%nat; [|lia]. apply (exact_decimal_digits e u s n 1 16 1 H F N L J); [|lia]. fold x. rewrite EX, Y, Rmult_1_l, <- IZR_Zpower by lia. reflexivity.
      * change (Z.of_nat 16 - 1) with 15. destruct (Rle_or_lt (bpow radix10 15) (n_magnitude n)) as [Q|Q]; [exact Q|exfalso].
        assert (Q1 : (n_magnitude n <= bpow radix2 53)%R) by lra.
        apply (nearest_le 53 1024) in Q1; [|lia]. rewrite <- EA, E15, EX, Y in Q1.
        revert Q1. apply Rlt_not_le. rewrite <- IZR_Zpower by lia. apply IZR_lt. reflexivity.
    + apply (few_digits_whole s n 17 J); [lia|lia|]. change (Z.of_nat 17 - 1) with 16.
      destruct (Rle_or_lt (bpow radix10 16) (n_magnitude n)) as [Q|Q]; [exact Q|exfalso].
      apply Rlt_le, (nearest_le 53 1024) in Q; [|lia]. rewrite <- EA, nearest_exact in Q by (lia || exact F16).
      rewrite EX, <- IZR_Zpower in Q by lia. apply le_IZR in Q. change (radix10 ^ 16) with (10 ^ 16) in Q. lia.
Qed.

Lemma double_wide e point t u s n : platform_ok (e_platform e) -> bits64 u -> double_finite u ->
  lexi e (VDouble u) = Ok s -> json_number s n -> n_exponent n = None -> (bpow radix2 53 <= Rabs (double_value u))%R ->
  (if int_signed t then (Rabs (double_value u) < bpow radix2 (int_bits (e_platform e) t - 1))%R
   else (0 <= double_value u < bpow radix2 (int_bits (e_platform e) t))%R) ->
  exists r, extract e point (TInt t) s = Ok (XInt r) /\ has_int_type (e_platform e) t r /\ nearest 53 1024 (IZR r) = double_value u.
Proof.
  intros HP H F L J NX B RG. destruct (wide_whole e u s n H F L J B) as [m Em].
  destruct (magnitude_nearest e u s n H F L J) as (M0 & EA & SV).
  pose proof (integer_part_bounds s n J NX) as [M1 M2]. set (d := numeral_value (n_integer n)) in *.
  assert (Ed : d = m). { rewrite Em in M1, M2. apply le_IZR in M1. apply lt_IZR in M2. lia. }
  destruct (number_as_integer e point t s n HP J) as (r & X & T & G). cbv zeta in G. fold d in G. rewrite Ed in *.
  assert (m0 : 0 <= m) by (apply le_IZR; rewrite <- Em; exact M0).
  assert (BP : forall k, 0 <= k <= 64 -> (Rabs (double_value u) < bpow radix2 k)%R -> m < 2 ^ k).
  { intros k Hk Q. apply Z.nle_gt. intros Y. apply IZR_le in Y.
    apply (nearest_le 53 1024) in Y; [|lia]. rewrite <- Em, <- EA in Y.
    change (2 ^ k) with (radix2 ^ k) in Y. rewrite IZR_Zpower in Y by lia.
    rewrite nearest_exact in Y; [lra|lia|]. apply generic_format_bpow. unfold binary_format, FLT_exp. lia. }
  assert (W : 8 <= int_bits (e_platform e) t <= 64).
  { destruct HP as [[W|[W _]] _]; destruct t; cbn [int_bits]; lia. }
  assert (I : has_int_type (e_platform e) t (if n_negative n then - m else m) /\ m <= 2 ^ 64 - 1).
  { unfold has_int_type. destruct (int_signed t).
    - pose proof (BP (int_bits (e_platform e) t - 1) ltac:(lia) RG) as Q. assert (2 ^ (int_bits (e_platform e) t - 1) <= 2 ^ 64) by (apply Z.pow_le_mono_r; lia).
      destruct (n_negative n); lia.
    - assert (NN : n_negative n = false).
      { destruct (n_negative n); [|reflexivity]. pose proof (bpow_gt_0 radix2 53). lra. }
      rewrite NN in *. rewrite SV in RG.
      pose proof (BP (int_bits (e_platform e) t) ltac:(lia) (proj2 RG)) as Q.
      assert (2 ^ int_bits (e_platform e) t <= 2 ^ 64) by (apply Z.pow_le_mono_r; lia). lia. }
  destruct I as [I I2]. rewrite (proj2 (Z.ltb_ge _ _)) in G by lia.
  exists r. split; [exact X|]. split; [exact T|].
  assert (ER : r = if n_negative n then - m else m).
  { set (v := if n_negative n then - m else m) in *. clearbody v. destruct G as [q G]. unfold has_int_type in T, I.
    set (b := int_bits (e_platform e) t) in *.
    destruct (int_signed t).
    - assert (2 ^ b = 2 * 2 ^ (b - 1)) by (rewrite <- (Z.pow_succ_r 2 (b - 1)) by lia; f_equal; lia). assert (q = 0) by nia. nia.
    - assert (q = 0) by nia. nia. }
  rewrite ER, SV, EA, Em. destruct (n_negative n); [rewrite opp_IZR; apply nearest_opp|reflexivity].
Qed.

(** ** C20 for floats *)
Lemma float_round_trip e u s : nan_ok (e_float e) -> bits32 u -> float_finite u -> float_value u <> 0%R -> lexi e (VFloat u) = Ok s ->
  exists n, json_number s n /\ (forall n', json_number s n' -> n' = n) /\
    strictly_nearest 24 128 (float_value u) (n_value n) /\ nearest 24 128 (n_value n) = float_value u.
Proof.
  intros HN B F N L. destruct (float_printed e u HN B) as (w & Hw & _ & E & _ & _ & FW). destruct (FW F) as (Fw & Vw & Sw).
  pose proof L as L'. rewrite E in L'. destruct (double_round_trip e w s Hw Fw ltac:(rewrite Vw; exact N) L') as (n & J & U & SN & _).
  exists n. split; [exact J|]. split; [exact U|]. split; [|exact (float_prints e u s n HN B F N L J)].
  rewrite Vw in SN. split; [apply float_value_facts|]. intros y Fy Ny. apply (proj2 SN); [|exact Ny].
  apply (format_incl 24 128 53 1024); [lia|lia|exact Fy].
Qed.

(** ** C30 *)
Open Scope R_scope.

Lemma half_odd z : Z.even z = false -> ZnearestE (IZR z + / 2) <> z /\ ZnearestE (IZR z - / 2) <> z.
Proof.
  intros E.
  assert (F1 : Zfloor (IZR z + / 2) = z) by (apply Zfloor_imp; rewrite plus_IZR; lra).
  assert (C1 : Zceil (IZR z + / 2) = (z + 1)%Z).
  { apply Zceil_imp. rewrite minus_IZR, plus_IZR. lra. }
  assert (F2 : Zfloor (IZR z - / 2) = (z - 1)%Z) by (apply Zfloor_imp; rewrite plus_IZR, minus_IZR; lra).
  split; unfold Znearest.
  - rewrite F1, C1. rewrite Rcompare_Eq by lra. rewrite E. cbn [negb]. lia.
  - rewrite F2. rewrite Rcompare_Eq by (rewrite minus_IZR; lra). rewrite Z.even_sub, E. cbn. lia.
Qed.

Lemma round_half u v b : finite_pos u -> Z.even (dbl_f u) = false ->
  v = (IZR (dbl_f u) + (if b : bool then / 2 else - / 2)) * bpow radix2 (dbl_e u) -> nearest 53 1024 v <> dbl_R u.
Proof.
  intros H Od E X. pose proof (bpow_gt_0 radix2 (dbl_e u)) as Pb.
  assert (N52 : dbl_f u <> (2 ^ 52)%Z) by (intros Y; rewrite Y in Od; discriminate Od).
  assert (CE : cexp radix2 fexp64 v = dbl_e u).
  { apply near_cexp; [exact H|exact N52|]. rewrite E, plus_IZR, minus_IZR. destruct b; nra. }
  unfold nearest, round, scaled_mantissa in X. rewrite CE in X.
  replace (v * bpow radix2 (- dbl_e u)) with (IZR (dbl_f u) + (if b then / 2 else - / 2)) in X.
  2:{ rewrite E, bpow_opp. field. lra. }
  unfold F2R, dbl_R in X. cbn [Fnum Fexp] in X. apply Rmult_eq_reg_r in X; [|lra]. apply eq_IZR in X.
  destruct (half_odd _ Od) as [O1 O2]. destruct b; [exact (O1 X)|exact (O2 X)].
Qed.

Lemma midpoints u : finite_pos u -> Z.even (dbl_f u) = false ->
  (dbl_R u + pred radix2 fexp64 (dbl_R u)) / 2 = (IZR (dbl_f u) - / 2) * bpow radix2 (dbl_e u) /\
  (dbl_R u + succ radix2 fexp64 (dbl_R u)) / 2 = (IZR (dbl_f u) + / 2) * bpow radix2 (dbl_e u).
Proof.
  intros H Od. assert (N52 : dbl_f u <> (2 ^ 52)%Z) by (intros Y; rewrite Y in Od; discriminate Od).
  destruct (gap_R u) as [GU GL]. rewrite (proj2 (Z.eqb_neq _ _) N52) in GL.
  split; [|rewrite <- upper_is_mid by exact H; rewrite GU; unfold dbl_R; lra].
  pose proof (dbl_R_pos u H) as P. pose proof (bpow_gt_0 radix2 (dbl_e u)) as Pb.
  assert (CE : cexp radix2 fexp64 (dbl_R u) = dbl_e u).
  { apply near_cexp; [exact H|exact N52|]. unfold dbl_R. rewrite plus_IZR, minus_IZR. nra. }
  assert (PR : pred radix2 fexp64 (dbl_R u) = dbl_R u - bpow radix2 (dbl_e u)).
  { rewrite pred_eq_pos by lra. unfold pred_pos. destruct (Req_bool_spec (dbl_R u) (bpow radix2 (mag radix2 (dbl_R u) - 1))) as [Q|Q].
    - assert (ME : (dbl_e u <= mag radix2 (dbl_R u) - 1)%Z).
      { apply (le_bpow radix2). rewrite <- Q. unfold dbl_R. destruct (finite_pos_f u H) as [Hf _].
        rewrite <- (Rmult_1_l (bpow radix2 (dbl_e u))) at 1. apply Rmult_le_compat_r; [lra|]. apply IZR_le. lia. }
      f_equal. f_equal. unfold cexp in CE. rewrite fexp64_eq in *.
      unfold dbl_R at 1 in Q. set (k := (mag radix2 (dbl_R u) - 1)%Z) in *.
      assert (KM : (mag radix2 (dbl_R u) : Z) = (k + 1)%Z) by (unfold k; lia). rewrite KM in CE. clearbody k.
      replace k with ((k - dbl_e u) + dbl_e u)%Z in Q by lia. rewrite bpow_plus in Q. apply Rmult_eq_reg_r in Q; [|lra].
      rewrite <- IZR_Zpower in Q by lia. apply eq_IZR in Q.
      destruct (Z.eq_dec (k - dbl_e u) 0) as [Y|Y]; [lia|].
      exfalso. rewrite Q in Od. change (Z.even (2 ^ (k - dbl_e u)) = false) in Od. rewrite Z.even_pow in Od by lia. discriminate Od.
    - rewrite ulp_neq_0 by lra. rewrite CE. reflexivity. }
  rewrite PR. unfold dbl_R. lra.
Qed.

Lemma odd_significand u : bits64 u -> Z.even u = false -> Z.even (dbl_f (u mod 2 ^ 63)) = false.
Proof.
  intros H Ev. unfold bits64 in H. unfold dbl_f.
  assert (X : Z.even (frac_field (u mod 2 ^ 63)) = false).
  { unfold frac_field. rewrite <- Znumtheory.Zmod_div_mod; [|lia|lia|exists (2 ^ 11)%Z; reflexivity].
    rewrite (Z.div_mod u (2 ^ 52)) in Ev by lia. rewrite Z.even_add, Z.even_mul in Ev.
    change (Z.even (2 ^ 52)) with true in Ev. cbn [orb] in Ev.
    destruct (Z.even (u mod 2 ^ 52)); [discriminate Ev|reflexivity]. }
  destruct (_ =? _)%Z; [exact X|]. rewrite Z.even_add, X. reflexivity.
Qed.

(** Exactly: an odd double is not read back if the long double is halfway. *)
Lemma double_read_iff e u s : bits64 u -> double_finite u -> double_value u <> 0 -> lexi e (VDouble u) = Ok s ->
  exists y z, extract e "."%char TLongDouble s = Ok (XFloating y) /\ extract e "."%char TDouble s = Ok (XFloating z) /\
    is_finite_SF y = true /\
    (~ same_double z u <->
     let x := Rabs (double_value u) in
     Z.even u = false /\
     (Rabs (SF2R radix2 y) = (x + pred radix2 fexp64 x) / 2 \/ Rabs (SF2R radix2 y) = (x + succ radix2 fexp64 x) / 2)).
Proof.
  intros H Fi N L. destruct (double_read_or_tie e u s H Fi N L) as (y0 & z0 & Ey0 & Ez0 & Fy0 & T).
  exists y0, z0. split; [exact Ey0|]. split; [exact Ez0|]. split; [exact Fy0|]. cbv zeta in *.
  destruct (read_between e u s H Fi N L) as (y & ds & K & F & E & k & kap & FP & G & DV & Bn & Ey & Ry & Fy & B & (z & Ez & Rz) & _).
  rewrite Ey in Ey0. injection Ey0 as <-. rewrite Ez in Ez0. injection Ez0 as <-. split.
  - intros NS. split; [|tauto]. destruct (Z.even u) eqn:Ev; [|reflexivity]. exfalso.
    destruct (double_read_exact e u s H Fi N L (or_intror Ev)) as (z' & Ez' & S). rewrite Ez in Ez'. injection Ez' as <-. exact (NS S).
  - intros [Od TI] S. pose proof (odd_significand u H Od) as O. destruct (midpoints _ FP O) as [M1 M2].
    assert (EX : Rabs (double_value u) = dbl_R (u mod 2 ^ 63)).
    { rewrite DV. apply Rabs_neg_if. apply Rlt_le, dbl_R_pos, FP. }
    rewrite EX, M1, M2 in TI.
    assert (NV : nearest 53 1024 (Rabs (SF2R radix2 y)) = dbl_R (u mod 2 ^ 63)).
    { destruct S as (_ & FZ & VZ & _). destruct Rz as [_ RZ]. set (v := SF2R radix2 y) in *.
      destruct (Rlt_bool (Rabs (nearest 53 1024 v)) (bpow radix2 1024)) eqn:RB.
      - destruct RZ as (RZ & _). rewrite <- EX, <- VZ, RZ. unfold Rabs at 1. destruct (Rcase_abs v) as [Q|Q].
        + rewrite nearest_opp. rewrite Rabs_left1; [reflexivity|]. rewrite <- nearest_0. apply nearest_le; [lia|lra].
        + rewrite Rabs_pos_eq; [reflexivity|]. rewrite <- nearest_0. apply nearest_le; [lia|lra].
      - destruct z; try discriminate FZ; discriminate RZ. }
    destruct TI as [TI|TI].
    + revert NV. apply (round_half _ _ false FP O). exact TI.
    + revert NV. apply (round_half _ _ true FP O). exact TI.
Qed.

(** ** C56 *)
Open Scope Z_scope.

Lemma whole_double e u s n i : bits64 u -> double_finite u -> lexi e (VDouble u) = Ok s -> json_number s n ->
  double_value u = IZR i -> Z.abs i <= 2 ^ 53 -> n_value n = IZR i.
Proof.
  intros H F L J E B. destruct (Z.eq_dec i 0) as [->|N].
  - rewrite lexi_zero in L by assumption. apply Ok_inj in L. subst s. exact (zero_number n J).
  - destruct (integral_double e u s i H F E ltac:(lia) L) as (t & C & ->).
    assert (V : forall r m b, canonical_natural r m -> n = Number b r (Some (str "0")) None -> n_value n = if b : bool then (- IZR m)%R else IZR m).
    { intros r m b (_ & D & <- & _) ->. unfold n_value, n_magnitude, n_digits, n_scale, n_exponent_value. cbn [n_negative n_integer n_fraction n_exponent optional].
      change (Z.of_nat (length (str "0"))) with 1. change (0 - 1) with (-1).
      rewrite numeral_value_app. change (numeral_value (str "0")) with 0. change (10 ^ Z.of_nat (length (str "0"))) with 10.
      rewrite Z.add_0_r, mult_IZR. change (bpow radix10 (-1)) with (/ 10)%R. destruct b; field. }
    destruct C as [[P C]|[P (r & -> & C)]].
    + apply (V t i false C). exact (json_number_unique _ _ _ J (point_zero_number t i C false)).
    + rewrite (V r (- i) true C); [rewrite opp_IZR; lra|]. exact (json_number_unique _ _ _ J (point_zero_number r (- i) C true)).
Qed.

Lemma text_of_integer e t v s n : platform_ok (e_platform e) -> has_int_type (e_platform e) t v -> lexi e (VInt t v) = Ok s -> json_number s n ->
  n_value n = IZR v.
Proof.
  intros HP HV L J. destruct (integer_formats e t v HP HV) as (s' & L' & _ & _ & _ & C). rewrite L in L'. apply Ok_inj in L'. subst s'.
  destruct (canonical_number s v C) as (n' & J' & NF & NE & DV & SV). rewrite (json_number_unique _ _ _ J J').
  unfold n_value, n_magnitude, n_scale, n_exponent_value. rewrite NF, NE, DV, SV. cbn [optional length].
  change (bpow radix10 (0 - Z.of_nat 0)) with 1%R. rewrite Rmult_1_r. destruct (Z.ltb_spec v 0).
  - rewrite <- opp_IZR. f_equal. lia.
  - f_equal. lia.
Qed.

(** A float or double is printed as a double; an integer has its own text. *)
Lemma stands_cases e v x s n : nan_ok (e_float e) -> platform_ok (e_platform e) -> stands_for e v x -> lexi e v = Ok s -> json_number s n ->
  (exists w, bits64 w /\ double_finite w /\ x = double_value w /\ lexi e (VDouble w) = Ok s) \/
  (exists i, Z.abs i <= 2 ^ 53 /\ x = IZR i /\ n_value n = IZR i).
Proof.
  intros HN HP S L J. destruct v as [| | |t i|bits|bits| | | | | ]; try contradiction S; destruct S as (S1 & S2 & ->).
  - right. exists i. split; [exact S2|]. split; [reflexivity|]. eapply text_of_integer; eassumption.
  - left. destruct (float_printed e bits HN S1) as (w & Hw & _ & E & _ & _ & FW). destruct (FW S2) as (Fw & Vw & _).
    exists w. rewrite <- E. auto.
  - left. exists bits. auto.
Qed.

Lemma whole_nearest i : Z.abs i <= 2 ^ 53 -> nearest 53 1024 (IZR i) = IZR i.
Proof.
  intros B. apply nearest_exact; [lia|]. destruct (Z.eq_dec (Z.abs i) (2 ^ 53)) as [E|E]; [|apply integer_format; lia].
  assert (X : IZR i = bpow radix2 53 \/ IZR i = (- bpow radix2 53)%R).
  { change (bpow radix2 53) with (IZR (2 ^ 53)). rewrite <- opp_IZR. destruct (Z.abs_eq_or_opp i) as [Q|Q]; [left|right]; f_equal; lia. }
  destruct X as [->| ->]; [|apply generic_format_opp]; apply generic_format_bpow; cbn; lia.
Qed.

Lemma types_order e v1 v2 x1 x2 s1 s2 n1 n2 : nan_ok (e_float e) -> platform_ok (e_platform e) ->
  stands_for e v1 x1 -> stands_for e v2 x2 -> lexi e v1 = Ok s1 -> lexi e v2 = Ok s2 -> json_number s1 n1 -> json_number s2 n2 ->
  (x1 < x2 <-> n_value n1 < n_value n2)%R /\ (x1 = x2 <-> n_value n1 = n_value n2).
Proof.
  intros HN HP S1 S2 L1 L2 J1 J2.
  pose proof (stands_cases e v1 x1 s1 n1 HN HP S1 L1 J1) as C1. pose proof (stands_cases e v2 x2 s2 n2 HN HP S2 L2 J2) as C2.
  destruct C1 as [(w1 & B1 & F1 & -> & M1)|(i1 & B1 & -> & M1)], C2 as [(w2 & B2 & F2 & -> & M2)|(i2 & B2 & -> & M2)].
  - eapply texts_order; eassumption.
  - assert (E : double_value w1 = IZR i2 -> n_value n1 = IZR i2) by (intros E; eapply whole_double; eassumption).
    pose proof (finite_nearest e w1 s1 n1 B1 F1 M1 J1) as R. pose proof (whole_nearest i2 B2) as Q. rewrite M2.
    pose proof (nearest_le 53 1024 (n_value n1) (IZR i2) ltac:(lia)) as A. pose proof (nearest_le 53 1024 (IZR i2) (n_value n1) ltac:(lia)) as B.
    rewrite R, Q in A, B. split; split; intros; lra.
  - assert (E : double_value w2 = IZR i1 -> n_value n2 = IZR i1) by (intros E; eapply whole_double; eassumption).
    pose proof (finite_nearest e w2 s2 n2 B2 F2 M2 J2) as R. pose proof (whole_nearest i1 B1) as Q. rewrite M1.
    pose proof (nearest_le 53 1024 (n_value n2) (IZR i1) ltac:(lia)) as A. pose proof (nearest_le 53 1024 (IZR i1) (n_value n2) ltac:(lia)) as B.
    rewrite R, Q in A, B. split; split; intros; lra.
  - rewrite M1, M2. split; reflexivity.
Qed.

(** Beyond 2^53 an integer can be above a double while its text is below that of the double. *)
Lemma integer_order_refuted : exists i u s1 s2, has_int_type (e_platform (linux_x86_64 zero_memory)) LLong i /\ bits64 u /\ double_finite u /\
  (double_value u < IZR i)%R /\
  lexi (linux_x86_64 zero_memory) (VInt LLong i) = Ok s1 /\ lexi (linux_x86_64 zero_memory) (VDouble u) = Ok s2 /\
  s1 = str "1152921504606846977" /\ s2 = str "1152921504606847000.0".
Proof.
  exists (2 ^ 60 + 1), 0x43B0000000000000, (str "1152921504606846977"), (str "1152921504606847000.0").
  split; [split; [discriminate|reflexivity]|]. split; [split; [discriminate|reflexivity]|].
  split; [apply double_of_bits_finite; vm_compute; reflexivity|]. split.
  { rewrite <- double_of_bits_value. change (double_of_bits 0x43B0000000000000) with (S754_finite false (2 ^ 52) 8).
    change (SF2R radix2 (S754_finite false (2 ^ 52) 8)) with (IZR (2 ^ 52) * bpow radix2 8)%R.
    rewrite <- IZR_Zpower, <- mult_IZR by lia. apply IZR_lt. reflexivity. }
  split; [vm_compute; reflexivity|]. split; [vm_compute; reflexivity|]. split; reflexivity.
Qed.

(** Texts are read as the double the value is rounded to. *)
Lemma text_rounds e v x s n : nan_ok (e_float e) -> platform_ok (e_platform e) -> number_of e v x -> lexi e v = Ok s -> json_number s n ->
  nearest 53 1024 (n_value n) = nearest 53 1024 x.
Proof.
  intros HN HP S L J. assert (D : forall w, bits64 w -> double_finite w -> lexi e (VDouble w) = Ok s ->
    nearest 53 1024 (n_value n) = nearest 53 1024 (double_value w)).
  { intros w B F M. pose proof (finite_nearest e w s n B F M J) as R. rewrite R. symmetry.
    rewrite <- R. apply nearest_exact; [lia|]. unfold nearest. apply generic_format_round; [apply fexp_correct; reflexivity|apply valid_rnd_N]. }
  destruct v as [| | |t i|bits|bits| | | | | ]; try contradiction S.
  - destruct S as (S1 & ->). rewrite (text_of_integer e t i s n); auto.
  - destruct S as (S1 & S2 & ->). destruct (float_printed e bits HN S1) as (w & Hw & _ & E & _ & _ & FW). destruct (FW S2) as (Fw & Vw & _).
    rewrite <- Vw. apply D; auto. rewrite <- E. exact L.
  - destruct S as (S1 & S2 & ->). apply D; auto.
Qed.

Lemma types_order_rounded e v1 v2 x1 x2 s1 s2 n1 n2 : nan_ok (e_float e) -> platform_ok (e_platform e) ->
  number_of e v1 x1 -> number_of e v2 x2 -> nearest 53 1024 x1 <> nearest 53 1024 x2 ->
  lexi e v1 = Ok s1 -> lexi e v2 = Ok s2 -> json_number s1 n1 -> json_number s2 n2 ->
  (x1 < x2 <-> n_value n1 < n_value n2)%R.
Proof.
  intros HN HP S1 S2 D L1 L2 J1 J2.
  pose proof (text_rounds e v1 x1 s1 n1 HN HP S1 L1 J1) as R1. pose proof (text_rounds e v2 x2 s2 n2 HN HP S2 L2 J2) as R2.
  pose proof (nearest_le 53 1024 x1 x2 ltac:(lia)) as A. pose proof (nearest_le 53 1024 x2 x1 ltac:(lia)) as B.
  pose proof (nearest_le 53 1024 (n_value n1) (n_value n2) ltac:(lia)) as C. pose proof (nearest_le 53 1024 (n_value n2) (n_value n1) ltac:(lia)) as E.
  rewrite R1, R2 in C, E. split; intros H; apply Rnot_le_lt; intros H'; lra.
Qed.
