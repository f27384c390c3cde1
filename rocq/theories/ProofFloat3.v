(** API-level results for floating point formatting: injectivity, symmetry, notation,
    integers, shortness, independence of the environment. *)
From Coq Require Import Reals Lra Psatz.
From Flocq Require Import Core.
From Flocq Require IEEE754.Binary IEEE754.Bits.
From Flocq Require Import IEEE754.BinarySingleNaN.
From Verif Require Import Machine LibMachine SpecApi SpecDecimal SpecInt SpecNumber SpecIeee SpecString SpecJson
  ModelItoa ModelInt ModelText ModelIeee ModelDiyfp ModelDtoa
  ModelFloat ModelLexi ProofDiyfp ProofCached ProofDigits ProofGrisu ProofLayout ProofIeee ProofDtoa ProofNumber
  ProofRound ProofStrict ProofUnique ProofShort ProofApi ProofFloat ProofFloat2.
Open Scope Z_scope.
Ltac Zify.zify_post_hook ::= idtac.

(** ** Injectivity, C25 *)

Lemma double_value_inj u1 u2 : bits64 u1 -> bits64 u2 -> double_finite u1 -> double_finite u2 ->
  double_value u1 <> 0%R -> double_value u1 = double_value u2 -> u1 = u2.
Proof.
  intros H1 H2 F1 F2 N E.
  assert (N2 : double_value u2 <> 0%R) by (rewrite <- E; exact N).
  assert (X : double_of_bits u1 = double_of_bits u2).
  { apply (sf_inj 53 1024); try apply double_of_bits_valid; try (apply double_of_bits_finite; assumption).
    - rewrite !double_of_bits_value. exact E.
    - destruct (double_exclusive u1 H1) as [Y1 _]. destruct (double_exclusive u2 H2) as [Y2 _].
      rewrite (double_value_neg_if u1) in E, N by assumption. rewrite (double_value_neg_if u2) in E by assumption.
      rewrite !double_of_bits_sign by tauto. rewrite !double_sign_eq by assumption.
      assert (P : forall u, (0 <= dbl_R u)%R).
      { intros u. unfold dbl_R. apply Rmult_le_pos; [apply IZR_le, dbl_f_nonneg|apply bpow_ge_0]. }
      pose proof (P u1). pose proof (P u2). destruct (sign_field u1), (sign_field u2); cbn [neg_if] in *; try reflexivity; exfalso; apply N; lra. }
  destruct (double_exclusive u1 H1) as [Y1 _]. destruct (double_exclusive u2 H2) as [Y2 _].
  rewrite <- (bits_of_double_of_bits 0 u1), <- (bits_of_double_of_bits 0 u2) by tauto. rewrite X. reflexivity.
Qed.

Lemma infinity_inj u1 u2 s : bits64 u1 -> bits64 u2 -> double_infinity u1 s -> double_infinity u2 s -> u1 = u2.
Proof.
  intros H1 H2 I1 I2. apply double_infinity_iff in I1 as (A1 & B1 & C1); [|exact H1].
  apply double_infinity_iff in I2 as (A2 & B2 & C2); [|exact H2].
  rewrite (fields_split u1 H1), (fields_split u2 H2), A1, A2, B1, B2, C1, C2. reflexivity.
Qed.

Lemma double_injective e1 e2 u1 u2 s : e_lit e1 = default_literals -> e_lit e2 = default_literals ->
  bits64 u1 -> bits64 u2 -> ~ double_nan u1 -> ~ double_nan u2 ->
  lexi e1 (VDouble u1) = Ok s -> lexi e2 (VDouble u2) = Ok s ->
  u1 = u2 \/ (double_finite u1 /\ double_value u1 = 0%R /\ double_finite u2 /\ double_value u2 = 0%R).
Proof.
  intros HL1 HL2 H1 H2 N1 N2 L1 L2.
  (* the NaN pattern plays no part *)
  assert (Q : forall e u s, e_lit e = default_literals -> bits64 u -> ~ double_nan u -> lexi e (VDouble u) = Ok s ->
     (s = str "Infinity" <-> double_infinity u false) /\ (s = str "-Infinity" <-> double_infinity u true) /\
     (s = str "0.0" <-> double_finite u /\ double_value u = 0%R)).
  { intros e u t HL H N L.
    set (e' := Env (e_platform e) (FloatEnv (fe_ld (e_float e)) (2047 * 2 ^ 52 + 1) (fe_tc (e_float e)) (fe_lit (e_float e)))).
    assert (L' : lexi e' (VDouble u) = Ok t).
    { rewrite <- L, !lexi_double. rewrite !double_bits by exact H.
      assert (X : (exp_field u =? 2047) && negb (frac_field u =? 0) = false).
      { destruct (_ && _) eqn:X; [|reflexivity]. exfalso. apply N. apply double_nan_iff; [exact H|].
        apply andb_prop in X as [X1 X2]. split; [lia|]. apply Bool.negb_true_iff in X2. apply Z.eqb_neq in X2. exact X2. }
      rewrite X. reflexivity. }
    assert (NO : nan_ok (e_float e')).
    { cbn. split; [unfold bits64; cbn; lia|]. reflexivity. }
    destruct (special_values e' u NO HL H) as (_ & A & B & C). rewrite L' in A, B, C.
    assert (Y : forall x y : bytes, @Ok bytes x = Ok y <-> x = y).
    { intros x y; split; [intros Z0; apply Ok_inj in Z0; exact Z0|intros ->; reflexivity]. }
    rewrite Y in A, B, C. auto. }
  destruct (Q e1 u1 s HL1 H1 N1 L1) as (A1 & B1 & C1). destruct (Q e2 u2 s HL2 H2 N2 L2) as (A2 & B2 & C2).
  destruct (double_cases u1 H1) as [X|[[sg I]|[Z1|[F1 NZ1]]]]; [contradiction| | |].
  - left. apply (infinity_inj u1 u2 sg H1 H2 I). destruct sg; tauto.
  - right. tauto.
  - destruct (double_cases u2 H2) as [X|[[sg I]|[Z2|[F2 NZ2]]]]; [contradiction| | |].
    + left. apply (infinity_inj u1 u2 sg H1 H2); [destruct sg; tauto|exact I].
    + right. tauto.
    + left. destruct (double_round_trip e1 u1 s H1 F1 NZ1 L1) as (n & J & _ & _ & R1).
      destruct (double_round_trip e2 u2 s H2 F2 NZ2 L2) as (n2 & _ & U & _ & R2).
      rewrite <- (U n J) in R2. rewrite R1 in R2. apply double_value_inj; assumption.
Qed.

(** ** Sign symmetry, C26 *)

Lemma opposite_fields u : bits64 u -> sign_field u = false ->
  bits64 (u + 2 ^ 63) /\ sign_field (u + 2 ^ 63) = true /\ (u + 2 ^ 63) mod 2 ^ 63 = u mod 2 ^ 63.
Proof.
  intros H S. unfold sign_field in *. unfold bits64 in *. split; [lia|]. split; [lia|].
  rewrite <- (Z.mul_1_l (2 ^ 63)) at 1. apply Z.mod_add. lia.
Qed.

Lemma opposite_value u : bits64 u -> sign_field u = false -> double_finite u ->
  double_finite (u + 2 ^ 63) /\ double_value (u + 2 ^ 63) = (- double_value u)%R.
Proof.
  intros H S F. destruct (opposite_fields u H S) as (H' & S' & M).
  assert (E : exp_field (u + 2 ^ 63) = exp_field u /\ frac_field (u + 2 ^ 63) = frac_field u).
  { destruct (fields_mod u H) as [<- <-]. destruct (fields_mod _ H') as [<- <-]. rewrite M. auto. }
  assert (F' : double_finite (u + 2 ^ 63)).
  { apply double_finite_iff; [exact H'|]. destruct E as [-> _]. apply double_finite_iff; assumption. }
  split; [exact F'|]. rewrite !double_value_neg_if by assumption. rewrite S, S'. cbn [neg_if].
  unfold dbl_R, dbl_f, dbl_e. destruct E as [-> ->]. reflexivity.
Qed.

Lemma sign_symmetry e u : bits64 u -> double_sign u = false -> double_finite u -> double_value u <> 0%R ->
  exists u', bits64 u' /\ double_finite u' /\ double_value u' = (- double_value u)%R /\
    lexi e (VDouble u') = let* s := lexi e (VDouble u) in Ok ("-"%char :: s).
Proof.
  intros H S F N. rewrite double_sign_eq in S by exact H.
  destruct (opposite_fields u H S) as (H' & S' & M). destruct (opposite_value u H S F) as [F' V'].
  exists (u + 2 ^ 63). split; [exact H'|]. split; [exact F'|]. split; [exact V'|].
  assert (N' : double_value (u + 2 ^ 63) <> 0%R) by (rewrite V'; lra).
  rewrite !lexi_double. rewrite !double_finite_bits by assumption.
  destruct (finite_format_bits (e_float e) u H F N) as (ds & K & F0 & E & k & kap & P & G & GC & (o & D & Ho) & X & Y).
  destruct (finite_format_bits (e_float e) _ H' F' N') as (ds' & K' & F0' & E' & k' & kap' & P' & G' & GC' & (o' & D' & Ho') & X' & Y').
  rewrite M in P', G', GC'. rewrite P in P'. apply Ok_inj in P'. injection P' as <- <-.
  rewrite GC in GC'. apply Ok_inj in GC'. injection GC' as <- <- <-.
  pose proof (go_K _ _ _ _ _ _ _ G) as GK. pose proof (go_K _ _ _ _ _ _ _ G') as GK'.
  assert (kap' = kap) by lia. subst kap'. unfold sign_text in Ho, Ho'. rewrite S in Ho. rewrite S' in Ho'.
  destruct X as [X|(X & XS & XK)].
  - destruct X' as [X'|(_ & XS & XK)]; [|rewrite (Y XS XK) in X; rewrite D in X; discriminate X].
    rewrite X, X', D, D'. cbn [bind]. destruct Ho as (-> & _), Ho' as (-> & _). reflexivity.
  - rewrite X, (Y' XS XK). reflexivity.
Qed.

(** ** Notation, C27 *)

Lemma dchr_zero d : 0 <= d < 10 -> dchr d = "0"%char -> d = 0.
Proof. intros H E. destruct (Z.eq_dec d 0) as [|N]; [assumption|]. exfalso. apply (dchr_not_zero d); [lia|exact E]. Qed.

Lemma exp_digits_canonical k : 0 <= k < 1000 -> canonical_natural (map dchr (exp_digits k)) k.
Proof.
  Local Ltac Zify.zify_post_hook ::= Z.div_mod_to_equations.
  intros H. destruct (exp_digits_ok k H) as (D & NE & V).
  split; [destruct (exp_digits k); [contradiction|discriminate]|].
  split; [apply digits_map; exact D|]. split; [rewrite numeral_value_dchr by exact D; exact V|].
  intros r. unfold exp_digits. destruct (Z.leb_spec 100 k); [|destruct (Z.leb_spec 10 k)]; cbn [map]; intros E.
  - exfalso. injection E as E _. apply dchr_zero in E; lia.
  - exfalso. injection E as E _. apply dchr_zero in E; lia.
  - injection E as _ <-. reflexivity.
Qed.
Ltac Zify.zify_post_hook ::= idtac.

Lemma layout_scientific (neg : bool) ds k sg x : good_digits ds -> -1000 < Z.of_nat (length ds) + k - 1 < 1000 ->
  let n := layout_number neg ds k in n_exponent n = Some (sg, x) ->
  (exists d, n_integer n = [d] /\ d <> "0"%char) /\ (sg = [] \/ sg = ["-"%char]) /\
  n_exponent_value n = Z.of_nat (length ds) + k - 1 /\
  canonical_natural x (Z.abs (Z.of_nat (length ds) + k - 1)).
Proof.
  intros [HD (d & r & Eds & Hd)] Hk n. subst n. unfold n_exponent_value, layout_number.
  set (len := Z.of_nat (length ds)) in *.
  destruct ((_ <=? _)%Z && _) eqn:E1; [|destruct ((0 <? _)%Z && _) eqn:E2; [|destruct ((-6 <? _)%Z && _) eqn:E3]];
    cbn [n_negative n_integer n_fraction n_exponent optional]; try discriminate.
  destruct (exp_digits_ok (Z.abs (len + k - 1)) ltac:(lia)) as (X1 & _ & X3).
  pose proof (exp_digits_canonical (Z.abs (len + k - 1)) ltac:(lia)) as XC.
  assert (HX : (if list_eq_dec ascii_dec (if (len + k - 1 <? 0)%Z then ["-"%char] else []) ["-"%char]
                then - numeral_value (map dchr (exp_digits (Z.abs (len + k - 1))))
                else numeral_value (map dchr (exp_digits (Z.abs (len + k - 1)))))%Z = (len + k - 1)%Z).
  { rewrite numeral_value_dchr, X3 by exact X1.
    destruct (Z.ltb_spec (len + k - 1) 0); destruct (list_eq_dec _ _ _) as [Y|Y]; try lia.
    - exfalso. apply Y. reflexivity.
    - discriminate Y. }
  assert (Dd : 1 <= d < 10) by (rewrite Eds in HD; inversion_clear HD; unfold digit in *; lia).
  subst ds. destruct r as [|d1 r]; cbn [n_negative n_integer n_fraction n_exponent optional]; rewrite HX;
    intros Q; injection Q as <- <-;
    (split; [exists (dchr d); split; [reflexivity|apply dchr_not_zero; exact Dd]|]);
    (split; [destruct (_ <? 0); auto|]); (split; [reflexivity|exact XC]).
Qed.

Lemma layout_fraction (neg : bool) ds k : n_exponent (layout_number neg ds k) = None -> ds <> [] ->
  n_fraction (layout_number neg ds k) <> None.
Proof.
  unfold layout_number. destruct ((_ <=? _)%Z && _); [|destruct ((0 <? _)%Z && _); [|destruct ((-6 <? _)%Z && _)]];
    cbn [n_fraction n_exponent]; try discriminate.
  destruct ds as [|d [|d1 r]]; cbn [n_fraction n_exponent]; intros; congruence.
Qed.

Lemma float_notation e u s n : bits64 u -> double_finite u -> double_value u <> 0%R -> lexi e (VDouble u) = Ok s ->
  json_number s n ->
  (n_exponent n = None <-> (bpow radix10 (-6) <= n_magnitude n < bpow radix10 21)%R) /\
  (n_exponent n = None -> n_fraction n <> None) /\
  (forall sg x, n_exponent n = Some (sg, x) ->
     (exists d, n_integer n = [d] /\ d <> "0"%char) /\
     (sg = [] \/ sg = ["-"%char]) /\ canonical_natural x (Z.abs (n_exponent_value n)) /\
     (bpow radix10 (n_exponent_value n) <= n_magnitude n < bpow radix10 (n_exponent_value n + 1))%R).
Proof.
  intros H F N L J'. destruct (finite_number e u s H F N L) as (ds & K & F0 & E & k & kap & FP & G & GD & GE & Es & J & M & V & B & DV).
  rewrite (json_number_unique _ _ _ J' J). clear J' n.
  pose proof (digits_R_bounds ds K GD) as DB. rewrite M.
  pose proof (layout_fixed (sign_field u) ds K GD) as LF.
  assert (NE : ds <> []) by (destruct GD as [_ (d & r & -> & _)]; discriminate).
  split; [|split].
  - rewrite LF. set (m := Z.of_nat (length ds) + K) in *. split.
    + intros [A1 A2]. split.
      * eapply Rle_trans; [|apply DB]. apply bpow_le. lia.
      * eapply Rlt_le_trans; [apply DB|]. apply bpow_le. lia.
    + intros [A1 A2]. split.
      * apply Z.nle_gt. intros X. apply (Rlt_irrefl (bpow radix10 (-6))). eapply Rle_lt_trans; [exact A1|].
        eapply Rlt_le_trans; [apply DB|]. apply bpow_le. lia.
      * apply Z.nlt_ge. intros X. apply (Rlt_irrefl (bpow radix10 21)). eapply Rle_lt_trans; [|exact A2].
        eapply Rle_trans; [|apply DB]. apply bpow_le. lia.
  - intros X. apply layout_fraction; assumption.
  - intros sg x X. destruct (layout_scientific (sign_field u) ds K sg x GD GE X) as (A1 & A2 & A3 & A4).
    rewrite A3. split; [exact A1|]. split; [exact A2|]. split; [exact A4|].
    replace (Z.of_nat (length ds) + K - 1 + 1) with (Z.of_nat (length ds) + K) by lia. exact DB.
Qed.

(** ** Integers, C28 *)

Lemma integral_double e u s n : bits64 u -> double_finite u -> double_value u = IZR n -> 0 < Z.abs n <= 2 ^ 53 ->
  lexi e (VDouble u) = Ok s -> exists t, canonical_integer t n /\ s = t ++ str ".0".
Proof.
  intros H F En Hn L. assert (N : double_value u <> 0%R).
  { rewrite En. intros X. apply (eq_IZR n 0) in X. lia. }
  destruct (finite_number e u s H F N L) as (ds & K & F0 & E & k & kap & FP & G & GD & GE & Es & J & M & V & B & DV).
  set (v := u mod 2 ^ 63) in *. pose proof (dbl_R_pos v FP) as PV.
  rewrite En in DV.
  assert (SN : sign_field u = (n <? 0)).
  { destruct (sign_field u); cbn [neg_if] in DV; symmetry; [apply Z.ltb_lt|apply Z.ltb_ge].
    - apply lt_IZR. lra.
    - apply le_IZR. lra. }
  assert (DA : dbl_R v = IZR (Z.abs n)).
  { destruct (sign_field u); cbn [neg_if] in DV; symmetry in SN; [apply Z.ltb_lt in SN|apply Z.ltb_ge in SN].
    - rewrite Z.abs_neq, opp_IZR by lia. lra.
    - rewrite Z.abs_eq by lia. lra. }
  destruct (integer_digits v ds K F0 E k kap (Z.abs n) FP G DA Hn) as [HK HV].
  pose proof (nval_bounds ds GD) as NB. destruct GD as [HD (d & r & Eds & Hd)].
  set (len := Z.of_nat (length ds)) in *.
  assert (Hlen : 1 <= len) by (unfold len; rewrite Eds; cbn [length]; lia).
  assert (LK : len + K <= 16).
  { apply Z.nlt_ge. intros X.
    assert (A : 10 ^ (len - 1 + K) <= Z.abs n).
    { rewrite Z.pow_add_r by lia. rewrite <- HV. apply Z.mul_le_mono_nonneg_r; [apply Z.pow_nonneg; lia|lia]. }
    assert (10 ^ 16 <= 10 ^ (len - 1 + K)) by (apply Z.pow_le_mono_r; lia). lia. }
  assert (EL : layout ds K = (map dchr ds ++ zeros K) ++ str ".0").
  { unfold layout. fold len. rewrite (proj2 (Z.leb_le len (len + K))), (proj2 (Z.leb_le (len + K) 21)) by lia.
    rewrite <- app_assoc. reflexivity. }
  assert (CN : canonical_natural (map dchr ds ++ zeros K) (Z.abs n)).
  { split; [rewrite Eds; discriminate|].
    split; [apply Forall_app; split; [apply digits_map; exact HD|apply digits_zeros]|].
    split; [rewrite numeral_value_zeros, numeral_value_dchr by assumption; exact HV|].
    intros t X. rewrite Eds in X. cbn [map app] in X. injection X as X _. exfalso.
    apply (dchr_not_zero d); [|exact X]. rewrite Eds in HD. inversion_clear HD. unfold digit in *. lia. }
  rewrite EL in Es. unfold sign_text in Es. rewrite SN in Es. destruct (Z.ltb_spec n 0) as [X|X].
  - exists ("-"%char :: map dchr ds ++ zeros K). split; [|exact Es]. right. split; [exact X|].
    eexists. split; [reflexivity|]. rewrite Z.abs_neq in CN by lia. exact CN.
  - exists (map dchr ds ++ zeros K). split; [|exact Es]. left. split; [exact X|].
    rewrite Z.abs_eq in CN by lia. exact CN.
Qed.

(** ** Shortness, C29 *)

Open Scope R_scope.

Lemma lower_is_mid u : finite_pos u -> dbl_R u <> bpow radix2 (-1022) ->
  lower_R u = (dbl_R u + pred radix2 fexp64 (dbl_R u)) / 2.
Proof.
  intros H NM. destruct (finite_pos_f u H) as [Hf He]. pose proof (dbl_R_pos u H) as P.
  destruct (gap_R u) as [_ GL]. rewrite GL.
  assert (Pe : 0 < bpow radix2 (dbl_e u)) by apply bpow_gt_0.
  rewrite pred_eq_pos by lra. unfold pred_pos.
  destruct (Z.eqb_spec (dbl_f u) (2 ^ 52)) as [X|X].
  - assert (M : mag radix2 (dbl_R u) = (dbl_e u + 53)%Z :> Z).
    { unfold dbl_R. rewrite X. change (IZR (2 ^ 52)) with (bpow radix2 52). rewrite <- bpow_plus.
      rewrite mag_bpow. lia. }
    assert (B : dbl_R u = bpow radix2 (mag radix2 (dbl_R u) - 1)).
    { rewrite M. unfold dbl_R. rewrite X. change (IZR (2 ^ 52)) with (bpow radix2 52). rewrite <- bpow_plus. f_equal. lia. }
    rewrite (Req_bool_true _ _ B). rewrite M. rewrite fexp64_eq.
    assert (NE : (dbl_e u <> -1074)%Z).
    { intros Y. apply NM. rewrite B, M, Y. reflexivity. }
    assert (-1074 <= dbl_e u)%Z.
    { unfold dbl_e. pose proof (exp_field_range u). destruct (Z.eqb_spec (exp_field u) 0); lia. }
    replace (Z.max (dbl_e u + 53 - 1 - 53) (-1074))%Z with (-1 + dbl_e u)%Z by lia.
    rewrite bpow_plus. change (bpow radix2 (-1)) with (/ 2). lra.
  - assert (NB : dbl_R u <> bpow radix2 (mag radix2 (dbl_R u) - 1) \/
      (fexp64 (mag radix2 (dbl_R u) - 1) = dbl_e u)%Z).
    { destruct (Req_dec (dbl_R u) (bpow radix2 (mag radix2 (dbl_R u) - 1))) as [B|B]; [|left; exact B].
      right. pose proof (dbl_cexp u H) as C. unfold cexp in C. rewrite fexp64_eq in *.
      set (m := mag radix2 (dbl_R u)) in *.
      destruct (Z.eq_dec (dbl_e u) (-1074)) as [Y|Y].
      - rewrite Y. lia.
      - exfalso. apply X. assert (mm : (m : Z) = (dbl_e u + 53)%Z) by lia. rewrite mm in B.
        apply eq_IZR. apply Rmult_eq_reg_r with (bpow radix2 (dbl_e u)); [|lra].
        fold (dbl_R u). rewrite B. change (IZR (2 ^ 52)) with (bpow radix2 52). rewrite <- bpow_plus. f_equal. lia. }
    destruct (Req_bool_spec (dbl_R u) (bpow radix2 (mag radix2 (dbl_R u) - 1))) as [B|B].
    + destruct NB as [NB|NB]; [contradiction|]. rewrite NB. lra.
    + rewrite dbl_ulp by exact H. lra.
Qed.

Lemma lower_end_eq u : finite_pos u -> lower_end (dbl_R u) = lower_R u.
Proof.
  intros H. unfold lower_end. destruct (Req_bool_spec (dbl_R u) (bpow radix2 (-1022))) as [E|E].
  - rewrite dbl_ulp by exact H. destruct (gap_R u) as [_ ->].
    assert (X : dbl_f u = (2 ^ 52)%Z).
    { pose proof (dbl_cexp u H) as C. unfold cexp in C. rewrite E, mag_bpow, fexp64_eq in C.
      cbn in C. unfold dbl_R in E. rewrite <- C in E.
      change (bpow radix2 (-1022)) with (bpow radix2 (52 + -1074)) in E. rewrite bpow_plus in E.
      apply Rmult_eq_reg_r in E; [|pose proof (bpow_gt_0 radix2 (-1074)); lra].
      change (bpow radix2 52) with (IZR (2 ^ 52)) in E. apply eq_IZR in E. exact E. }
    rewrite (proj2 (Z.eqb_eq _ _) X). lra.
  - symmetry. apply lower_is_mid; assumption.
Qed.

Lemma near_shortest e u s n D K' : bits64 u -> double_finite u -> double_value u <> 0 -> lexi e (VDouble u) = Ok s ->
  json_number s n -> (0 < D < 10 ^ (Z.of_nat (length (significant (n_digits n))) - 1))%Z ->
  let x := Rabs (double_value u) in let margin := ulp radix2 fexp64 x / 500 in
  ~ (lower_end x + margin <= IZR D * bpow radix10 K' <= upper_end x - margin).
Proof.
  intros H F N L J' HD x margin B.
  destruct (finite_number e u s H F N L) as (ds & K & F0 & E & k & kap & FP & G & GD & GE & Es & J & M & V & Bn & DV).
  rewrite (json_number_unique _ _ _ J' J) in HD.
  pose proof (dbl_R_pos _ FP) as PV.
  assert (Ex : x = dbl_R (u mod 2 ^ 63)).
  { unfold x. rewrite DV. destruct (sign_field u); cbn [neg_if]; [rewrite Rabs_Ropp|]; apply Rabs_pos_eq; lra. }
  unfold margin in B. rewrite Ex in B. rewrite lower_end_eq in B by exact FP.
  unfold upper_end in B. rewrite <- upper_is_mid, dbl_ulp in B by exact FP.
  pose proof (layout_significant (sign_field u) ds K GD) as [LS _].
  apply (fewest_digits (u mod 2 ^ 63) ds K F0 E k kap D K' FP G).
  - split; [lia|]. eapply Z.lt_le_trans; [apply HD|]. apply Z.pow_le_mono_r; lia.
  - apply (interval_covers _ ds K F0 E k kap _ FP G B).
Qed.
