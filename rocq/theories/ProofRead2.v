(** What the library reads back from its own floating point texts. *)
From Coq Require Import Reals Lra Psatz Floats.SpecFloat.
From Flocq Require Import Core Relative.
From Flocq Require IEEE754.Binary IEEE754.Bits.
From Flocq Require Import IEEE754.BinarySingleNaN.
From Verif Require Import Machine LibMachine SpecApi SpecDecimal SpecInt SpecNumber SpecIeee SpecString SpecJson SpecRead
  ModelItoa ModelInt ModelText ModelIeee ModelDiyfp ModelDtoa
  ModelFloat ModelLexi ModelPlatforms ProofDiyfp ProofCached ProofDigits ProofGrisu ProofLayout ProofText ProofInt ProofIeee ProofDtoa ProofNumber
  ProofRound ProofStrict ProofUnique ProofShort ProofApi ProofFloat ProofFloat2 ProofFloat3 ProofFloat4 ProofRead.
Open Scope Z_scope.
Ltac Zify.zify_post_hook ::= idtac.

(** ** Extraction of floating point types, C37 *)

Lemma float_extracts e point s v : point_ok point -> reads point s v ->
  exists y, read_as (ld_prec (fe_ld (e_float e))) (ld_emax (fe_ld (e_float e))) v y /\
    extract e point TLongDouble s = Ok (XFloating y) /\
    (exists z, extract e point TDouble s = Ok (XFloating z) /\ narrowed 53 1024 y z) /\
    (exists z, extract e point TFloat s = Ok (XFloating z) /\ narrowed 24 128 y z).
Proof.
  intros PO R. exists (strtold (ld_prec (fe_ld (e_float e))) (ld_emax (fe_ld (e_float e))) point s).
  split; [apply strtold_reads; [apply ld_good|exact PO|exact R]|]. split; [reflexivity|]. split.
  - eexists. split; [reflexivity|]. apply convert_narrowed. exact double_good.
  - eexists. split; [reflexivity|]. apply convert_narrowed. exact float_good.
Qed.

Lemma float_extracts_cstr e point s : extract_cstr e point TDouble s = extract e point TDouble s /\
  extract_cstr e point TFloat s = extract e point TFloat s /\ extract_cstr e point TLongDouble s = extract e point TLongDouble s.
Proof.
  assert (X : c_str_of (c_str_of s) = c_str_of s).
  { destruct (c_str_of_parts s) as (u & _ & F & _). rewrite <- (app_nil_r (c_str_of s)) at 1. apply c_str_of_cut; auto. }
  unfold extract_cstr, extract, ExtractFloat, strtold. rewrite X. auto.
Qed.

(** ** JSON numbers are read as themselves *)

Lemma dot_ok : point_ok "."%char.
Proof.
  unfold point_ok, is_hex_digit, is_digit, is_sign, letter. cbn.
  repeat split; try lia; intros X; repeat destruct X as [X|X]; try discriminate X; lia.
Qed.

Definition whole_number (n : number) : denoted := DDecimal (n_negative n) (numeral_value (n_digits n)) (n_scale n).
Definition integer_part (n : number) : denoted := DDecimal (n_negative n) (numeral_value (n_integer n)) 0.

Lemma json_reads_at point s n : point_ok point -> json_number s n ->
  reads point s (match n_fraction n with
                 | Some _ => if ascii_dec point "."%char then whole_number n else integer_part n
                 | None => whole_number n
                 end).
Proof.
  intros PO J. pose proof (json_number_not_nul s n J) as NN.
  destruct J as ((ec & Ee & E) & NI & DI & LZ & DF & DX).
  set (x := optional (fun x => ec :: fst x ++ snd x) (n_exponent n)) in *.
  set (r := n_integer n ++ optional (fun f => "."%char :: f) (n_fraction n) ++ x).
  set (sg := if n_negative n then ["-"%char] else []).
  assert (R0 : exists d q, r = d :: q /\ is_digit d).
  { unfold r. destruct (n_integer n) as [|d q]; [contradiction NI; reflexivity|]. inversion DI; subst. cbn [app]. eauto. }
  destruct R0 as (d & q & Er & Dd).
  assert (NX : ~ starts_with is_digit x).
  { unfold x. destruct (n_exponent n) as [[a b]|]; [|auto]. cbn. unfold is_digit. destruct Ee as [->| ->]; cbn; lia. }
  assert (PE : ec <> point).
  { intros ->. destruct PO as (_ & PH & _). apply PH. right. destruct Ee as [->| ->]; cbn; lia. }
  exists s, [], [], sg, r. split; [rewrite app_nil_r; reflexivity|]. split; [exact NN|]. split; [auto|].
  split; [exact E|]. split; [constructor|]. split.
  { unfold sg. rewrite Er. destruct (n_negative n); cbn; unfold is_space, is_digit in *; cbn; lia. }
  split; [unfold sg, a_sign; destruct (n_negative n); auto|]. split.
  { intros _. rewrite Er. cbn. apply digit_not_sign. exact Dd. }
  assert (SG : (if list_eq_dec ascii_dec sg ["-"%char] then true else false) = n_negative n).
  { unfold sg. destruct (n_negative n); reflexivity. }
  rewrite SG.
  assert (NH : ~ begins_hex point r).
  { intros (c & q2 & E2 & LX & _). unfold r in E2.
    destruct (n_integer n) as [|a i] eqn:EI; [contradiction NI; reflexivity|]. cbn [app] in E2. injection E2 as -> E2.
    specialize (LZ i eq_refl). subst i. cbn [app] in E2.
    assert (NC : forall b l, c :: q2 = b :: l -> b <> "."%char /\ b <> "e"%char /\ b <> "E"%char).
    { intros b l X. injection X as <- _. destruct LX as [->|LX]; [repeat split; discriminate|].
      repeat split; intros ->; cbn in LX; lia. }
    destruct (n_fraction n) as [f|].
    + cbn [optional app] in E2. symmetry in E2. apply NC in E2. tauto.
    + cbn [optional app] in E2. unfold x in E2. destruct (n_exponent n) as [[a b]|]; [|discriminate E2].
      cbn [optional] in E2. symmetry in E2. apply NC in E2. destruct Ee; tauto. }
  assert (BM : begins_mantissa is_digit point r) by (left; rewrite Er; exact Dd).
  assert (EX : exponent_part "e" x (n_exponent_value n)).
  { unfold n_exponent_value, x. destruct (n_exponent n) as [[a b]|] eqn:EX; cbn [optional fst snd].
    + destruct (DX a b eq_refl) as (S & Nb & Db). left. exists ec, a, b, []. rewrite app_nil_r.
      split; [reflexivity|]. split; [unfold letter; destruct Ee as [->| ->]; [left; reflexivity|right; reflexivity]|].
      split; [exact S|]. split; [exact Nb|]. split; [exact Db|]. split; [auto|]. reflexivity.
    + right. split; [reflexivity|]. intros (m & a & b & X & _). discriminate X. }
  assert (WH : n_fraction n = None \/ point = "."%char -> subject point (n_negative n) r (whole_number n)).
  { intros C. split; [reflexivity|]. split; [exact NH|]. split; [exact BM|].
    exists (n_integer n), (optional (fun f => f) (n_fraction n)), x, (n_exponent_value n).
    split; [|split; [reflexivity|split; [exact EX|reflexivity]]].
    split; [exact DI|]. split; [destruct (n_fraction n) as [f|]; [apply (DF f); reflexivity|constructor]|].
    split; [exact NX|]. unfold r. destruct (n_fraction n) as [f|]; cbn [optional].
    * right. destruct C as [C| ->]; [discriminate C|]. reflexivity.
    * left. split; [reflexivity|]. split; [reflexivity|]. unfold x. destruct (n_exponent n) as [[a b]|]; [|auto].
      exact PE. }
  destruct (n_fraction n) as [f|] eqn:NF; [|apply WH; auto].
  destruct (ascii_dec point "."%char) as [C|C]; [apply WH; auto|].
  split; [reflexivity|]. split; [exact NH|]. split; [exact BM|].
  exists (n_integer n), [], ("."%char :: f ++ x), 0. split; [|split; [rewrite app_nil_r; reflexivity|split; [|reflexivity]]].
  - split; [exact DI|]. split; [constructor|]. split; [cbn; unfold is_digit; cbn; lia|]. left.
    split; [reflexivity|]. split; [reflexivity|]. cbn. congruence.
  - right. split; [reflexivity|]. intros (m & a & b & X & LM & _). injection X as <- _.
    destruct LM as [LM|LM]; [discriminate LM|cbn in LM; lia].
Qed.

Lemma json_reads s n : json_number s n -> reads "."%char s (whole_number n).
Proof. intros J. pose proof (json_reads_at "."%char s n dot_ok J) as R. destruct (n_fraction n); exact R. Qed.

Lemma signed_value n : signed (n_negative n) (IZR (numeral_value (n_digits n)) * bpow radix10 (n_scale n)) = n_value n.
Proof. reflexivity. Qed.

Lemma number_extracts e s n : json_number s n ->
  exists y, rounded (ld_prec (fe_ld (e_float e))) (ld_emax (fe_ld (e_float e))) y (n_negative n) (n_value n) /\
    extract e "."%char TLongDouble s = Ok (XFloating y) /\
    (exists z, extract e "."%char TDouble s = Ok (XFloating z) /\ narrowed 53 1024 y z) /\
    (exists z, extract e "."%char TFloat s = Ok (XFloating z) /\ narrowed 24 128 y z).
Proof.
  intros J. destruct (float_extracts e "." s _ dot_ok (json_reads s n J)) as (y & A & B). exists y.
  split; [exact A|exact B].
Qed.

(** ** Rounding near a double *)

Open Scope R_scope.

Lemma near_cexp u y : finite_pos u -> dbl_f u <> (2 ^ 52)%Z ->
  IZR (dbl_f u - 1) * bpow radix2 (dbl_e u) < y < IZR (dbl_f u + 1) * bpow radix2 (dbl_e u) ->
  cexp radix2 fexp64 y = dbl_e u.
Proof.
  intros H N [L U]. destruct (finite_pos_f u H) as [Hf He]. unfold cexp. rewrite fexp64_eq.
  assert (Pf : 0 <= IZR (dbl_f u - 1)) by (apply IZR_le; lia). pose proof (bpow_gt_0 radix2 (dbl_e u)) as Pb.
  assert (Py : 0 < y) by nra.
  assert (D : dbl_e u = (-1074)%Z \/ (2 ^ 52 < dbl_f u)%Z).
  { unfold dbl_e, dbl_f in *. pose proof (Z.mod_pos_bound u (2 ^ 52) ltac:(lia)) as F. fold (frac_field u) in F.
    destruct (Z.eqb_spec (exp_field u) 0) as [E|E]; [left; auto|right; lia]. }
  assert (Hm : (mag radix2 y <= dbl_e u + 53)%Z).
  { apply mag_le_bpow; [lra|]. rewrite Rabs_pos_eq by lra. rewrite Z.add_comm, bpow_plus.
    eapply Rlt_le_trans; [exact U|]. apply Rmult_le_compat_r; [lra|].
    change (bpow radix2 53) with (IZR (2 ^ 53)). apply IZR_le. lia. }
  destruct D as [E|D]; [lia|].
  assert (Hm2 : (dbl_e u + 53 <= mag radix2 y)%Z); [|lia].
  apply mag_ge_bpow. rewrite Rabs_pos_eq by lra.
  replace (dbl_e u + 53 - 1)%Z with (52 + dbl_e u)%Z by lia. rewrite bpow_plus.
  eapply Rle_trans; [|apply Rlt_le, L]. apply Rmult_le_compat_r; [lra|].
  change (bpow radix2 52) with (IZR (2 ^ 52)). apply IZR_le. lia.
Qed.

Lemma half_even z : Z.even z = true -> ZnearestE (IZR z + / 2) = z /\ ZnearestE (IZR z - / 2) = z.
Proof.
  intros E.
  assert (F1 : Zfloor (IZR z + / 2) = z) by (apply Zfloor_imp; rewrite plus_IZR; lra).
  assert (F2 : Zfloor (IZR z - / 2) = (z - 1)%Z) by (apply Zfloor_imp; rewrite plus_IZR, minus_IZR; lra).
  assert (C2 : Zceil (IZR z - / 2) = z) by (apply Zceil_imp; rewrite minus_IZR; lra).
  split; unfold Znearest.
  - rewrite F1. rewrite Rcompare_Eq by lra. rewrite E. reflexivity.
  - rewrite F2, C2. rewrite Rcompare_Eq by (rewrite minus_IZR; lra). rewrite Z.even_sub, E. reflexivity.
Qed.

(** At the very ends of the interval, an even double is still chosen. *)
Lemma upper_even u : finite_pos u -> Z.even (dbl_f u) = true -> nearest 53 1024 (upper_R u) = dbl_R u.
Proof.
  intros H Ev. destruct (gap_R u) as [E _]. pose proof (bpow_gt_0 radix2 (dbl_e u)) as Pb.
  assert (CE : cexp radix2 fexp64 (upper_R u) = dbl_e u).
  { destruct (finite_pos_f u H) as [Hf He].
    destruct (Z.eq_dec (dbl_f u) (2 ^ 52)) as [X|X].
    - unfold cexp. rewrite fexp64_eq.
      assert (M : mag radix2 (upper_R u) = (dbl_e u + 53)%Z :> Z); [|lia].
      apply mag_unique_pos. rewrite E. unfold dbl_R. rewrite X.
      replace (dbl_e u + 53 - 1)%Z with (52 + dbl_e u)%Z by lia. rewrite (Z.add_comm (dbl_e u)), !bpow_plus.
      change (bpow radix2 52) with 4503599627370496. change (bpow radix2 53) with 9007199254740992.
      change (IZR (2 ^ 52)) with 4503599627370496. nra.
    - apply near_cexp; [exact H|exact X|]. rewrite E. unfold dbl_R. rewrite plus_IZR, minus_IZR. nra. }
  unfold nearest, round, scaled_mantissa. rewrite CE.
  replace (upper_R u * bpow radix2 (- dbl_e u)) with (IZR (dbl_f u) + / 2).
  - rewrite (proj1 (half_even _ Ev)). reflexivity.
  - rewrite E. unfold dbl_R. rewrite bpow_opp. field. lra.
Qed.

Lemma lower_even u : finite_pos u -> Z.even (dbl_f u) = true -> nearest 53 1024 (lower_R u) = dbl_R u.
Proof.
  intros H Ev. destruct (gap_R u) as [_ E]. pose proof (bpow_gt_0 radix2 (dbl_e u)) as Pb.
  destruct (finite_pos_f u H) as [Hf He].
  destruct (Z.eqb_spec (dbl_f u) (2 ^ 52)) as [X|X].
  - destruct (Z.eq_dec (dbl_e u) (-1074)) as [E0|E0].
    + apply Rle_antisym.
      * apply round_N_le_midp; [typeclasses eauto|apply dbl_format; exact H|]. rewrite <- upper_is_mid by exact H.
        destruct (gap_R u) as [-> _]. lra.
      * apply round_N_ge_midp; [typeclasses eauto|apply dbl_format; exact H|].
        assert (PR : pred radix2 fexp64 (dbl_R u) = dbl_R u - bpow radix2 (dbl_e u)).
        { pose proof (dbl_R_pos u H) as P. rewrite pred_eq_pos by lra. unfold pred_pos.
          assert (B : dbl_R u = bpow radix2 (-1022)).
          { unfold dbl_R. rewrite X, E0. change (IZR (2 ^ 52)) with (bpow radix2 52). rewrite <- bpow_plus. reflexivity. }
          rewrite B, mag_bpow, E0. change (-1022 + 1 - 1)%Z with (-1022)%Z. rewrite Req_bool_true by reflexivity. reflexivity. }
        rewrite PR, E. lra.
    + assert (CE : cexp radix2 fexp64 (lower_R u) = (dbl_e u - 1)%Z).
      { unfold cexp. rewrite fexp64_eq.
        assert (M : mag radix2 (lower_R u) = (dbl_e u + 52)%Z :> Z); [|lia].
        apply mag_unique_pos. rewrite E. unfold dbl_R. rewrite X.
        replace (dbl_e u + 52 - 1)%Z with (51 + dbl_e u)%Z by lia. rewrite (Z.add_comm (dbl_e u)), !bpow_plus.
        change (bpow radix2 52) with 4503599627370496. change (bpow radix2 51) with 2251799813685248.
        change (IZR (2 ^ 52)) with 4503599627370496. nra. }
      unfold nearest, round, scaled_mantissa. rewrite CE.
      replace (- (dbl_e u - 1))%Z with (1 + - dbl_e u)%Z by lia.
      replace (lower_R u * bpow radix2 (1 + - dbl_e u)) with (IZR (2 * 2 ^ 52) - / 2).
      * rewrite (proj2 (half_even (2 * 2 ^ 52) eq_refl)). unfold F2R, dbl_R. cbn [Fnum Fexp]. rewrite X.
        replace (dbl_e u - 1)%Z with (dbl_e u + -1)%Z by lia. rewrite bpow_plus, mult_IZR.
        change (bpow radix2 (-1)) with (/ 2). field.
      * rewrite E. unfold dbl_R. rewrite X, bpow_plus, bpow_opp, mult_IZR. change (bpow radix2 1) with 2. field. lra.
  - assert (CE : cexp radix2 fexp64 (lower_R u) = dbl_e u).
    { apply near_cexp; [exact H|exact X|]. rewrite E. unfold dbl_R. rewrite plus_IZR, minus_IZR. nra. }
    unfold nearest, round, scaled_mantissa. rewrite CE.
    replace (lower_R u * bpow radix2 (- dbl_e u)) with (IZR (dbl_f u) - / 2).
    + rewrite (proj2 (half_even _ Ev)). reflexivity.
    + rewrite E. unfold dbl_R. rewrite bpow_opp. field. lra.
Qed.

Lemma nearest_le p q x y : (0 < p)%Z -> x <= y -> nearest p q x <= nearest p q y.
Proof.
  intros Hp L. unfold nearest. apply round_le; [apply FLT_exp_valid; exact Hp|apply valid_rnd_N|exact L].
Qed.

Lemma closed_even u y : finite_pos u -> Z.even (dbl_f u) = true -> lower_R u <= y <= upper_R u -> nearest 53 1024 y = dbl_R u.
Proof.
  intros H Ev [L U]. apply Rle_antisym.
  - rewrite <- (upper_even u H Ev). apply nearest_le; [lia|exact U].
  - rewrite <- (lower_even u H Ev). apply nearest_le; [lia|exact L].
Qed.

Lemma closed_neighbours u y : finite_pos u -> lower_R u <= y <= upper_R u ->
  pred radix2 fexp64 (dbl_R u) <= nearest 53 1024 y <= succ radix2 fexp64 (dbl_R u).
Proof.
  intros H [L U]. pose proof (dbl_format u H) as F. pose proof (dbl_R_pos u H) as P.
  pose proof (lower_above_mid u H) as LM. rewrite (upper_is_mid u H) in U.
  pose proof (pred_le_id radix2 fexp64 (dbl_R u)). pose proof (succ_ge_id radix2 fexp64 (dbl_R u)).
  split.
  - apply round_ge_generic; [typeclasses eauto|apply valid_rnd_N| |lra].
    apply generic_format_pred; [typeclasses eauto|exact F].
  - apply round_le_generic; [typeclasses eauto|apply valid_rnd_N| |lra].
    apply generic_format_succ; [typeclasses eauto|exact F].
Qed.

(** ** Rounding to long double first *)

Lemma odd_format p q m x : (55 <= p)%Z -> (3 - q - p <= x)%Z -> (Z.abs m < 2 ^ 55)%Z ->
  generic_format radix2 (binary_format p q) (IZR m * bpow radix2 x).
Proof.
  intros Hp Hx Hm. apply generic_format_FLT. exists (Float radix2 m x); [reflexivity| |exact Hx].
  cbn [Fnum]. eapply Z.lt_le_trans; [exact Hm|]. apply Z.pow_le_mono_r; [reflexivity|exact Hp].
Qed.

Lemma ends_format p q u : finite_pos u -> (55 <= p)%Z -> (3 - q - p <= -1076)%Z ->
  generic_format radix2 (binary_format p q) (lower_R u) /\ generic_format radix2 (binary_format p q) (upper_R u).
Proof.
  intros H Hp Hq. destruct (finite_pos_f u H) as [Hf He]. unfold lower_R, upper_R. split.
  - destruct (_ =? _)%Z; apply odd_format; lia.
  - apply odd_format; lia.
Qed.

Lemma ld_between f u v : finite_pos u -> lower_R u < v < upper_R u ->
  lower_R u <= nearest (ld_prec f) (ld_emax f) v <= upper_R u.
Proof.
  intros H B. destruct f; cbn [ld_prec ld_emax].
  - assert (X : nearest 53 1024 v = dbl_R u) by exact (between_round u v _ H B). rewrite X.
    destruct (gap_R u) as [-> ->]. pose proof (bpow_gt_0 radix2 (dbl_e u)). destruct (_ =? _)%Z; lra.
  - destruct (ends_format 64 16384 u H ltac:(lia) ltac:(lia)) as [F1 F2].
    split; [apply round_ge_generic|apply round_le_generic]; try assumption; try lra; try apply valid_rnd_N; apply FLT_exp_valid; reflexivity.
  - destruct (ends_format 113 16384 u H ltac:(lia) ltac:(lia)) as [F1 F2].
    split; [apply round_ge_generic|apply round_le_generic]; try assumption; try lra; try apply valid_rnd_N; apply FLT_exp_valid; reflexivity.
Qed.

(** With binary128 the printed number stays strictly inside. *)
Lemma unit_large u F E k : finite_pos u -> cached_ok (norm_e u) F E k -> upper_R u < bpow radix2 65 * unit_R u E k.
Proof.
  intros H CK. destruct (finite_pos_f u H) as [Hf He]. pose proof CK as [CF _ _ _].
  destruct (scaled_bounds (dbl_f u) F Hf CF) as (S1 & S2 & S3 & S4 & S5 & S6).
  pose proof (hi_inside u F E k H CK) as HI. pose proof (unit_pos u E k) as UP.
  assert (X : IZR (hi_of (dbl_f u) F) <= IZR (2 ^ 64)) by (apply IZR_le; lia).
  change (bpow radix2 65) with (IZR (2 ^ 65)). change (IZR (2 ^ 65)) with 36893488147419103232.
  change (IZR (2 ^ 64)) with 18446744073709551616 in X. nra.
Qed.

Lemma lower_positive u : finite_pos u -> bpow radix2 (-1076) <= lower_R u.
Proof.
  intros H. destruct (finite_pos_f u H) as [Hf He].
  assert (B : bpow radix2 (-1076) <= bpow radix2 (dbl_e u - 2)) by (apply bpow_le; lia).
  assert (B1 : bpow radix2 (-1075) <= bpow radix2 (dbl_e u - 1)) by (apply bpow_le; lia).
  assert (B2 : bpow radix2 (-1076) <= bpow radix2 (-1075)) by (apply bpow_le; lia).
  pose proof (bpow_gt_0 radix2 (-1076)) as P.
  unfold lower_R. destruct (_ =? _)%Z.
  - assert (1 <= IZR (4 * dbl_f u - 1)) by (apply IZR_le; lia). nra.
  - assert (1 <= IZR (2 * dbl_f u - 1)) by (apply IZR_le; lia). nra.
Qed.

Lemma quad_inside u ds K F E k kap : finite_pos u -> grisu_ok u ds K F E k kap ->
  lower_R u < nearest 113 16384 (digits_R ds K) < upper_R u.
Proof.
  intros H G. pose proof (go_value _ _ _ _ _ _ _ G) as V. pose proof (go_cached _ _ _ _ _ _ _ G) as CK.
  pose proof (unit_large u F E k H CK) as UL. pose proof (unit_pos u E k) as UP.
  pose proof (lower_positive u H) as LP. pose proof (bpow_gt_0 radix2 (-1076)) as P0.
  set (v := digits_R ds K) in *.
  assert (R : Rabs (nearest 113 16384 v - v) <= / 2 * bpow radix2 (- 113 + 1) * Rabs v).
  { apply (relative_error_N_FLT radix2 (3 - 16384 - 113) 113 ltac:(lia) (fun x => negb (Z.even x))).
    rewrite Rabs_pos_eq by lra. apply Rle_trans with (bpow radix2 (-1076)); [apply bpow_le; lia|lra]. }
  rewrite (Rabs_pos_eq v) in R by lra. apply Rabs_le_inv in R.
  assert (X : / 2 * bpow radix2 (- 113 + 1) * v <= 1 / 1000 * unit_R u E k); [|lra].
  assert (Y : / 2 * bpow radix2 (- 113 + 1) * v <= bpow radix2 (-112) * (bpow radix2 65 * unit_R u E k)).
  { change (- 113 + 1)%Z with (-112)%Z. pose proof (bpow_gt_0 radix2 (-112)) as P. nra. }
  eapply Rle_trans; [exact Y|]. rewrite <- Rmult_assoc, <- bpow_plus. apply Rmult_le_compat_r; [lra|].
  apply Rle_trans with (bpow radix2 (-10)); [apply bpow_le; lia|]. change (bpow radix2 (-10)) with (/ 1024). lra.
Qed.

(** ** Doubles read back, C30 *)

Lemma nearest_neg p q b x : nearest p q (neg_if b x) = neg_if b (nearest p q x).
Proof. destruct b; [|reflexivity]. apply round_NE_opp. Qed.

Lemma Rabs_neg_if b x : 0 <= x -> Rabs (neg_if b x) = x.
Proof. intros H. destruct b; cbn [neg_if]; [rewrite Rabs_Ropp|]; apply Rabs_pos_eq; exact H. Qed.

Lemma dbl_R_max u : finite_pos u -> dbl_R u <= bpow radix2 1024 - bpow radix2 971.
Proof.
  intros H. destruct (finite_pos_f u H) as [Hf He]. unfold dbl_R.
  assert (A : IZR (dbl_f u) <= IZR (2 ^ 53 - 1)) by (apply IZR_le; lia).
  assert (B : bpow radix2 (dbl_e u) <= bpow radix2 971) by (apply bpow_le; lia).
  assert (P : 0 <= IZR (dbl_f u)) by (apply IZR_le; lia). pose proof (bpow_gt_0 radix2 (dbl_e u)) as Pb.
  assert (C : bpow radix2 1024 = bpow radix2 53 * bpow radix2 971) by (rewrite <- bpow_plus; reflexivity).
  rewrite C. change (bpow radix2 53) with (IZR (2 ^ 53)). rewrite minus_IZR in A. nra.
Qed.

Lemma ends_max u : finite_pos u -> dbl_R u <= upper_R u <= bpow radix2 1024 - bpow radix2 970.
Proof.
  intros H. destruct (finite_pos_f u H) as [Hf He]. pose proof (dbl_R_max u H) as M. destruct (gap_R u) as [-> _].
  assert (B : bpow radix2 (dbl_e u) <= bpow radix2 971) by (apply bpow_le; lia).
  pose proof (bpow_gt_0 radix2 (dbl_e u)) as Pb.
  assert (C : bpow radix2 971 = 2 * bpow radix2 970) by (change 971%Z with (1 + 970)%Z; rewrite bpow_plus; reflexivity). lra.
Qed.

(** What is known of the long double read: it has the right sign and is in the closed
    interval. *)
Lemma read_between e u s : bits64 u -> double_finite u -> double_value u <> 0 -> lexi e (VDouble u) = Ok s ->
  exists y ds K F E k kap, let v := (u mod 2 ^ 63)%Z in
    finite_pos v /\ grisu_ok v ds K F E k kap /\ double_value u = neg_if (sign_field u) (dbl_R v) /\
    lower_R v < digits_R ds K < upper_R v /\
    extract e "."%char TLongDouble s = Ok (XFloating y) /\
    SF2R radix2 y = neg_if (sign_field u) (nearest (ld_prec (fe_ld (e_float e))) (ld_emax (fe_ld (e_float e))) (digits_R ds K)) /\
    is_finite_SF y = true /\ lower_R v <= Rabs (SF2R radix2 y) <= upper_R v /\ 
    (exists z, extract e "."%char TDouble s = Ok (XFloating z) /\ rounded 53 1024 z (sign_field u) (SF2R radix2 y)) /\
    (exists z, extract e "."%char TFloat s = Ok (XFloating z) /\ rounded 24 128 z (sign_field u) (SF2R radix2 y)).
Proof.
  intros H Fi N L.
  destruct (finite_number e u s H Fi N L) as (ds & K & F & E & k & kap & FP & G & GD & GE & Es & J & M & V & Bn & DV).
  destruct (number_extracts e s _ J) as (y & [Vy Ry] & Ey & (z & Ez & Nz) & (w & Ew & Nw)).
  exists y, ds, K, F, E, k, kap. cbn zeta. set (v := (u mod 2 ^ 63)%Z) in *.
  set (p := ld_prec (fe_ld (e_float e))) in *. set (q := ld_emax (fe_ld (e_float e))) in *.
  pose proof (ld_between (fe_ld (e_float e)) v _ FP Bn) as B. fold p q in B.
  pose proof (lower_positive v FP) as LP. pose proof (bpow_gt_0 radix2 (-1076)) as P0.
  rewrite V, nearest_neg in Ry. rewrite layout_negative in Ry. rewrite Rabs_neg_if in Ry by lra.
  rewrite Rlt_bool_true in Ry.
  2:{ eapply Rle_lt_trans; [apply B|]. destruct (ends_max v FP) as [_ U]. pose proof (bpow_gt_0 radix2 970).
      apply Rlt_le_trans with (bpow radix2 1024); [lra|]. apply bpow_le. apply emax_ld. }
  destruct Ry as (Ry & Fy & Sy).
  assert (Y : exists m x, y = S754_finite (sign_field u) m x).
  { destruct y as [b|b| |b m x]; try discriminate Fy.
    - exfalso. cbn [SF2R] in Ry. destruct (sign_field u); cbn [neg_if] in Ry; lra.
    - cbn in Sy. rewrite <- Sy. eauto. }
  split; [exact FP|]. split; [exact G|]. split; [exact DV|]. split; [exact Bn|]. split; [exact Ey|].
  split; [exact Ry|]. split; [exact Fy|]. split; [rewrite Ry, Rabs_neg_if by lra; exact B|].
  destruct Y as (m & x & ->). cbn [narrowed] in Nz, Nw. split; eauto.
Qed.

Lemma double_sign_field u : bits64 u -> double_sign u = sign_field u.
Proof. apply double_sign_eq. Qed.

Lemma rounded_same u z x : bits64 u -> finite_pos (u mod 2 ^ 63) -> double_value u = neg_if (sign_field u) (dbl_R (u mod 2 ^ 63)) ->
  rounded 53 1024 z (sign_field u) (neg_if (sign_field u) x) -> nearest 53 1024 x = dbl_R (u mod 2 ^ 63) -> same_double z u.
Proof.
  intros H FP DV [Vz R] N. rewrite nearest_neg, N in R. pose proof (dbl_R_pos _ FP) as P.
  rewrite Rabs_neg_if in R by lra. rewrite Rlt_bool_true in R.
  - destruct R as (R & F & S). split; [exact Vz|]. split; [exact F|]. rewrite double_sign_field, DV by exact H. auto.
  - pose proof (dbl_R_max _ FP). pose proof (bpow_gt_0 radix2 971). lra.
Qed.

Lemma neg_if_abs b x y : x = neg_if b y -> 0 <= y -> x = neg_if b (Rabs x).
Proof. intros -> H. rewrite Rabs_neg_if by exact H. reflexivity. Qed.

(** The patterns with an even significand. *)
Lemma even_significand u : bits64 u -> Z.even u = true -> Z.even (dbl_f (u mod 2 ^ 63)) = true.
Proof.
  intros H Ev. unfold bits64 in H. unfold dbl_f.
  assert (X : Z.even (frac_field (u mod 2 ^ 63)) = true).
  { unfold frac_field. rewrite <- Znumtheory.Zmod_div_mod; [|lia|lia|exists (2 ^ 11)%Z; reflexivity].
    rewrite (Z.div_mod u (2 ^ 52)) in Ev by lia. rewrite Z.even_add, Z.even_mul in Ev.
    change (Z.even (2 ^ 52)) with true in Ev. cbn [orb] in Ev.
    destruct (Z.even (u mod 2 ^ 52)); [reflexivity|exact Ev]. }
  destruct (_ =? _)%Z; [exact X|]. rewrite Z.even_add, X. reflexivity.
Qed.

Lemma double_read_exact e u s : bits64 u -> double_finite u -> double_value u <> 0 -> lexi e (VDouble u) = Ok s ->
  fe_ld (e_float e) <> LD80 \/ Z.even u = true ->
  exists z, extract e "."%char TDouble s = Ok (XFloating z) /\ same_double z u.
Proof.
  intros H Fi N L C.
  destruct (read_between e u s H Fi N L) as (y & ds & K & F & E & k & kap & FP & G & DV & Bn & Ey & Ry & Fy & B & (z & Ez & Rz) & _).
  exists z. split; [exact Ez|]. rewrite Ry in Rz. apply (rounded_same u z _ H FP DV Rz).
  pose proof (ld_between (fe_ld (e_float e)) _ _ FP Bn) as B2.
  destruct C as [C|C].
  - destruct (fe_ld (e_float e)); cbn [ld_prec ld_emax] in *; [|contradiction C; reflexivity|].
    + rewrite (between_round _ _ _ FP Bn : nearest 53 1024 _ = _). apply nearest_exact; [lia|apply dbl_format; exact FP].
    + exact (between_round _ _ _ FP (quad_inside _ _ _ _ _ _ _ FP G)).
  - apply closed_even; [exact FP|apply even_significand; assumption|exact B2].
Qed.

(** Whatever the format: the result is the double itself, unless the long double read is
    exactly halfway to a neighbour. *)
Lemma double_read_or_tie e u s : bits64 u -> double_finite u -> double_value u <> 0 -> lexi e (VDouble u) = Ok s ->
  exists y z, extract e "."%char TLongDouble s = Ok (XFloating y) /\ extract e "."%char TDouble s = Ok (XFloating z) /\
    is_finite_SF y = true /\
    (same_double z u \/
     let x := Rabs (double_value u) in
     Rabs (SF2R radix2 y) = (x + pred radix2 fexp64 x) / 2 \/ Rabs (SF2R radix2 y) = (x + succ radix2 fexp64 x) / 2).
Proof.
  intros H Fi N L.
  destruct (read_between e u s H Fi N L) as (y & ds & K & F & E & k & kap & FP & G & DV & Bn & Ey & Ry & Fy & B & (z & Ez & Rz) & _).
  exists y, z. split; [exact Ey|]. split; [exact Ez|]. split; [exact Fy|]. cbn zeta.
  pose proof (dbl_R_pos _ FP) as P. rewrite DV, Rabs_neg_if by lra.
  pose proof (lower_above_mid _ FP) as LM. rewrite (upper_is_mid _ FP) in B. set (x := dbl_R (u mod 2 ^ 63)) in *.
  destruct (Req_dec (Rabs (SF2R radix2 y)) ((x + pred radix2 fexp64 x) / 2)) as [|N1]; [tauto|].
  destruct (Req_dec (Rabs (SF2R radix2 y)) ((x + succ radix2 fexp64 x) / 2)) as [|N2]; [tauto|]. left.
  pose proof (ld_between (fe_ld (e_float e)) _ _ FP Bn) as B2. pose proof (lower_positive _ FP) as LP. pose proof (bpow_gt_0 radix2 (-1076)) as P0.
  rewrite Ry, Rabs_neg_if in * by lra. apply (rounded_same u z _ H FP DV Rz). fold x.
  pose proof (dbl_format _ FP) as FF. fold x in FF. apply Rle_antisym.
  - apply round_N_le_midp; [typeclasses eauto|exact FF|lra].
  - apply round_N_ge_midp; [typeclasses eauto|exact FF|lra].
Qed.

(** The largest double is not read as infinity. *)
Lemma top_below u ds K F E k kap : finite_pos u -> grisu_ok u ds K F E k kap ->
  nearest 64 16384 (digits_R ds K) < bpow radix2 1024 - bpow radix2 970.
Proof.
  intros H G. pose proof (go_length _ _ _ _ _ _ _ G) as GL. destruct (ends_max u H) as [_ U].
  pose proof (unit_pos u E k) as UP. pose proof (go_value _ _ _ _ _ _ _ G) as [_ V].
  pose proof (digits_good _ _ _ _ _ _ (go_digits _ _ _ _ _ _ _ G)) as GD.
  destruct (nval_bounds ds GD) as [N0 N1].
  set (top := (IZR ((2 ^ 63 - 2 ^ 9 - 1) * 2 ^ 961))).
  assert (T : top < bpow radix2 1024 - bpow radix2 970).
  { unfold top. change (bpow radix2 1024) with (IZR (2 ^ 1024)). change (bpow radix2 970) with (IZR (2 ^ 970)).
    rewrite <- minus_IZR. apply IZR_lt. reflexivity. }
  eapply Rle_lt_trans; [|exact T].
  assert (FT : generic_format radix2 (binary_format 64 16384) top).
  { unfold top. rewrite mult_IZR. change (IZR (2 ^ 961)) with (bpow radix2 961). apply generic_format_FLT.
    exists (Float radix2 (2 ^ 63 - 2 ^ 9 - 1) 961); [reflexivity|reflexivity|cbn; lia]. }
  apply round_le_generic; [apply FLT_exp_valid; reflexivity|apply valid_rnd_N|exact FT|].
  assert (B : digits_R ds K < bpow radix2 1024 - bpow radix2 970) by lra.
  destruct (Z.le_gt_cases 291 K) as [HK|HK].
  - unfold digits_R in *. replace K with ((K - 291) + 291)%Z in * by lia. rewrite bpow_plus in *.
    rewrite <- (IZR_Zpower radix10 (K - 291)) in * by lia. rewrite <- Rmult_assoc, <- mult_IZR in *.
    set (n := (nval ds * radix10 ^ (K - 291))%Z) in *.
    change (bpow radix10 291) with (IZR (10 ^ 291)) in *. rewrite <- mult_IZR in *.
    change (bpow radix2 1024) with (IZR (2 ^ 1024)) in B. change (bpow radix2 970) with (IZR (2 ^ 970)) in B.
    rewrite <- minus_IZR in B. apply lt_IZR in B. apply IZR_le.
    assert (Q : (n <= (2 ^ 1024 - 2 ^ 970) / 10 ^ 291)%Z).
    { apply Z.div_le_lower_bound; [reflexivity|]. lia. }
    apply Z.le_trans with ((2 ^ 1024 - 2 ^ 970) / 10 ^ 291 * 10 ^ 291)%Z.
    + apply Z.mul_le_mono_nonneg_r; [discriminate|exact Q].
    + vm_compute. discriminate.
  - unfold digits_R.
    apply Rle_trans with (IZR (10 ^ 17) * bpow radix10 290).
    + apply Rmult_le_compat; [apply IZR_le; lia|apply Rlt_le, bpow_gt_0| |apply bpow_le; lia].
      apply IZR_le. apply Z.le_trans with (10 ^ Z.of_nat (length ds))%Z; [lia|]. apply Z.pow_le_mono_r; lia.
    + change (bpow radix10 290) with (IZR (10 ^ 290)). rewrite <- mult_IZR. apply IZR_le. vm_compute. discriminate.
Qed.

Lemma double_read_near e u s : bits64 u -> double_finite u -> double_value u <> 0 -> lexi e (VDouble u) = Ok s ->
  exists z, extract e "."%char TDouble s = Ok (XFloating z) /\
    SpecFloat.valid_binary 53 1024 z = true /\ is_finite_SF z = true /\ sign_SF z = double_sign u /\
    let x := Rabs (double_value u) in
    pred radix2 fexp64 x <= Rabs (SF2R radix2 z) <= succ radix2 fexp64 x.
Proof.
  intros H Fi N L.
  destruct (read_between e u s H Fi N L) as (y & ds & K & F & E & k & kap & FP & G & DV & Bn & Ey & Ry & Fy & B & (z & Ez & Vz & Rz) & _).
  exists z. split; [exact Ez|]. split; [exact Vz|]. cbn zeta.
  pose proof (dbl_R_pos _ FP) as P. rewrite DV, Rabs_neg_if by lra.
  pose proof (ld_between (fe_ld (e_float e)) _ _ FP Bn) as B2. pose proof (closed_neighbours _ _ FP B2) as C.
  set (x := nearest (ld_prec _) (ld_emax _) (digits_R ds K)) in *.
  assert (P1 : 0 <= pred radix2 fexp64 (dbl_R (u mod 2 ^ 63))) by (apply pred_ge_0; [typeclasses eauto|exact P|apply dbl_format; exact FP]).
  rewrite Ry, nearest_neg, Rabs_neg_if in Rz by lra.
  assert (T : nearest 53 1024 x < bpow radix2 1024); [|rewrite Rlt_bool_true in Rz by exact T].
  2:{ destruct Rz as (Rz & F1 & S1). rewrite Rz, Rabs_neg_if by lra. rewrite double_sign_field by exact H. auto. }
  destruct (fe_ld (e_float e)) eqn:LD; cbn [ld_prec ld_emax] in x.
  - assert (X : x = dbl_R (u mod 2 ^ 63)) by exact (between_round _ _ _ FP Bn).
    rewrite X, nearest_exact; [|lia|apply dbl_format; exact FP]. pose proof (dbl_R_max _ FP). pose proof (bpow_gt_0 radix2 971). lra.
  - pose proof (top_below _ _ _ _ _ _ _ FP G) as T. fold x in T.
    apply Rle_lt_trans with (bpow radix2 1024 - bpow radix2 971); [|pose proof (bpow_gt_0 radix2 971); lra].
    set (t := bpow radix2 1024 - bpow radix2 971).
    assert (Et : t = IZR (2 ^ 53 - 1) * bpow radix2 971).
    { unfold t. rewrite minus_IZR. change (IZR (2 ^ 53)) with (bpow radix2 53). rewrite Rmult_minus_distr_r, <- bpow_plus. rewrite Rmult_1_l. reflexivity. }
    assert (Ft : generic_format radix2 fexp64 t).
    { rewrite Et. apply generic_format_FLT. exists (Float radix2 (2 ^ 53 - 1) 971); [reflexivity|reflexivity|cbn; lia]. }
    apply round_N_le_midp; [typeclasses eauto|exact Ft|].
    assert (Pt : 0 < t) by (rewrite Et; apply Rmult_lt_0_compat; [apply IZR_lt; reflexivity|apply bpow_gt_0]).
    rewrite succ_eq_pos by lra. rewrite ulp_neq_0 by lra.
    assert (Ct : cexp radix2 fexp64 t = 971%Z).
    { unfold cexp. rewrite fexp64_eq. assert (M : mag radix2 t = 1024%Z :> Z); [|rewrite M; reflexivity].
      apply mag_unique_pos. unfold t. 
      assert (X1 : bpow radix2 1024 = 2 * bpow radix2 1023) by (change 1024%Z with (1 + 1023)%Z; rewrite bpow_plus; reflexivity).
      assert (X2 : bpow radix2 971 < bpow radix2 1023) by (apply bpow_lt; lia). pose proof (bpow_gt_0 radix2 971).
      change (1024 - 1)%Z with 1023%Z. lra. }
    rewrite Ct. assert (X1 : bpow radix2 971 = 2 * bpow radix2 970) by (change 971%Z with (1 + 970)%Z; rewrite bpow_plus; reflexivity).
    unfold t in *. lra.
  - assert (X : nearest 53 1024 x = dbl_R (u mod 2 ^ 63)) by exact (between_round _ _ _ FP (quad_inside _ _ _ _ _ _ _ FP G)).
    rewrite X. pose proof (dbl_R_max _ FP). pose proof (bpow_gt_0 radix2 971). lra.
Qed.

(** ** Floats read back, C31 *)

Notation fexp32 := (binary_format 24 128).
Global Instance fexp32_valid : Valid_exp fexp32.
Proof. apply FLT_exp_valid. unfold Prec_gt_0. lia. Qed.

Lemma mid_format x : 0 <= x -> generic_format radix2 fexp32 x ->
  generic_format radix2 fexp64 (x + ulp radix2 fexp32 x / 2).
Proof.
  intros P F.
  assert (X : exists m c, x = IZR m * bpow radix2 c /\ ulp radix2 fexp32 x = bpow radix2 c /\ (Z.abs m < 2 ^ 24)%Z /\ (-149 <= c)%Z).
  { destruct (Req_dec x 0) as [->|N].
    - exists 0%Z, (-149)%Z. rewrite Rmult_0_l. split; [reflexivity|]. split; [|split; [reflexivity|lia]].
      unfold binary_format. rewrite ulp_FLT_0 by reflexivity. reflexivity.
    - exists (Ztrunc (scaled_mantissa radix2 fexp32 x)), (cexp radix2 fexp32 x).
      split; [exact F|]. split; [apply ulp_neq_0; exact N|]. split; [|unfold cexp, binary_format, FLT_exp; lia].
      apply lt_IZR. rewrite abs_IZR.
      apply Rmult_lt_reg_r with (bpow radix2 (cexp radix2 fexp32 x)); [apply bpow_gt_0|].
      rewrite <- (Rabs_pos_eq (bpow _ _)) at 1 by apply bpow_ge_0. rewrite <- Rabs_mult.
      change (IZR (2 ^ 24)) with (bpow radix2 24). rewrite <- bpow_plus.
      replace (IZR _ * _) with x by exact F.
      eapply Rlt_le_trans; [apply bpow_mag_gt|]. apply bpow_le. unfold cexp, binary_format, FLT_exp. lia. }
  destruct X as (m & c & E & U & Hm & Hc). rewrite U, E.
  apply generic_format_FLT. exists (Float radix2 (2 * m + 1) (c - 1)).
  - unfold F2R. cbn [Fnum Fexp]. rewrite plus_IZR, mult_IZR. replace (c - 1)%Z with (-1 + c)%Z by lia.
    rewrite (bpow_plus radix2 (-1)). change (bpow radix2 (-1)) with (/ 2). field.
  - cbn [Fnum]. change (radix2 ^ 53)%Z with (2 ^ 53)%Z. lia.
  - cbn [Fexp]. lia.
Qed.

Lemma float_neighbours x : 0 < x -> generic_format radix2 fexp32 x ->
  (x + pred radix2 fexp32 x) / 2 <= pred radix2 fexp64 x /\ succ radix2 fexp64 x <= (x + succ radix2 fexp32 x) / 2 /\
  pred radix2 fexp64 x < x < succ radix2 fexp64 x.
Proof.
  intros P F. pose proof (ulp_ge_0 radix2 fexp32 x) as U0.
  assert (F64 : generic_format radix2 fexp64 x) by (apply (format_incl 24 128 53 1024); [lia|lia|exact F]).
  assert (U : 0 < ulp radix2 fexp32 x) by (rewrite ulp_neq_0 by lra; apply bpow_gt_0).
  split; [|split].
  - set (p := pred radix2 fexp32 x).
    assert (Fp : generic_format radix2 fexp32 p) by (apply generic_format_pred; [typeclasses eauto|exact F]).
    assert (Pp : 0 <= p) by (apply pred_ge_0; [typeclasses eauto|exact P|exact F]).
    assert (Lp : p < x) by (apply pred_lt_id; lra).
    assert (E : p + ulp radix2 fexp32 p = x).
    { rewrite <- succ_eq_pos by exact Pp. apply succ_pred; [typeclasses eauto|exact F]. }
    replace ((x + p) / 2) with (p + ulp radix2 fexp32 p / 2) by lra.
    apply pred_ge_gt; [typeclasses eauto|apply mid_format; assumption|exact F64|lra].
  - rewrite (succ_eq_pos radix2 fexp32) by lra.
    replace ((x + (x + ulp radix2 fexp32 x)) / 2) with (x + ulp radix2 fexp32 x / 2) by lra.
    apply succ_le_lt; [typeclasses eauto|exact F64|apply mid_format; lra || exact F|lra].
  - split; [apply pred_lt_id|apply succ_gt_id]; lra.
Qed.
