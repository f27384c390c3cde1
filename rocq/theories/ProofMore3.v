(** Numbers through text, continued: integers as floating point numbers, doubles as
    integers, printing what was read, the order of what is read. *)
From Coq Require Import Reals Lra Psatz Floats.SpecFloat.
From Flocq Require Import Core.
From Flocq Require IEEE754.Binary IEEE754.Bits.
From Flocq Require Import IEEE754.BinarySingleNaN.
From Verif Require Import Machine LibMachine SpecApi SpecDecimal SpecInt SpecNumber SpecIeee SpecString SpecLayout SpecJson SpecRead SpecMore
  ModelItoa ModelInt ModelText ModelString ModelIeee ModelDiyfp ModelDtoa ModelFloat ModelLexi ModelPlatforms
  ProofDiyfp ProofDigits ProofGrisu ProofLayout ProofNumber ProofShort ProofUnique ProofItoa ProofInt ProofString ProofApi ProofIeee ProofDtoa ProofRound
  ProofFloat ProofFloat2 ProofFloat3 ProofFloat4 ProofRead ProofRead2 ProofRead3 ProofMore ProofMore2.
Open Scope Z_scope.
Ltac Zify.zify_post_hook ::= idtac.

(** ** C58 *)

Lemma integer_format p q d : 0 < p < q -> 1 < p + q -> Z.abs d < 2 ^ p -> generic_format radix2 (binary_format p q) (IZR d).
Proof.
  intros H H' D. apply generic_format_FLT. exists (Float radix2 d 0).
  - unfold F2R; cbn [Fnum Fexp]. change (bpow radix2 0) with 1%R. ring.
  - exact D.
  - cbn [Fexp]. lia.
Qed.

Lemma rounded_zero_any p q y neg : good_format p q -> rounded p q y neg 0 -> y = S754_zero neg.
Proof.
  intros G R. destruct (reading_determined p q DNothing y y (S754_zero neg) neg 0) as (_ & _ & U).
  apply U; [exact R|]. apply zero_rounded. exact G.
Qed.

Lemma narrowed_exact p q p' q' y z neg x : good_format p q -> good_format p' q' ->
  rounded p q y neg x -> generic_format radix2 (binary_format p q) x -> (Rabs x < bpow radix2 q)%R ->
  narrowed p' q' y z -> rounded p' q' z neg x.
Proof.
  intros G G' R F B N. destruct (Req_dec x 0) as [->|NZ].
  - apply (rounded_zero_any p q y neg G) in R. subst y. cbn in N. subst z. apply zero_rounded. exact G'.
  - destruct R as [V R]. assert (E : nearest p q x = x) by (apply nearest_exact; [apply G|exact F]).
    rewrite E, Rlt_bool_true in R by exact B. destruct R as (R & FY & S).
    destruct y as [s|s| |s m k]; try discriminate FY; [exfalso; apply NZ; rewrite <- R; reflexivity|].
    cbn [narrowed] in N. rewrite R in N. cbn [sign_SF] in S. subst s. exact N.
Qed.

Lemma narrowed_same p q y z neg x : good_format p q -> rounded p q y neg x -> narrowed p q y z -> z = y.
Proof.
  intros G R N. destruct y as [s|s| |s m k]; try exact N.
  cbn [narrowed] in N. destruct R as [V _].
  destruct (reading_determined p q DNothing (S754_zero s) z (S754_finite s m k) s (SF2R radix2 (S754_finite s m k))) as (_ & _ & U).
  apply U; [exact N|]. split; [exact V|].
  destruct (sf_format p q (S754_finite s m k) G V eq_refl) as [F B].
  rewrite nearest_exact, Rlt_bool_true; [auto|exact B|apply G|exact F].
Qed.

Lemma canonical_number s v : canonical_integer s v -> exists n, json_number s n /\ n_fraction n = None /\ n_exponent n = None /\
  numeral_value (n_digits n) = Z.abs v /\ n_negative n = (v <? 0).
Proof.
  intros [[S (N & F & V & Z0)]|[S (r & -> & N & F & V & Z0)]].
  - exists (Number false s None None). split.
    + split; [exists "e"%char; split; [left; reflexivity|cbn; rewrite !app_nil_r; reflexivity]|].
      cbn [n_integer n_fraction n_exponent]. repeat split; auto; discriminate.
    + unfold n_digits; cbn [n_integer n_fraction n_exponent n_negative optional]. rewrite app_nil_r. repeat split; [lia|symmetry; apply Z.ltb_ge; lia].
  - exists (Number true r None None). split.
    + split; [exists "e"%char; split; [left; reflexivity|cbn; rewrite !app_nil_r; reflexivity]|].
      cbn [n_integer n_fraction n_exponent]. repeat split; auto; discriminate.
    + unfold n_digits; cbn [n_integer n_fraction n_exponent n_negative optional]. rewrite app_nil_r. repeat split; [lia|symmetry; apply Z.ltb_lt; lia].
Qed.

Lemma ld_exact_integer f v : f <> LD64 -> - 2 ^ 63 <= v < 2 ^ 64 ->
  generic_format radix2 (binary_format (ld_prec f) (ld_emax f)) (IZR v).
Proof.
  intros F B. assert (Z.abs v < 2 ^ 64) by lia. destruct f; [congruence| |]; cbn [ld_prec ld_emax].
  - apply integer_format; lia.
  - assert (2 ^ 64 < 2 ^ 113) by reflexivity. apply integer_format; lia.
Qed.

Lemma integer_small v q : - 2 ^ 63 <= v < 2 ^ 64 -> 64 <= q -> (Rabs (IZR v) < bpow radix2 q)%R.
Proof.
  intros B Q. apply Rlt_le_trans with (bpow radix2 64); [|apply bpow_le; exact Q].
  rewrite <- abs_IZR, <- IZR_Zpower by lia. apply IZR_lt. change (radix2 ^ 64) with (2 ^ 64). lia.
Qed.

Lemma integer_as_float e point s v : point_ok point -> canonical_integer s v -> - 2 ^ 63 <= v < 2 ^ 64 ->
  (exists z, extract e point TLongDouble s = Ok (XFloating z) /\
     rounded (ld_prec (fe_ld (e_float e))) (ld_emax (fe_ld (e_float e))) z (v <? 0) (IZR v)) /\
  (exists z, extract e point TDouble s = Ok (XFloating z) /\ rounded 53 1024 z (v <? 0) (IZR v)) /\
  (fe_ld (e_float e) <> LD64 -> exists z, extract e point TFloat s = Ok (XFloating z) /\ rounded 24 128 z (v <? 0) (IZR v)).
Proof.
  intros PO C B. destruct (canonical_number s v C) as (n & J & NF & NX & NV & NN).
  pose proof (json_reads_at point s n PO J) as R. rewrite NF in R.
  destruct (float_extracts e point s _ PO R) as (y & RY & EY & (z & EZ & RZ) & (w & EW & RW)).
  assert (EV : signed (n_negative n) (IZR (numeral_value (n_digits n)) * bpow radix10 (n_scale n)) = IZR v).
  { rewrite NV, NN. unfold n_scale, n_exponent_value. rewrite NF, NX. cbn [optional length Z.of_nat]. change (0 - 0) with 0.
    change (bpow radix10 0) with 1%R. rewrite Rmult_1_r. destruct (Z.ltb_spec v 0) as [X|X]; cbn [signed].
    - rewrite <- opp_IZR. f_equal. lia.
    - f_equal. lia. }
  unfold whole_number in RY. cbn [read_as] in RY. rewrite EV, NN in RY.
  set (f := fe_ld (e_float e)) in *.
  split; [exists y; auto|]. split.
  - exists z. split; [exact EZ|]. assert (D : f = LD64 \/ f <> LD64) by (destruct f; [left; reflexivity|right; discriminate..]). destruct D as [E|E].
    + rewrite E in RY. cbn [ld_prec ld_emax] in RY.
      rewrite (narrowed_same 53 1024 y z _ _ double_good RY RZ). exact RY.
    + apply (narrowed_exact (ld_prec f) (ld_emax f) 53 1024 y z); auto using ld_good, double_good, ld_exact_integer.
      apply integer_small; [exact B|]. destruct f; cbn; lia.
  - intros E. exists w. split; [exact EW|].
    apply (narrowed_exact (ld_prec f) (ld_emax f) 24 128 y w); auto using ld_good, float_good, ld_exact_integer.
    apply integer_small; [exact B|]. destruct f; cbn; lia.
Qed.

Lemma integer_texts e point t v s : platform_ok (e_platform e) -> point_ok point -> has_int_type (e_platform e) t v ->
  lexi e (VInt t v) = Ok s ->
  (exists z, extract e point TLongDouble s = Ok (XFloating z) /\
     rounded (ld_prec (fe_ld (e_float e))) (ld_emax (fe_ld (e_float e))) z (v <? 0) (IZR v)) /\
  (exists z, extract e point TDouble s = Ok (XFloating z) /\ rounded 53 1024 z (v <? 0) (IZR v)) /\
  (fe_ld (e_float e) <> LD64 -> exists z, extract e point TFloat s = Ok (XFloating z) /\ rounded 24 128 z (v <? 0) (IZR v)).
Proof.
  intros HP PO HV L. destruct (integer_formats e t v HP HV) as (s' & L' & _ & _ & _ & C). rewrite L in L'. apply Ok_inj in L'. subst s'.
  apply integer_as_float; [exact PO|exact C|]. apply (has_int_type_range _ _ _ HP HV).
Qed.

(** Rounding twice: to double, then to float. *)
Lemma integer_float_refuted : exists v s z, has_int_type (e_platform (windows_x64 Strict)) ULLong v /\
  lexi (windows_x64 Strict) (VInt ULLong v) = Ok s /\ s = str "9223372586610589697" /\
  extract (windows_x64 Strict) "."%char TFloat s = Ok (XFloating z) /\ ~ rounded 24 128 z (v <? 0) (IZR v).
Proof.
  exists (2 ^ 63 + 2 ^ 39 + 1), (str "9223372586610589697"). eexists. split; [split; reflexivity || discriminate|].
  split; [vm_compute; reflexivity|]. split; [reflexivity|]. split; [vm_compute; reflexivity|].
  intros R. assert (X : rounded 24 128 (float_of 24 128 (DDecimal false (2 ^ 63 + 2 ^ 39 + 1) 0)) false (IZR (2 ^ 63 + 2 ^ 39 + 1))).
  { assert (F : read_as 24 128 (DDecimal false (2 ^ 63 + 2 ^ 39 + 1) 0) (float_of 24 128 (DDecimal false (2 ^ 63 + 2 ^ 39 + 1) 0))).
    { apply float_of_read; [exact float_good| |discriminate]. intros neg D K E. injection E as <- <- <-. discriminate. }
    cbn [read_as signed] in F. change (bpow radix10 0) with 1%R in F. rewrite Rmult_1_r in F. exact F. }
  change ((2 ^ 63 + 2 ^ 39 + 1 <? 0)) with false in R.
  pose proof (rounded_unique _ _ _ _ _ _ R X) as U.
  vm_compute in U. discriminate U.
Qed.

(** ** C59: doubles read as integers *)

Lemma integer_part_bounds s n : json_number s n -> n_exponent n = None ->
  (IZR (numeral_value (n_integer n)) <= n_magnitude n < IZR (numeral_value (n_integer n) + 1))%R.
Proof.
  intros (_ & _ & DI & _ & FI & _) NX. unfold n_magnitude, n_digits, n_scale, n_exponent_value. rewrite NX.
  set (f := optional (fun f => f) (n_fraction n)).
  assert (DF : Forall is_digit f) by (unfold f; destruct (n_fraction n); [apply (FI _ eq_refl)|constructor]).
  rewrite numeral_value_app. pose proof (numeral_value_bounds f DF) as B.
  replace (0 - Z.of_nat (length f)) with (- Z.of_nat (length f)) by lia. rewrite bpow_opp.
  set (k := Z.of_nat (length f)) in *. set (d := numeral_value (n_integer n)). set (g := numeral_value f) in *.
  assert (K : 0 <= k) by lia.
  assert (P : bpow radix10 k = IZR (10 ^ k)) by (rewrite <- IZR_Zpower by exact K; reflexivity).
  rewrite P. assert (0 < 10 ^ k) by (apply Z.pow_pos_nonneg; lia).
  assert (Q : (0 < IZR (10 ^ k))%R) by (apply IZR_lt; assumption).
  split.
  - apply Rmult_le_reg_r with (IZR (10 ^ k)); [exact Q|]. rewrite Rmult_assoc, Rinv_l, Rmult_1_r by lra.
    rewrite <- mult_IZR. apply IZR_le. lia.
  - apply Rmult_lt_reg_r with (IZR (10 ^ k)); [exact Q|]. rewrite Rmult_assoc, Rinv_l, Rmult_1_r by lra.
    rewrite <- mult_IZR. apply IZR_lt. lia.
Qed.

Lemma integral_part e u s n m : bits64 u -> double_finite u -> lexi e (VDouble u) = Ok s -> json_number s n ->
  Rabs (double_value u) = IZR m -> 0 <= m <= 2 ^ 53 -> numeral_value (n_integer n) = m.
Proof.
  intros H F L J E B. destruct (Z.eq_dec m 0) as [->|N].
  - assert (Z0 : double_value u = 0%R) by (destruct (Req_dec (double_value u) 0) as [X|X]; [exact X|apply Rabs_no_R0 in X; lra]).
    rewrite lexi_zero in L by assumption. apply Ok_inj in L. subst s.
    assert (C : canonical_natural (str "0") 0).
    { split; [discriminate|]. split; [repeat constructor; cbn; lia|]. split; [reflexivity|]. intros r X. injection X as <-. reflexivity. }
    pose proof (point_zero_number (str "0") 0 C false) as J0. rewrite (json_number_unique _ _ _ J J0). reflexivity.
  - assert (X : exists v, double_value u = IZR v /\ Z.abs v = m).
    { destruct (Rcase_abs (double_value u)) as [Y|Y].
      - rewrite Rabs_left in E by exact Y. exists (- m). rewrite opp_IZR. split; [lra|lia].
      - rewrite Rabs_right in E by exact Y. exists m. split; [lra|lia]. }
    destruct X as (v & Ev & Av). destruct (integral_double e u s v H F Ev ltac:(lia) L) as (t & C & ->).
    destruct C as [[P C]|[P (r & -> & C)]].
    + rewrite (json_number_unique _ _ _ J (point_zero_number t v C false)). cbn [n_integer]. destruct C as (_ & _ & C & _). lia.
    + rewrite (json_number_unique _ _ _ J (point_zero_number r (- v) C true)). cbn [n_integer]. destruct C as (_ & _ & C & _). lia.
Qed.

Lemma text_integer_part e u s n : bits64 u -> double_finite u -> lexi e (VDouble u) = Ok s -> json_number s n ->
  n_exponent n = None -> (Rabs (double_value u) <= bpow radix2 53)%R ->
  let d := numeral_value (n_integer n) in
  0 <= d <= 2 ^ 53 /\ (IZR d <= Rabs (double_value u) < IZR (d + 1))%R /\ Ztrunc (double_value u) = if n_negative n then - d else d.
Proof.
  intros H F L J NX B d. pose proof (integer_part_bounds s n J NX) as [M1 M2]. fold d in M1, M2.
  pose proof (finite_nearest e u s n H F L J) as R.
  assert (D0 : 0 <= d).
  { destruct J as (_ & _ & DI & _). apply numeral_value_bounds. exact DI. }
  assert (EA : Rabs (double_value u) = nearest 53 1024 (n_magnitude n)).
  { rewrite <- R. unfold n_value. destruct (n_negative n).
    - change (- n_magnitude n)%R with (neg_if true (n_magnitude n)). rewrite nearest_neg. cbn [neg_if]. rewrite Rabs_Ropp.
      apply Rabs_pos_eq. rewrite <- nearest_0. apply nearest_le; [lia|]. apply (IZR_le 0) in D0. lra.
    - apply Rabs_pos_eq. rewrite <- nearest_0. apply nearest_le; [lia|]. apply (IZR_le 0) in D0. lra. }
  assert (P53 : bpow radix2 53 = IZR (2 ^ 53)) by (rewrite <- IZR_Zpower by lia; reflexivity).
  assert (EX : forall k, 0 <= k <= 2 ^ 53 -> nearest 53 1024 (IZR k) = IZR k).
  { intros k Hk. apply nearest_exact; [lia|]. destruct (Z.eq_dec k (2 ^ 53)) as [->|].
    - rewrite <- P53. apply generic_format_bpow. cbn. lia.
    - apply integer_format; lia. }
  assert (ID : forall k, 0 <= k <= 2 ^ 53 -> Rabs (double_value u) = IZR k -> d = k).
  { intros k Hk E. exact (integral_part e u s n k H F L J E Hk). }
  set (x := Rabs (double_value u)) in *.
  assert (D1 : d <= 2 ^ 53).
  { apply Z.nlt_ge. intros X. assert (Y : (IZR (2 ^ 53) <= x)%R).
    { rewrite EA, <- (EX (2 ^ 53)) by lia. apply nearest_le; [lia|]. apply Z.lt_le_incl, IZR_le in X. lra. }
    specialize (ID (2 ^ 53) ltac:(lia) ltac:(lra)). lia. }
  assert (LO : (IZR d <= x)%R).
  { rewrite EA, <- (EX d) by lia. apply nearest_le; [lia|exact M1]. }
  assert (HI : (x < IZR (d + 1))%R).
  { destruct (Z.eq_dec d (2 ^ 53)) as [E|E].
    - rewrite E. rewrite P53 in B. eapply Rle_lt_trans; [exact B|]. apply IZR_lt. lia.
    - assert (Y : (x <= IZR (d + 1))%R).
      { rewrite EA, <- (EX (d + 1)) by lia. apply nearest_le; [lia|lra]. }
      destruct (Req_dec x (IZR (d + 1))) as [Q|Q]; [|lra]. specialize (ID (d + 1) ltac:(lia) Q). lia. }
  split; [lia|]. split; [split; assumption|].
  assert (FL : Zfloor x = d) by (apply Zfloor_imp; split; assumption).
  assert (TX : Ztrunc x = d) by (rewrite Ztrunc_floor; [exact FL|apply Rabs_pos]).
  assert (SX : double_value u = if n_negative n then (- x)%R else x).
  { rewrite <- R, EA. unfold n_value. destruct (n_negative n); [|reflexivity].
    change (- n_magnitude n)%R with (neg_if true (n_magnitude n)). apply nearest_neg. }
  rewrite SX. destruct (n_negative n); [rewrite Ztrunc_opp, TX; reflexivity|exact TX].
Qed.

Lemma double_truncated e point t u s n : platform_ok (e_platform e) -> bits64 u -> double_finite u ->
  lexi e (VDouble u) = Ok s -> json_number s n -> n_exponent n = None -> (Rabs (double_value u) <= bpow radix2 53)%R ->
  exists r, extract e point (TInt t) s = Ok (XInt r) /\ has_int_type (e_platform e) t r /\
    congruent (int_bits (e_platform e) t) r (Ztrunc (double_value u)).
Proof.
  intros HP H F L J NX B. destruct (text_integer_part e u s n H F L J NX B) as (D & _ & ->).
  destruct (number_as_integer e point t s n HP J) as (r & X & T & G). exists r. split; [exact X|]. split; [exact T|].
  cbv zeta in G. destruct (Z.ltb_spec (2 ^ 64 - 1) (numeral_value (n_integer n))); [lia|exact G].
Qed.

(** In scientific notation the digits before the point are read. *)
Lemma double_truncated_refuted : exists u s, bits64 u /\ double_finite u /\
  lexi (linux_x86_64 zero_memory) (VDouble u) = Ok s /\ s = str "5e-324" /\ Ztrunc (double_value u) = 0 /\
  extract (linux_x86_64 zero_memory) "."%char (TInt Int) s = Ok (XInt 5).
Proof.
  exists 1, (str "5e-324"). destruct (sample 1 eq_refl) as (A & B & _). split; [exact A|]. split; [exact B|].
  split; [vm_compute; reflexivity|]. split; [reflexivity|]. split; [|vm_compute; reflexivity].
  assert (V : double_value 1 = bpow radix2 (-1074)).
  { rewrite <- double_of_bits_value. change (double_of_bits 1) with (S754_finite false 1 (-1074)).
    unfold SF2R, F2R; cbn [cond_Zopp Fnum Fexp]. ring. }
  rewrite V. pose proof (bpow_gt_0 radix2 (-1074)) as P. rewrite Ztrunc_floor by lra.
  apply Zfloor_imp. split; [lra|]. apply Rlt_le_trans with (bpow radix2 0); [apply bpow_lt; lia|apply Rle_refl].
Qed.

(** ** C60: printing what was read *)

Lemma double_is_unique e u w : nan_ok (e_float e) -> float_literals_ok (e_lit e) -> bits64 u -> bits64 w ->
  (double_nan u /\ double_nan w) \/ (exists b, double_infinity u b /\ double_infinity w b) \/
  (double_finite u /\ double_finite w /\ double_value u = double_value w) ->
  lexi e (VDouble u) = lexi e (VDouble w).
Proof.
  intros HN (L1 & L2 & L3) HU HW [[A B]|[[b [A B]]|(A & B & V)]].
  - rewrite !lexi_nan; auto.
  - rewrite (lexi_infinity e u b), (lexi_infinity e w b); auto; destruct b; assumption.
  - destruct (Req_dec (double_value u) 0) as [Z0|N].
    + rewrite (lexi_zero e u), (lexi_zero e w) by (assumption || congruence). reflexivity.
    + rewrite (double_value_inj u w) by assumption. reflexivity.
Qed.

Lemma default_fits e : e_lit e = default_literals -> float_literals_ok (e_lit e).
Proof. intros ->. apply (sample_env Strict). Qed.

Lemma double_stable e u w s z : nan_ok (e_float e) -> e_lit e = default_literals -> bits64 u -> bits64 w ->
  fe_ld (e_float e) <> LD80 \/ Z.even u = true -> lexi e (VDouble u) = Ok s ->
  extract e "."%char TDouble s = Ok (XFloating z) -> double_is z w -> lexi e (VDouble w) = Ok s.
Proof.
  intros HN HL HU HW HF L X D. rewrite <- L. symmetry. apply double_is_unique; auto using default_fits.
  destruct (special_values e u HN HL HU) as (TN & TI & TM & TZ).
  destruct (special_texts_read e "."%char TDouble ltac:(auto)) as (R0 & RI & RM & RN).
  destruct (double_cases u HU) as [C|[[b C]|[[C Z0]|[C N]]]].
  - pose proof (proj2 TN C) as E. rewrite L in E. apply Ok_inj in E. subst s. rewrite RN in X. injection X as <-. left. auto.
  - right. left. exists b. split; [exact C|].
    destruct b; [pose proof (proj2 TM C) as E|pose proof (proj2 TI C) as E]; rewrite L in E; apply Ok_inj in E; subst s;
      [rewrite RM in X|rewrite RI in X]; injection X as <-; exact D.
  - pose proof (proj2 TZ (conj C Z0)) as E. rewrite L in E. apply Ok_inj in E. subst s. rewrite R0 in X. injection X as <-.
    right. right. destruct D as [F (_ & _ & V & _)]. split; [exact C|]. split; [exact F|]. rewrite Z0, <- V. reflexivity.
  - destruct (double_read_exact e u s HU C N L HF) as (z' & X' & S). rewrite X in X'. injection X' as <-.
    right. right. split; [exact C|]. destruct S as (_ & FZ & V & _).
    destruct z; try discriminate FZ; destruct D as [F (_ & _ & V' & _)]; (split; [exact F|]); congruence.
Qed.

Lemma double_stable_refuted : exists u w s z, bits64 u /\ bits64 w /\ lexi (linux_x86_64 zero_memory) (VDouble u) = Ok s /\
  extract (linux_x86_64 zero_memory) "."%char TDouble s = Ok (XFloating z) /\ double_is z w /\
  lexi (linux_x86_64 zero_memory) (VDouble w) <> Ok s.
Proof.
  exists 0x1c350e0d552e5ba9, 0x1c350e0d552e5baa. do 2 eexists.
  destruct (sample 0x1c350e0d552e5ba9 eq_refl) as (A & _). destruct (sample 0x1c350e0d552e5baa eq_refl) as (B & C & _).
  split; [exact A|]. split; [exact B|]. split; [vm_compute; reflexivity|]. split; [vm_compute; reflexivity|].
  split; [split; [exact C|exact (bits_same_double _ C)]|]. vm_compute. discriminate.
Qed.

Lemma float_stable e u w s z : nan_ok (e_float e) -> e_lit e = default_literals -> bits32 u -> bits32 w ->
  lexi e (VFloat u) = Ok s -> extract e "."%char TFloat s = Ok (XFloating z) -> float_is z w -> lexi e (VFloat w) = Ok s.
Proof.
  intros HN HL HU HW L X D.
  destruct (float_special_read e u s HN HL HU L) as (RZ & RI & RN).
  destruct (float_printed e u HN HU) as (u' & BU & _ & LU & NU & IU & FU).
  destruct (float_printed e w HN HW) as (w' & BW & _ & LW & NW & IW & FW).
  rewrite <- L, LU, LW. symmetry. apply double_is_unique; auto using default_fits.
  assert (C : float_nan u \/ (exists b, float_infinity u b) \/ float_finite u).
  { unfold float_nan, float_infinity, float_finite. destruct (Bits.b32_of_bits u); cbn; eauto. }
  destruct C as [C|[[b C]|C]].
  - rewrite (RN C) in X. injection X as <-. left. auto.
  - rewrite (RI b C) in X. injection X as <-. right. left. exists b. auto.
  - right. right. destruct (FU C) as (A1 & A2 & _). split; [exact A1|]. rewrite A2.
    destruct (Req_dec (float_value u) 0) as [Z0|N].
    + rewrite (RZ C Z0) in X. injection X as <-. destruct D as [F (_ & _ & V & _)]. destruct (FW F) as (B1 & B2 & _).
      split; [exact B1|]. rewrite B2, Z0, <- V. reflexivity.
    + destruct (float_read e u s HN HU C N L) as (z' & X' & S). rewrite X in X'. injection X' as <-.
      destruct S as (_ & FZ & V & _). destruct z; try discriminate FZ; destruct D as [F (_ & _ & V' & _)];
        destruct (FW F) as (B1 & B2 & _); (split; [exact B1|]); congruence.
Qed.

(** ** C61: reading preserves order *)

(** A float as a real, infinities as the first power of two out of range. *)
Definition place (q : Z) (z : spec_float) : R :=
  match z with
  | S754_infinity s => signed s (bpow radix2 q)
  | _ => SF2R radix2 z
  end.
Definition clamp (q : Z) (x : R) : R := Rmax (- bpow radix2 q) (Rmin (bpow radix2 q) x).

Lemma clamp_le q x y : (x <= y -> clamp q x <= clamp q y)%R.
Proof.
  intros H. unfold clamp. apply Rmax_lub; [apply Rmax_l|]. eapply Rle_trans; [|apply Rmax_r].
  apply Rmin_glb; [apply Rmin_l|]. eapply Rle_trans; [apply Rmin_r|exact H].
Qed.

Lemma clamp_in q x : (Rabs x < bpow radix2 q -> clamp q x = x)%R.
Proof.
  intros H. apply Rabs_def2 in H. unfold clamp. rewrite Rmin_right by lra. apply Rmax_right. lra.
Qed.
Lemma clamp_high q x : (bpow radix2 q <= x -> clamp q x = bpow radix2 q)%R.
Proof. intros H. pose proof (bpow_gt_0 radix2 q). unfold clamp. rewrite Rmin_left by lra. apply Rmax_right. lra. Qed.
Lemma clamp_low q x : (x <= - bpow radix2 q -> clamp q x = - bpow radix2 q)%R.
Proof. intros H. pose proof (bpow_gt_0 radix2 q). unfold clamp. rewrite Rmin_right by lra. apply Rmax_left. lra. Qed.

Lemma rounded_place p q z neg x : good_format p q -> rounded p q z neg x -> (neg = true -> x <= 0)%R -> (neg = false -> 0 <= x)%R ->
  place q z = clamp q (nearest p q x) /\ z <> S754_nan.
Proof.
  intros G [V R] S1 S2. assert (N0 : nearest p q 0 = 0%R) by (apply nearest_zero; apply G).
  destruct (Rlt_bool_spec (Rabs (nearest p q x)) (bpow radix2 q)) as [B|B].
  - destruct R as (R & F & _). rewrite clamp_in by exact B. split; [|destruct z; discriminate].
    destruct z; try discriminate F; exact R.
  - subst z. split; [|discriminate]. cbn [place]. destruct neg; cbn [signed].
    + specialize (S1 eq_refl). apply (nearest_le p q) in S1; [|apply G]. rewrite N0 in S1.
      rewrite clamp_low; [reflexivity|]. rewrite Rabs_left1 in B by exact S1. lra.
    + specialize (S2 eq_refl). apply (nearest_le p q) in S2; [|apply G]. rewrite N0 in S2.
      rewrite clamp_high; [reflexivity|]. rewrite Rabs_pos_eq in B by exact S2. lra.
Qed.

Lemma place_order p q a b : SpecFloat.valid_binary p q a = true -> SpecFloat.valid_binary p q b = true -> good_format p q ->
  a <> S754_nan -> b <> S754_nan -> (place q a <= place q b)%R -> at_most a b.
Proof.
  intros VA VB G NA NB H. pose proof (bpow_gt_0 radix2 q) as P.
  assert (X : forall z, SpecFloat.valid_binary p q z = true -> is_finite_SF z = true -> (Rabs (SF2R radix2 z) < bpow radix2 q)%R).
  { intros z V F. apply (sf_format p q z G V F). }
  assert (Y : forall z, SpecFloat.valid_binary p q z = true -> is_finite_SF z = true -> (- bpow radix2 q < SF2R radix2 z < bpow radix2 q)%R).
  { intros z V F. specialize (X z V F). apply Rabs_def2 in X. lra. }
  specialize (Y a VA) as Ya. specialize (Y b VB) as Yb.
  destruct a as [sa|[|]| |sa ma ea], b as [sb|[|]| |sb mb eb]; try congruence; cbn [at_most place signed is_finite_SF] in *; auto; try lra.
Qed.

Lemma narrowed_place p q p' q' y z : good_format p q -> good_format p' q' -> q' <= q ->
  SpecFloat.valid_binary p q y = true -> y <> S754_nan -> narrowed p' q' y z ->
  place q' z = clamp q' (nearest p' q' (place q y)) /\ z <> S754_nan /\ SpecFloat.valid_binary p' q' z = true.
Proof.
  intros G G' Q V NN N. assert (FB : nearest p' q' (bpow radix2 q) = bpow radix2 q).
  { apply nearest_exact; [apply G'|]. apply generic_format_bpow. unfold binary_format, FLT_exp. destruct G'. lia. }
  assert (FM : nearest p' q' (- bpow radix2 q) = (- bpow radix2 q)%R).
  { apply nearest_exact; [apply G'|]. apply generic_format_opp. apply generic_format_bpow. unfold binary_format, FLT_exp. destruct G'. lia. }
  pose proof (bpow_le radix2 q' q Q) as QB.
  destruct y as [s|s| |s m k]; [| |congruence|].
  - cbn in N. subst z. split; [|split; [discriminate|reflexivity]]. cbn [place SF2R]. rewrite nearest_zero by apply G'.
    rewrite clamp_in; [reflexivity|]. rewrite Rabs_R0. apply bpow_gt_0.
  - cbn in N. subst z. split; [|split; [discriminate|reflexivity]]. destruct s; cbn [place signed].
    + rewrite FM, clamp_low; [reflexivity|lra].
    + rewrite FB, clamp_high; [reflexivity|lra].
  - cbn [narrowed] in N.
    assert (SG : ((s = true -> SF2R radix2 (S754_finite s m k) <= 0) /\ (s = false -> 0 <= SF2R radix2 (S754_finite s m k)))%R).
    { unfold SF2R. split; intros ->; cbn [cond_Zopp]; [apply F2R_le_0|apply F2R_ge_0]; cbn [Fnum]; lia. }
    destruct (rounded_place p' q' z s _ G' N (proj1 SG) (proj2 SG)) as [A B].
    split; [exact A|]. split; [exact B|]. apply N.
Qed.

Lemma read_place e point s v x : point_ok point -> reads point s v -> denotes v x ->
  let p := ld_prec (fe_ld (e_float e)) in let q := ld_emax (fe_ld (e_float e)) in
  exists y, extract e point TLongDouble s = Ok (XFloating y) /\ SpecFloat.valid_binary p q y = true /\ y <> S754_nan /\
    place q y = clamp q (nearest p q x) /\
    (exists z, extract e point TDouble s = Ok (XFloating z) /\ SpecFloat.valid_binary 53 1024 z = true /\ z <> S754_nan /\
       place 1024 z = clamp 1024 (nearest 53 1024 (place q y))) /\
    (exists z, extract e point TFloat s = Ok (XFloating z) /\ SpecFloat.valid_binary 24 128 z = true /\ z <> S754_nan /\
       place 128 z = clamp 128 (nearest 24 128 (place q y))).
Proof.
  intros PO R D p q. pose proof (ld_good (fe_ld (e_float e))) as G. fold p q in G.
  destruct (float_extracts e point s v PO R) as (y & RY & EY & (z & EZ & NZ) & (w & EW & NW)). fold p q in RY.
  pose proof (reads_denote point s v PO) as RD. apply RD in R. destruct (denote_nonneg point s) as [DD DH]. rewrite <- R in DD, DH.
  assert (X : SpecFloat.valid_binary p q y = true /\ y <> S754_nan /\ place q y = clamp q (nearest p q x)).
  { assert (Y : exists neg, rounded p q y neg x /\ (neg = true -> x <= 0)%R /\ (neg = false -> 0 <= x)%R).
    { destruct v as [neg A K|neg A K| | |]; try contradiction D; cbn [denotes read_as] in *; subst x; exists neg; (split; [exact RY|]).
      - specialize (DD neg A K eq_refl). apply IZR_le in DD. pose proof (bpow_gt_0 radix10 K).
        split; intros ->; cbn [signed]; [apply Ropp_le_cancel; rewrite Ropp_0, Ropp_involutive|]; apply Rmult_le_pos; lra.
      - specialize (DH neg A K eq_refl). apply IZR_le in DH. pose proof (bpow_gt_0 radix2 K).
        split; intros ->; cbn [signed]; [apply Ropp_le_cancel; rewrite Ropp_0, Ropp_involutive|]; apply Rmult_le_pos; lra. }
    destruct Y as (neg & Y & S1 & S2). destruct (rounded_place p q y neg x G Y S1 S2) as [A B]. split; [apply Y|]. auto. }
  destruct X as (V & NN & PL). exists y. split; [exact EY|]. split; [exact V|]. split; [exact NN|]. split; [exact PL|].
  assert (Q : 1024 <= q /\ 128 <= q) by (unfold q; destruct (fe_ld (e_float e)); cbn; lia).
  split.
  - exists z. destruct (narrowed_place p q 53 1024 y z G double_good (proj1 Q) V NN NZ) as (A & B & C). auto.
  - exists w. destruct (narrowed_place p q 24 128 y w G float_good (proj2 Q) V NN NW) as (A & B & C). auto.
Qed.

Lemma reading_ordered e point1 point2 s1 s2 v1 v2 x1 x2 T : point_ok point1 -> point_ok point2 ->
  reads point1 s1 v1 -> reads point2 s2 v2 -> denotes v1 x1 -> denotes v2 x2 -> (x1 <= x2)%R ->
  T = TFloat \/ T = TDouble \/ T = TLongDouble ->
  exists z1 z2, extract e point1 T s1 = Ok (XFloating z1) /\ extract e point2 T s2 = Ok (XFloating z2) /\ at_most z1 z2.
Proof.
  intros P1 P2 R1 R2 D1 D2 H HT.
  destruct (read_place e point1 s1 v1 x1 P1 R1 D1) as (y1 & E1 & V1 & N1 & L1 & (d1 & ED1 & VD1 & ND1 & LD1) & (f1 & EF1 & VF1 & NF1 & LF1)).
  destruct (read_place e point2 s2 v2 x2 P2 R2 D2) as (y2 & E2 & V2 & N2 & L2 & (d2 & ED2 & VD2 & ND2 & LD2) & (f2 & EF2 & VF2 & NF2 & LF2)).
  pose proof (ld_good (fe_ld (e_float e))) as G.
  assert (M : (place (ld_emax (fe_ld (e_float e))) y1 <= place (ld_emax (fe_ld (e_float e))) y2)%R).
  { rewrite L1, L2. apply clamp_le, nearest_le; [apply G|exact H]. }
  destruct HT as [->|[->| ->]].
  - exists f1, f2. split; [exact EF1|]. split; [exact EF2|]. apply (place_order 24 128); auto using float_good.
    rewrite LF1, LF2. apply clamp_le, nearest_le; [lia|exact M].
  - exists d1, d2. split; [exact ED1|]. split; [exact ED2|]. apply (place_order 53 1024); auto using double_good.
    rewrite LD1, LD2. apply clamp_le, nearest_le; [lia|exact M].
  - exists y1, y2. split; [exact E1|]. split; [exact E2|]. apply (place_order _ _ y1 y2 V1 V2 G N1 N2 M).
Qed.

(** ** C55: sizes *)

Lemma natural_length l n k : canonical_natural l n -> n < 10 ^ Z.of_nat k -> (1 <= k)%nat -> (length l <= k)%nat.
Proof.
  intros C B K. destruct (list_eq_dec ascii_dec l ["0"%char]) as [->|N]; [cbn; lia|].
  pose proof (canonical_natural_lower l n C N) as L. apply Nat.nlt_ge. intros X.
  assert (10 ^ Z.of_nat k <= 10 ^ (Z.of_nat (length l) - 1)) by (apply Z.pow_le_mono_r; lia). lia.
Qed.

Lemma integer_length s v k : canonical_integer s v -> - 10 ^ (Z.of_nat k - 1) < v < 10 ^ Z.of_nat k -> (2 <= k)%nat -> (length s <= k)%nat.
Proof.
  intros [[P C]|[P (r & -> & C)]] B K.
  - apply (natural_length s v k C); lia.
  - destruct k as [|k]; [lia|]. cbn [length]. apply le_n_S. apply (natural_length r (- v) k C); [|lia].
    replace (Z.of_nat (S k) - 1) with (Z.of_nat k) in B by lia. lia.
Qed.

Lemma integer_length_at s v k a b : canonical_integer s v -> (2 <=? k)%nat = true ->
  10 ^ (Z.of_nat k - 1) = a -> 10 ^ Z.of_nat k = b -> - a < v < b -> (length s <= k)%nat.
Proof. intros C K <- <- B. apply Nat.leb_le in K. exact (integer_length s v k C B K). Qed.

Lemma integer_limit_spec s v w (sg : bool) : canonical_integer s v -> w = 8 \/ w = 16 \/ w = 32 \/ w = 64 ->
  (if sg then - 2 ^ (w - 1) <= v < 2 ^ (w - 1) else 0 <= v < 2 ^ w) -> (length s <= integer_limit w sg)%nat.
Proof.
  intros C W B.
  destruct W as [->|[->|[->| ->]]], sg; cbn [integer_limit];
    (eapply integer_length_at; [exact C|reflexivity|vm_compute; reflexivity|vm_compute; reflexivity|]);
    repeat match type of B with context [2 ^ ?k] => let z := eval vm_compute in (2 ^ k) in change (2 ^ k) with z in B end; lia.
Qed.

Lemma integer_size e t v s : platform_ok (e_platform e) -> has_int_type (e_platform e) t v -> lexi e (VInt t v) = Ok s ->
  (1 <= length s <= integer_limit (int_bits (e_platform e) t) (int_signed t))%nat.
Proof.
  intros HP HV L. destruct (integer_formats e t v HP HV) as (s' & L' & _ & _ & _ & C). rewrite L in L'. apply Ok_inj in L'. subst s'.
  split.
  - destruct C as [[_ (N & _)]|[_ (r & -> & _)]]; [destruct s; [congruence|cbn; lia]|cbn; lia].
  - apply (integer_limit_spec s v); [exact C| |exact HV]. destruct HP as [P _]. destruct t; cbn [int_bits]; lia.
Qed.

Ltac literal_integer := first
  [ left; split; [lia|] | right; split; [lia|]; eexists; split; [reflexivity|] ];
  (split; [discriminate|]; split; [repeat (apply Forall_cons; [split; vm_compute; discriminate|]); apply Forall_nil|]; split; [reflexivity|let X := fresh in intros ? X; discriminate X]).

Lemma integer_size_attained e t : platform_ok (e_platform e) -> exists v s, has_int_type (e_platform e) t v /\
  lexi e (VInt t v) = Ok s /\ length s = integer_limit (int_bits (e_platform e) t) (int_signed t).
Proof.
  intros HP. assert (X : forall v t0, has_int_type (e_platform e) t v -> canonical_integer t0 v ->
    length t0 = integer_limit (int_bits (e_platform e) t) (int_signed t) -> exists v s, has_int_type (e_platform e) t v /\
    lexi e (VInt t v) = Ok s /\ length s = integer_limit (int_bits (e_platform e) t) (int_signed t)).
  { intros v t0 HV C L. destruct (integer_formats e t v HP HV) as (s & E & _ & _ & _ & C'). exists v, s. split; [exact HV|].
    split; [exact E|]. rewrite (canonical_integer_unique s t0 v C' C). exact L. }
  unfold has_int_type in *. destruct HP as [P _].
  assert (Y : forall w, (w = 8 \/ w = 16 \/ w = 32 \/ w = 64) -> w = int_bits (e_platform e) t ->
    exists v t0, (if int_signed t then - 2 ^ (int_bits (e_platform e) t - 1) <= v < 2 ^ (int_bits (e_platform e) t - 1) else 0 <= v < 2 ^ int_bits (e_platform e) t) /\ canonical_integer t0 v /\
      length t0 = integer_limit (int_bits (e_platform e) t) (int_signed t)).
  { intros w W <-. destruct (int_signed t), W as [->|[->|[->| ->]]].
    - exists (-128), (str "-128"). split; [lia|]. split; [literal_integer|reflexivity].
    - exists (-32768), (str "-32768"). split; [lia|]. split; [literal_integer|reflexivity].
    - exists (-2147483648), (str "-2147483648"). split; [lia|]. split; [literal_integer|reflexivity].
    - exists (-9223372036854775808), (str "-9223372036854775808"). split; [lia|]. split; [literal_integer|reflexivity].
    - exists 255, (str "255"). split; [lia|]. split; [literal_integer|reflexivity].
    - exists 65535, (str "65535"). split; [lia|]. split; [literal_integer|reflexivity].
    - exists 4294967295, (str "4294967295"). split; [lia|]. split; [literal_integer|reflexivity].
    - exists 18446744073709551615, (str "18446744073709551615"). split; [lia|]. split; [literal_integer|reflexivity]. }
  destruct (Y (int_bits (e_platform e) t) ltac:(destruct t; cbn [int_bits]; lia) eq_refl) as (v & t0 & A & B & C). exact (X v t0 A B C).
Qed.

Lemma exponent_length x k : canonical_integer x k -> -1000 < k < 1000 -> (length x <= 4)%nat.
Proof. intros C B. apply (integer_length_at x k 4 1000 10000 C); try reflexivity. lia. Qed.

Lemma written_length D n t : written D n t -> (1 <= length D <= 17)%nat -> -1000 < n - 1 < 1000 -> (3 <= length t <= 24)%nat.
Proof.
  intros W L B. destruct W as [z H _ E|a b H -> A0 B0 E|z H _ E|d x H -> C|d r x H -> R C];
    rewrite ?app_length in *; cbn [length] in *.
  - change (length (str ".0")) with 2%nat. lia.
  - destruct a; [congruence|]. destruct b; [congruence|]. cbn [length] in *. rewrite ?app_length in *; cbn [length] in *. lia.
  - change (length (str "0.")) with 2%nat. lia.
  - pose proof (exponent_length x _ C B). destruct C as [[_ (N & _)]|[_ (q & -> & _)]]; [destruct x; [congruence|]|]; cbn [length] in *; lia.
  - pose proof (exponent_length x _ C B). rewrite ?app_length in *; cbn [length] in *. lia.
Qed.

Lemma double_size e u s : nan_ok (e_float e) -> e_lit e = default_literals -> bits64 u -> lexi e (VDouble u) = Ok s ->
  (3 <= length s <= 25)%nat.
Proof.
  intros HN HL H L. destruct (special_values e u HN HL H) as (TN & TI & TM & TZ).
  assert (D : forall t, lexi e (VDouble u) = Ok t -> (3 <= length t <= 25)%nat -> (3 <= length s <= 25)%nat).
  { intros t E X. rewrite L in E. apply Ok_inj in E. subst t. exact X. }
  destruct (double_cases u H) as [C|[[b C]|[C|[F N]]]].
  - apply TN in C. apply (D _ C). cbn. lia.
  - destruct b; [apply TM in C|apply TI in C]; apply (D _ C); cbn; lia.
  - apply TZ in C. apply (D _ C). cbn. lia.
  - destruct (finite_number e u s H F N L) as (ds & K & F0 & E & k & kap & FP & G & GD & GE & Es & _).
    pose proof (layout_written ds K GD GE) as W. pose proof (go_length _ _ _ _ _ _ _ G) as GL.
    destruct GD as [_ (d & r & Eds & _)].
    apply written_length in W; [|rewrite map_length; rewrite Eds in *; cbn [length] in *; lia|exact GE].
    rewrite Es, app_length. unfold sign_text. destruct (sign_field u); cbn [length]; lia.
Qed.

Lemma floating_size e v s : nan_ok (e_float e) -> e_lit e = default_literals -> floating_ok e v -> lexi e v = Ok s ->
  (3 <= length s <= 25)%nat.
Proof.
  intros HN HL H L. rewrite lexi_as_double in L by assumption.
  apply (double_size e (printed e v) s HN HL); [apply printed_bits; assumption|exact L].
Qed.
