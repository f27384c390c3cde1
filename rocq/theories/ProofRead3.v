(** Floats, long doubles, locales and short decimals read back. *)
From Coq Require Import Reals Lra Psatz Floats.SpecFloat.
From Flocq Require Import Core Relative.
From Flocq Require IEEE754.Binary IEEE754.Bits.
From Flocq Require Import IEEE754.BinarySingleNaN.
From Verif Require Import Machine LibMachine SpecApi SpecDecimal SpecInt SpecNumber SpecIeee SpecString SpecJson SpecRead
  ModelItoa ModelInt ModelText ModelIeee ModelDiyfp ModelDtoa
  ModelFloat ModelLexi ModelPlatforms ProofDiyfp ProofCached ProofDigits ProofGrisu ProofLayout ProofText ProofInt ProofIeee ProofDtoa ProofNumber
  ProofRound ProofStrict ProofUnique ProofShort ProofApi ProofFloat ProofFloat2 ProofFloat3 ProofFloat4 ProofRead ProofRead2.
Open Scope Z_scope.
Ltac Zify.zify_post_hook ::= idtac.

Open Scope R_scope.

Lemma float_value_facts u : generic_format radix2 fexp32 (float_value u) /\ Rabs (float_value u) < bpow radix2 128.
Proof.
  unfold float_value. split; [apply Binary.generic_format_B2R|apply Binary.abs_B2R_lt_emax].
Qed.

Lemma generic_abs p q x : generic_format radix2 (binary_format p q) x -> generic_format radix2 (binary_format p q) (Rabs x).
Proof. apply generic_format_abs. Qed.

Lemma float_read e u s : nan_ok (e_float e) -> bits32 u -> float_finite u -> float_value u <> 0 -> lexi e (VFloat u) = Ok s ->
  exists z, extract e "."%char TFloat s = Ok (XFloating z) /\ same_float z u.
Proof.
  intros HN H Fi N L. destruct (float_printed e u HN H) as (w & Hw & _ & E & _ & _ & FW).
  destruct (FW Fi) as (Fw & Vw & Sw). rewrite E in L. rewrite <- Vw in N.
  destruct (read_between e w s Hw Fw N L) as (y & ds & K & F & X & k & kap & FP & G & DV & Bn & Ey & Ry & Fy & B & _ & (z & Ez & Vz & Rz)).
  exists z. split; [exact Ez|]. split; [exact Vz|].
  pose proof (ld_between (fe_ld (e_float e)) _ _ FP Bn) as B2. pose proof (lower_positive _ FP) as LP. pose proof (bpow_gt_0 radix2 (-1076)) as P0.
  pose proof (dbl_R_pos _ FP) as P. pose proof (lower_above_mid _ FP) as LM. rewrite (upper_is_mid _ FP) in B2.
  set (v := nearest (ld_prec _) (ld_emax _) (digits_R ds K)) in *. set (x := dbl_R (w mod 2 ^ 63)) in *.
  destruct (float_value_facts u) as [FF FM]. apply generic_abs in FF.
  assert (Ex : Rabs (float_value u) = x) by (rewrite <- Vw, DV; apply Rabs_neg_if; lra). rewrite Ex in *.
  destruct (float_neighbours x P FF) as (N1 & N2 & N3).
  assert (NV : nearest 24 128 v = x).
  { apply Rle_antisym.
    - apply round_N_le_midp; [typeclasses eauto|exact FF|lra].
    - apply round_N_ge_midp; [typeclasses eauto|exact FF|lra]. }
  rewrite Ry, nearest_neg, NV, Rabs_neg_if in Rz by lra. rewrite Rlt_bool_true in Rz by exact FM.
  destruct Rz as (R1 & R2 & R3). split; [exact R2|]. rewrite <- Vw, DV, <- Sw. rewrite double_sign_field by exact Hw. auto.
Qed.

(** Zero, infinities and NaN. *)
Lemma zero_reads e point T : T = TFloat \/ T = TDouble \/ T = TLongDouble ->
  extract e point T (str "0.0") = Ok (XFloating (S754_zero false)).
Proof.
  intros H. set (p := ld_prec (fe_ld (e_float e))). set (q := ld_emax (fe_ld (e_float e))).
  assert (X : strtold p q point (str "0.0") = S754_zero false).
  { destruct point as [[] [] [] [] [] [] [] []]; reflexivity. }
  destruct H as [->|[->| ->]]; cbn [extract ExtractFloat bind]; unfold ExtractFloat, ExtractFloat_float, ExtractFloat_double, ExtractFloat_long_double;
    fold p q; rewrite X; reflexivity.
Qed.

Lemma special_reads e point T : T = TFloat \/ T = TDouble \/ T = TLongDouble ->
  extract e point T (str "Infinity") = Ok (XFloating (S754_infinity false)) /\
  extract e point T (str "-Infinity") = Ok (XFloating (S754_infinity true)) /\
  extract e point T (str "NaN") = Ok (XFloating S754_nan).
Proof. intros [->|[->| ->]]; repeat split; reflexivity. Qed.

(** ** long double *)

Lemma long_double_valid e s y : extract e "."%char TLongDouble s = Ok (XFloating y) ->
  SpecFloat.valid_binary (ld_prec (fe_ld (e_float e))) (ld_emax (fe_ld (e_float e))) y = true.
Proof.
  intros H. destruct (reads_total "." s dot_ok) as (v & R & _).
  destruct (float_extracts e "." s v dot_ok R) as (y' & A & B & _). rewrite B in H. injection H as ->.
  destruct v; cbn [read_as] in A; try (subst; reflexivity); apply A.
Qed.

Lemma long_double_exact e x s : nan_ok (e_float e) -> fe_ld (e_float e) = LD64 -> floating_ok e (VLongDouble x) ->
  is_finite_SF x = true -> SF2R radix2 x <> 0 -> lexi e (VLongDouble x) = Ok s ->
  extract e "."%char TLongDouble s = Ok (XFloating x).
Proof.
  intros HN LD Hx Fi N L. destruct (long_double_printed e x HN Hx) as (w & Hw & _ & E & M).
  rewrite E in L. cbn [floating_ok] in Hx. rewrite LD in Hx. cbn [ld_prec ld_emax] in Hx.
  destruct (sf_format 53 1024 x double_good Hx Fi) as [FX RX].
  destruct x as [b|b| |b m c]; try discriminate Fi; [contradiction N; reflexivity|].
  set (x := S754_finite b m c) in *. rewrite (nearest_exact 53 1024 (SF2R radix2 x) ltac:(lia) FX) in M.
  rewrite Rlt_bool_true in M by exact RX. destruct M as (Fw & Vw & Sw).
  rewrite <- Vw in N.
  destruct (read_between e w s Hw Fw N L) as (y & ds & K & F & X & k & kap & FP & G & DV & Bn & Ey & Ry & Fy & B & _ & _).
  pose proof (long_double_valid e s y Ey) as Vy. rewrite LD in Vy, Ry. cbn [ld_prec ld_emax] in Vy, Ry.
  rewrite Ey. do 2 f_equal. rewrite (between_round _ _ _ FP Bn : nearest 53 1024 _ = _) in Ry.
  assert (EV : SF2R radix2 y = SF2R radix2 x) by congruence.
  apply (sf_inj 53 1024); [exact Vy|exact Hx|exact Fy|exact Fi|exact EV|].
  destruct y as [b'|b'| |b' m' c']; try discriminate Fy.
  - exfalso. apply N. rewrite Vw, <- EV. reflexivity.
  - unfold x in EV. cbn [SF2R sign_SF] in *. destruct b, b'; try reflexivity; exfalso; unfold F2R in EV; cbn [Fnum Fexp cond_Zopp] in EV;
      pose proof (bpow_gt_0 radix2 c); pose proof (bpow_gt_0 radix2 c');
      [assert (IZR (Z.neg m) < 0) by (apply IZR_lt; reflexivity); assert (0 < IZR (Z.pos m')) by (apply IZR_lt; reflexivity)
      |assert (0 < IZR (Z.pos m)) by (apply IZR_lt; reflexivity); assert (IZR (Z.neg m') < 0) by (apply IZR_lt; reflexivity)];
      cbn [Z.opp] in EV; nra.
Qed.

(** ** Other decimal points, C38 *)

(** A number without a fraction reads the same with every decimal point; of a number with a
    fraction only the integer part is read when the decimal point is another character. *)
Lemma locale_reads e point s n : point_ok point -> json_number s n -> point <> "."%char ->
  exists y, rounded (ld_prec (fe_ld (e_float e))) (ld_emax (fe_ld (e_float e))) y (n_negative n)
      (match n_fraction n with None => n_value n | Some _ => signed (n_negative n) (IZR (numeral_value (n_integer n))) end) /\
    extract e point TLongDouble s = Ok (XFloating y) /\
    (exists z, extract e point TDouble s = Ok (XFloating z) /\ narrowed 53 1024 y z) /\
    (exists z, extract e point TFloat s = Ok (XFloating z) /\ narrowed 24 128 y z).
Proof.
  intros PO J NP. destruct (float_extracts e point s _ PO (json_reads_at point s n PO J)) as (y & A & B). exists y.
  split; [|exact B]. destruct (n_fraction n) as [f|].
  - destruct (ascii_dec point "."%char) as [C|C]; [contradiction|]. cbn [read_as integer_part] in A.
    change (bpow radix10 0) with 1 in A. rewrite Rmult_1_r in A. exact A.
  - exact A.
Qed.

Lemma locale_same e point s n : point_ok point -> json_number s n -> n_fraction n = None ->
  forall T, T = TFloat \/ T = TDouble \/ T = TLongDouble -> extract e point T s = extract e "."%char T s.
Proof.
  intros PO J NF T HT. pose proof (json_reads_at point s n PO J) as R. pose proof (json_reads s n J) as R0. rewrite NF in R.
  assert (X : strtold (ld_prec (fe_ld (e_float e))) (ld_emax (fe_ld (e_float e))) point s =
              strtold (ld_prec (fe_ld (e_float e))) (ld_emax (fe_ld (e_float e))) "."%char s).
  { pose proof (strtold_reads _ _ point s _ (ld_good (fe_ld (e_float e))) PO R) as A. pose proof (strtold_reads _ _ "."%char s _ (ld_good (fe_ld (e_float e))) dot_ok R0) as B.
    exact (rounded_unique _ _ _ _ _ _ A B). }
  destruct HT as [->|[->| ->]]; cbn [extract]; unfold ExtractFloat; rewrite X; reflexivity.
Qed.

(** ** Short decimals, C48 *)

Lemma decimals_apart N J D K (v : Z) : finite_pos v -> (2 ^ 52 <= dbl_f v)%Z ->
  (0 < N < 10 ^ 15)%Z -> (0 < D < 10 ^ 15)%Z ->
  lower_R v <= IZR N * bpow radix10 J <= upper_R v -> lower_R v <= IZR D * bpow radix10 K <= upper_R v ->
  IZR N * bpow radix10 J = IZR D * bpow radix10 K.
Proof.
  intros H Hf. revert N J D K.
  assert (W : forall N J D K, (J <= K)%Z -> (0 < N < 10 ^ 15)%Z -> (0 < D < 10 ^ 15)%Z ->
    lower_R v <= IZR N * bpow radix10 J <= upper_R v -> lower_R v <= IZR D * bpow radix10 K <= upper_R v ->
    IZR N * bpow radix10 J = IZR D * bpow radix10 K).
  { intros N J D K HJ HN HD B1 B2. replace K with ((K - J) + J)%Z in * by lia. rewrite bpow_plus in *.
    rewrite <- (IZR_Zpower radix10 (K - J)) in * by lia. rewrite <- Rmult_assoc, <- mult_IZR in *.
    set (M := (D * radix10 ^ (K - J))%Z) in *. destruct (Z.eq_dec N M) as [->|NE]; [reflexivity|exfalso].
    destruct (gap_R v) as [U L]. pose proof (bpow_gt_0 radix2 (dbl_e v)) as Pb. pose proof (bpow_gt_0 radix10 J) as Pj.
    assert (N15 : IZR N <= IZR (10 ^ 15)) by (apply IZR_le; lia). change (IZR (10 ^ 15)) with 1000000000000000 in N15.
    assert (F52 : IZR (2 ^ 52) <= IZR (dbl_f v)) by (apply IZR_le; exact Hf). change (IZR (2 ^ 52)) with 4503599627370496 in F52.
    assert (LL : (4503599627370496 - / 2) * bpow radix2 (dbl_e v) <= lower_R v).
    { rewrite L. unfold dbl_R. destruct (_ =? _)%Z; nra. }
    assert (UW : upper_R v - lower_R v <= bpow radix2 (dbl_e v)) by (rewrite U, L; destruct (_ =? _)%Z; lra).
    assert (J15 : lower_R v <= 1000000000000000 * bpow radix10 J) by nra.
    assert (AP : 1 <= Rabs (IZR N - IZR M)).
    { rewrite <- minus_IZR, <- abs_IZR. apply IZR_le. lia. }
    assert (DI : Rabs (IZR N - IZR M) * bpow radix10 J <= upper_R v - lower_R v).
    { rewrite <- (Rabs_pos_eq (bpow radix10 J)) by lra. rewrite <- Rabs_mult, Rmult_minus_distr_r. apply Rabs_le. lra. }
    nra. }
  intros N J D K HN HD B1 B2. destruct (Z.le_ge_cases J K) as [C|C]; [apply W; assumption|symmetry; apply W; assumption].
Qed.

Lemma normal_significand u : finite_pos u -> bpow radix2 (-1022) <= dbl_R u -> (2 ^ 52 <= dbl_f u)%Z.
Proof.
  intros H B. destruct (Z.le_gt_cases (2 ^ 52) (dbl_f u)) as [|C]; [assumption|exfalso].
  assert (E : dbl_e u = (-1074)%Z).
  { unfold dbl_e, dbl_f in *. pose proof (Z.mod_pos_bound u (2 ^ 52) ltac:(lia)) as F. fold (frac_field u) in F.
    destruct (_ =? _)%Z; [reflexivity|lia]. }
  unfold dbl_R in B. rewrite E in B. change (-1022)%Z with (52 + -1074)%Z in B. rewrite bpow_plus in B.
  pose proof (bpow_gt_0 radix2 (-1074)) as P. apply Rmult_le_reg_r in B; [|exact P].
  change (bpow radix2 52) with (IZR (2 ^ 52)) in B. apply le_IZR in B. lia.
Qed.

Lemma short_decimal_back e u s n D K' : bits64 u -> double_finite u -> lexi e (VDouble u) = Ok s -> json_number s n ->
  (0 < D < 10 ^ 15)%Z ->
  let x := Rabs (double_value u) in let margin := ulp radix2 fexp64 x / 500 in
  bpow radix2 (-1022) <= x ->
  lower_end x + margin <= IZR D * bpow radix10 K' <= upper_end x - margin ->
  n_magnitude n = IZR D * bpow radix10 K'.
Proof.
  intros H F L J' HD x margin NR B.
  assert (N : double_value u <> 0).
  { intros Z0. unfold x in NR. rewrite Z0, Rabs_R0 in NR. pose proof (bpow_gt_0 radix2 (-1022)). lra. }
  destruct (finite_number e u s H F N L) as (ds & K & F0 & E & k & kap & FP & G & GD & GE & Es & J & M & V & Bn & DV).
  rewrite (json_number_unique _ _ _ J' J), M. unfold digits_R in *.
  pose proof (dbl_R_pos _ FP) as PV.
  assert (Ex : x = dbl_R (u mod 2 ^ 63)) by (unfold x; rewrite DV; apply Rabs_neg_if; lra).
  assert (UP : 0 < margin) by (unfold margin; rewrite Ex, dbl_ulp by exact FP; pose proof (bpow_gt_0 radix2 (dbl_e (u mod 2 ^ 63))); lra).
  destruct (nval_bounds ds GD) as [N0 N1].
  assert (LD : (10 ^ (Z.of_nat (length ds) - 1) <= D)%Z).
  { destruct (Z.le_gt_cases (10 ^ (Z.of_nat (length ds) - 1)) D) as [|C]; [assumption|exfalso].
    unfold margin in B. rewrite Ex in B. rewrite lower_end_eq in B by exact FP.
    unfold upper_end in B. rewrite <- upper_is_mid, dbl_ulp in B by exact FP.
    apply (fewest_digits (u mod 2 ^ 63) ds K F0 E k kap D K' FP G); [lia|].
    apply (interval_covers _ ds K F0 E k kap _ FP G B). }
  pose proof (go_length _ _ _ _ _ _ _ G) as GL.
  assert (L15 : (Z.of_nat (length ds) <= 15)%Z).
  { destruct (Z.le_gt_cases (Z.of_nat (length ds)) 15) as [|C]; [assumption|exfalso].
    assert (10 ^ 15 <= 10 ^ (Z.of_nat (length ds) - 1))%Z by (apply Z.pow_le_mono_r; lia). lia. }
  assert (NB : (0 < nval ds < 10 ^ 15)%Z).
  { assert (0 < 10 ^ (Z.of_nat (length ds) - 1))%Z by (apply Z.pow_pos_nonneg; lia).
    split; [lia|]. eapply Z.lt_le_trans; [exact N1|]. apply Z.pow_le_mono_r; lia. }
  apply (decimals_apart _ _ _ _ (u mod 2 ^ 63) FP); [apply normal_significand; [exact FP|rewrite <- Ex; exact NR]|exact NB|exact HD|lra|].
  rewrite Ex in B. rewrite lower_end_eq in B by exact FP. unfold upper_end in B. rewrite <- upper_is_mid in B by exact FP. lra.
Qed.

(** ** Statements and witnesses *)

Lemma texts_denote point s : point_ok point -> exists v, reads point s v /\ forall v', reads point s v' -> v' = v.
Proof. intros PO. exact (reads_total point s PO). Qed.

Lemma reading_determined prec emax v y z1 z2 neg x :
  (read_as prec emax v y -> read_as prec emax v z1 -> y = z1) /\
  (narrowed prec emax y z1 -> narrowed prec emax y z2 -> z1 = z2) /\
  (rounded prec emax z1 neg x -> rounded prec emax z2 neg x -> z1 = z2).
Proof.
  split; [|split].
  - destruct v; cbn [read_as]; try (intros A B; exact (rounded_unique _ _ _ _ _ _ A B)); congruence.
  - destruct y; cbn [narrowed]; try (intros A B; exact (rounded_unique _ _ _ _ _ _ A B)); congruence.
  - apply rounded_unique.
Qed.

Lemma comma_ok : point_ok ","%char.
Proof.
  unfold point_ok, is_hex_digit, is_digit, is_sign, letter. cbn.
  repeat split; try lia; intros X; repeat destruct X as [X|X]; try discriminate X; lia.
Qed.

Lemma same_double_bits z u : double_finite u -> same_double z u -> z = double_of_bits u.
Proof.
  intros F (V & Fz & R & S). apply (sf_inj 53 1024); [exact V|apply double_of_bits_valid|exact Fz|apply double_of_bits_finite; exact F| |].
  - rewrite double_of_bits_value. exact R.
  - rewrite double_of_bits_sign; [exact S|]. unfold double_nan, double_finite in *. destruct (Bits.b64_of_bits u); discriminate.
Qed.

Lemma bits_same_double u : double_finite u -> same_double (double_of_bits u) u.
Proof.
  intros F. split; [apply double_of_bits_valid|]. split; [apply double_of_bits_finite; exact F|].
  split; [apply double_of_bits_value|]. apply double_of_bits_sign.
  unfold double_nan, double_finite in *. destruct (Bits.b64_of_bits u); discriminate.
Qed.

Lemma minus_one_and_half : reads "."%char (str "-1.5") (DDecimal true 15 (-1)).
Proof. apply reads_denote; [exact dot_ok|reflexivity]. Qed.

Lemma special_texts_read e point T : T = TFloat \/ T = TDouble \/ T = TLongDouble ->
  extract e point T (str "0.0") = Ok (XFloating (S754_zero false)) /\
  extract e point T (str "Infinity") = Ok (XFloating (S754_infinity false)) /\
  extract e point T (str "-Infinity") = Ok (XFloating (S754_infinity true)) /\
  extract e point T (str "NaN") = Ok (XFloating S754_nan).
Proof. intros H. split; [apply zero_reads; exact H|apply special_reads; exact H]. Qed.

Lemma read_back_refuted : exists u s z, bits64 u /\ double_finite u /\ double_value u <> 0 /\
  fe_ld (e_float (linux_x86_64 Strict)) = LD80 /\
  lexi (linux_x86_64 Strict) (VDouble u) = Ok s /\ s = str "8.51286005118775e-173" /\
  extract (linux_x86_64 Strict) "."%char TDouble s = Ok (XFloating z) /\ ~ same_double z u.
Proof.
  exists 0x1c350e0d552e5ba9%Z, (str "8.51286005118775e-173"), (S754_finite false 5926424937388970 (-624)).
  destruct (sample 0x1c350e0d552e5ba9 eq_refl) as (A & B & C).
  split; [exact A|]. split; [exact B|]. split; [exact C|]. split; [reflexivity|].
  split; [vm_compute; reflexivity|]. split; [reflexivity|]. split; [vm_compute; reflexivity|].
  intros X. apply same_double_bits in X; [|exact B]. vm_compute in X. discriminate X.
Qed.

Lemma float_special_read e u s : nan_ok (e_float e) -> e_lit e = default_literals -> bits32 u ->
  lexi e (VFloat u) = Ok s ->
  (float_finite u -> float_value u = 0 -> extract e "."%char TFloat s = Ok (XFloating (S754_zero false))) /\
  (forall b, float_infinity u b -> extract e "."%char TFloat s = Ok (XFloating (S754_infinity b))) /\
  (float_nan u -> extract e "."%char TFloat s = Ok (XFloating S754_nan)).
Proof.
  intros HN HL H L. destruct (float_printed e u HN H) as (w & Hw & _ & E & NW & IW & FW). rewrite E in L.
  destruct (special_reads e "."%char TFloat (or_introl eq_refl)) as (X1 & X2 & X3).
  split; [|split].
  - intros F Z0. destruct (FW F) as (Fw & Vw & _). rewrite (lexi_zero e w Hw Fw) in L by congruence. injection L as <-.
    apply zero_reads. auto.
  - intros b I. specialize (IW b I). rewrite (lexi_infinity e w b) in L; [|rewrite HL; destruct b; cbn; unfold FLOAT_SIZE; lia|exact Hw|exact IW].
    rewrite HL in L. injection L as <-. destruct b; [exact X2|exact X1].
  - intros N. specialize (NW N). rewrite (lexi_nan e w HN) in L; [|rewrite HL; cbn; unfold FLOAT_SIZE; lia|exact Hw|exact NW].
    rewrite HL in L. injection L as <-. exact X3.
Qed.

Lemma long_double_refuted : exists x s, floating_ok (linux_x86_64 Strict) (VLongDouble x) /\ is_finite_SF x = true /\
  lexi (linux_x86_64 Strict) (VLongDouble x) = Ok s /\ s = str "1.0" /\
  exists z, extract (linux_x86_64 Strict) "."%char TLongDouble s = Ok (XFloating z) /\ z <> x.
Proof.
  exists (S754_finite false 0x8000000000000001 (-63)), (str "1.0"). split; [reflexivity|]. split; [reflexivity|].
  split; [vm_compute; reflexivity|]. split; [reflexivity|].
  exists (S754_finite false 0x8000000000000000 (-63)). split; [vm_compute; reflexivity|discriminate].
Qed.

Lemma half_gap v y : finite_pos v -> lower_R v <= y <= upper_R v -> Rabs (y - dbl_R v) <= bpow radix2 (dbl_e v) / 2.
Proof.
  intros H [L U]. destruct (gap_R v) as [EU EL]. pose proof (bpow_gt_0 radix2 (dbl_e v)) as P.
  apply Rabs_le. rewrite EU in U. rewrite EL in L. destruct (_ =? _)%Z; lra.
Qed.

Lemma long_double_near e x s : nan_ok (e_float e) -> floating_ok e (VLongDouble x) ->
  let d := nearest 53 1024 (SF2R radix2 x) in
  is_finite_SF x = true -> d <> 0 -> Rabs d < bpow radix2 1024 -> lexi e (VLongDouble x) = Ok s ->
  exists y, extract e "."%char TLongDouble s = Ok (XFloating y) /\ is_finite_SF y = true /\
    Rabs (SF2R radix2 y - d) <= ulp radix2 fexp64 d / 2.
Proof.
  intros HN Hx d Fi N R L. destruct (long_double_printed e x HN Hx) as (w & Hw & _ & E & M). rewrite E in L.
  assert (W : double_finite w /\ double_value w = d).
  { fold d in M. rewrite Rlt_bool_true in M by exact R. destruct x; try discriminate Fi; tauto. }
  destruct W as [Fw Vw]. rewrite <- Vw in N |- *.
  destruct (read_between e w s Hw Fw N L) as (y & ds & K & F & X & k & kap & FP & G & DV & Bn & Ey & Ry & Fy & B & _ & _).
  exists y. split; [exact Ey|]. split; [exact Fy|].
  pose proof (ld_between (fe_ld (e_float e)) _ _ FP Bn) as B2. pose proof (half_gap _ _ FP B2) as HG.
  rewrite Ry, DV. destruct (sign_field w); cbn [neg_if].
  - rewrite ulp_opp, dbl_ulp by exact FP. rewrite <- Rabs_Ropp. replace (- _) with (nearest (ld_prec (fe_ld (e_float e))) (ld_emax (fe_ld (e_float e))) (digits_R ds K) - dbl_R (w mod 2 ^ 63)) by ring. exact HG.
  - rewrite dbl_ulp by exact FP. exact HG.
Qed.

Lemma locale_refuted : exists u s z, bits64 u /\ double_finite u /\ double_value u <> 0 /\ point_ok ","%char /\
  lexi (windows_x64 Strict) (VDouble u) = Ok s /\ s = str "1.5" /\
  extract (windows_x64 Strict) ","%char TDouble s = Ok (XFloating z) /\ ~ same_double z u /\
  exists z', extract (windows_x64 Strict) "."%char TDouble s = Ok (XFloating z') /\ same_double z' u.
Proof.
  exists 0x3FF8000000000000%Z, (str "1.5"), (S754_finite false 0x10000000000000 (-52)).
  destruct (sample 0x3FF8000000000000 eq_refl) as (A & B & C).
  split; [exact A|]. split; [exact B|]. split; [exact C|]. split; [exact comma_ok|].
  split; [vm_compute; reflexivity|]. split; [reflexivity|]. split; [vm_compute; reflexivity|]. split.
  - intros X. apply same_double_bits in X; [|exact B]. vm_compute in X. discriminate X.
  - exists (double_of_bits 0x3FF8000000000000). split; [vm_compute; reflexivity|apply bits_same_double; exact B].
Qed.

Lemma exponent_json i f x : forallb (fun c => (48 <=? code c) && (code c <=? 57))%Z (i ++ optional (fun f => f) f ++ x) = true ->
  i <> [] -> (forall r, i = "0"%char :: r -> r = []) -> f <> Some [] -> x <> [] ->
  json_number (i ++ optional (fun f => "."%char :: f) f ++ "e"%char :: x) (Number false i f (Some ([], x))).
Proof.
  assert (D : forall l, forallb (fun c => (48 <=? code c) && (code c <=? 57))%Z l = true -> Forall is_digit l).
  { intros l X. apply Forall_forall. intros c I. rewrite forallb_forall in X. specialize (X c I). unfold is_digit. lia. }
  intros X Ni Zi Nf Nx. rewrite !forallb_app, !andb_true_iff in X. destruct X as (Xi & Xf & Xx).
  split; [exists "e"%char; split; [auto|reflexivity]|]. split; [exact Ni|]. split; [apply D; exact Xi|]. split; [exact Zi|]. split.
  - cbn. intros f' ->. split; [intros ->; apply Nf; reflexivity|apply D; exact Xf].
  - cbn. intros sg x' [= <- <-]. split; [auto|]. split; [exact Nx|apply D; exact Xx].
Qed.

Lemma ten_23 : json_number (str "1e23") (Number false (str "1") None (Some ([], str "23"))).
Proof. apply (exponent_json (str "1") None (str "23")); (reflexivity || discriminate). Qed.

Lemma short_decimal_refuted : exists n u z s, json_number (str "1e23") n /\ bits64 u /\ double_finite u /\
  extract (windows_x64 zero_memory) "."%char TDouble (str "1e23") = Ok (XFloating z) /\ same_double z u /\
  lexi (windows_x64 zero_memory) (VDouble u) = Ok s /\ s = str "9.999999999999999e22" /\
  forall n', json_number s n' -> n_value n' <> n_value n.
Proof.
  exists (Number false (str "1") None (Some ([], str "23"))), 0x44B52D02C7E14AF6%Z, (double_of_bits 0x44B52D02C7E14AF6), (str "9.999999999999999e22").
  destruct (sample 0x44B52D02C7E14AF6 eq_refl) as (A & B & C).
  split; [exact ten_23|].
  split; [exact A|]. split; [exact B|]. split; [vm_compute; reflexivity|]. split; [apply bits_same_double; exact B|].
  split; [vm_compute; reflexivity|]. split; [reflexivity|].
  intros n' Jn. assert (J' : json_number (str "9.999999999999999e22") (Number false (str "9") (Some (str "999999999999999")) (Some ([], str "22")))).
  { apply (exponent_json (str "9") (Some (str "999999999999999")) (str "22")); (reflexivity || discriminate). }
  rewrite (json_number_unique _ _ _ Jn J').
  change (IZR 9999999999999999 * bpow radix10 7 <> IZR 1 * bpow radix10 23).
  change (bpow radix10 7) with (IZR (10 ^ 7)). change (bpow radix10 23) with (IZR (10 ^ 23)). rewrite <- !mult_IZR.
  intros X. apply eq_IZR in X. discriminate X.
Qed.

Lemma one_tenth : bpow radix2 (-1022) <= Rabs (double_value 0x3FB999999999999A) /\
  let x := Rabs (double_value 0x3FB999999999999A) in let margin := ulp radix2 fexp64 x / 500 in
  lower_end x + margin <= IZR 1 * bpow radix10 (-1) <= upper_end x - margin.
Proof.
  set (u := 0x3FB999999999999A%Z). destruct (sample u eq_refl) as (A & B & C).
  assert (FP : finite_pos u) by (split; [unfold u; lia|discriminate]).
  assert (V : Rabs (double_value u) = dbl_R u).
  { rewrite double_value_neg_if by assumption. change (sign_field u) with false. cbn [neg_if]. apply Rabs_pos_eq.
    pose proof (dbl_R_pos u FP). lra. }
  rewrite V. cbn zeta. rewrite lower_end_eq by exact FP. unfold upper_end. rewrite <- upper_is_mid, dbl_ulp by exact FP.
  destruct (gap_R u) as [-> ->]. unfold dbl_R. change (dbl_f u) with 7205759403792794%Z. change (dbl_e u) with (-56)%Z.
  change (7205759403792794 =? 2 ^ 52)%Z with false. cbv iota. split.
  - apply Rle_trans with (bpow radix2 (-56)); [apply bpow_le; lia|]. pose proof (bpow_gt_0 radix2 (-56)). nra.
  - change (bpow radix2 (-56)) with (/ 72057594037927936). change (bpow radix10 (-1)) with (/ 10). lra.
Qed.
