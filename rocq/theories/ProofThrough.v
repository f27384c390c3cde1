(** Floating point values that go through text into another floating point type (C78). *)
From Coq Require Import Reals Lra Psatz Floats.SpecFloat.
From Flocq Require Import Core Relative.
From Flocq Require IEEE754.Binary IEEE754.Bits.
From Flocq Require Import IEEE754.BinarySingleNaN.
From Verif Require Import Machine LibMachine SpecApi SpecDecimal SpecInt SpecNumber SpecIeee SpecString SpecJson SpecRead SpecMore
  ModelItoa ModelInt ModelText ModelIeee ModelDiyfp ModelDtoa
  ModelFloat ModelLexi ModelPlatforms ProofDiyfp ProofCached ProofDigits ProofGrisu ProofLayout ProofText ProofInt ProofIeee ProofDtoa ProofNumber
  ProofRound ProofStrict ProofUnique ProofShort ProofApi ProofFloat ProofFloat2 ProofFloat3 ProofFloat4 ProofRead ProofRead2 ProofRead3 ProofMore3 ProofMore5.
Open Scope Z_scope.
Ltac Zify.zify_post_hook ::= idtac.

Open Scope R_scope.

(** A number between the middles of a double and its neighbours is nearest to the same float,
    unless the double is the middle of two floats. *)
Lemma same_nearest_float x y : 0 < x -> generic_format radix2 fexp64 x ->
  (x + pred radix2 fexp64 x) / 2 <= y <= (x + succ radix2 fexp64 x) / 2 -> ~ halfway 24 128 x ->
  nearest 24 128 y = nearest 24 128 x.
Proof.
  intros P FX [Y1 Y2] NH.
  set (a := round radix2 fexp32 Zfloor x). set (b := succ radix2 fexp32 a).
  assert (FA : generic_format radix2 fexp32 a) by (apply generic_format_round; typeclasses eauto).
  assert (A0 : 0 <= a) by (rewrite <- (round_0 radix2 fexp32 Zfloor); apply round_le; [typeclasses eauto|typeclasses eauto|lra]).
  assert (AX : a <= x) by (apply round_DN_pt; typeclasses eauto).
  assert (WA : generic_format radix2 fexp64 a) by (apply (wider 53 1024 24 128); [lia|lia|exact FA]).
  destruct (Req_dec a x) as [EA|NA].
  - rewrite EA in FA. destruct (float_neighbours x P FA) as (N1 & N2 & N3).
    rewrite (nearest_format 24 128 x ltac:(lia) FA). apply Rle_antisym.
    + apply round_N_le_midp; [typeclasses eauto|exact FA|lra].
    + apply round_N_ge_midp; [typeclasses eauto|exact FA|lra].
  - assert (NF : ~ generic_format radix2 fexp32 x).
    { intros F. apply NA. unfold a. apply round_generic; [typeclasses eauto|exact F]. }
    assert (EB : b = round radix2 fexp32 Zceil x) by (apply succ_DN_eq_UP; [typeclasses eauto|exact NF]).
    assert (FB : generic_format radix2 fexp32 b) by (rewrite EB; apply generic_format_round; typeclasses eauto).
    assert (XB : x <= b) by (rewrite EB; apply round_UP_pt; typeclasses eauto).
    assert (XB' : x < b) by (destruct XB as [H|H]; [exact H|exfalso; apply NF; rewrite H; exact FB]).
    assert (WB : generic_format radix2 fexp64 b) by (apply (wider 53 1024 24 128); [lia|lia|exact FB]).
    assert (WM : generic_format radix2 fexp64 ((a + b) / 2)) by (apply mid_fits; [exact float_good|lia|lia|exact FA|exact A0]).
    assert (PB : pred radix2 fexp32 b = a) by (apply pred_succ; [typeclasses eauto|exact FA]).
    assert (LP : forall c, generic_format radix2 fexp64 c -> c < x -> c < y).
    { intros c C H. assert (c <= pred radix2 fexp64 x) by (apply pred_ge_gt; [typeclasses eauto|exact C|exact FX|exact H]). lra. }
    assert (LS : forall c, generic_format radix2 fexp64 c -> x < c -> y < c).
    { intros c C H. assert (succ radix2 fexp64 x <= c) by (apply succ_le_lt; [typeclasses eauto|exact FX|exact C|exact H]). lra. }
    assert (NM : x <> (a + b) / 2).
    { intros E. apply NH. exists a. split; [exact FA|]. split; [exact A0|]. rewrite Rabs_pos_eq by lra. exact E. }
    destruct (Rtotal_order x ((a + b) / 2)) as [H|[H|H]]; [|contradiction NM|].
    + pose proof (LP a WA ltac:(lra)). pose proof (LS _ WM H).
      rewrite (near_low 24 128 float_good a y FA), (near_low 24 128 float_good a x FA); [reflexivity| |]; fold b; lra.
    + pose proof (LS b WB XB'). pose proof (LP _ WM H).
      rewrite (near_high 24 128 float_good a b y FB PB), (near_high 24 128 float_good a b x FB PB); [reflexivity| |]; lra.
Qed.

Lemma halfway_neg_if p q b x : halfway p q (neg_if b x) <-> halfway p q x.
Proof. unfold halfway. destruct b; cbn [neg_if]; [rewrite Rabs_Ropp|]; reflexivity. Qed.

Lemma double_as_float e u s : bits64 u -> double_finite u -> double_value u <> 0 -> lexi e (VDouble u) = Ok s ->
  fe_ld (e_float e) = LD64 \/ ~ halfway 24 128 (double_value u) ->
  exists z, extract e "."%char TFloat s = Ok (XFloating z) /\ rounded 24 128 z (double_sign u) (double_value u).
Proof.
  intros H Fi N L C.
  destruct (read_between e u s H Fi N L) as (y & ds & K & F & E & k & kap & FP & G & DV & Bn & Ey & Ry & Fy & B & _ & (z & Ez & Rz)).
  exists z. split; [exact Ez|]. rewrite double_sign_field by exact H.
  pose proof (ld_between (fe_ld (e_float e)) _ _ FP Bn) as B2. pose proof (lower_above_mid _ FP) as LM.
  pose proof (upper_is_mid _ FP) as UM. pose proof (dbl_R_pos _ FP) as P. pose proof (dbl_format _ FP) as FF.
  assert (X : nearest 24 128 (SF2R radix2 y) = nearest 24 128 (double_value u)).
  { destruct C as [C|C].
    - rewrite C in Ry. cbn [ld_prec ld_emax] in Ry. rewrite (between_round _ _ _ FP Bn : nearest 53 1024 _ = _), <- DV in Ry.
      rewrite Ry. reflexivity.
    - rewrite Ry, DV, !nearest_neg. f_equal. rewrite DV, halfway_neg_if in C.
      apply same_nearest_float; [exact P|exact FF|lra|exact C]. }
  unfold rounded in *. rewrite <- X. exact Rz.
Qed.

(** Floats are doubles with an even significand. *)
Lemma float_even v : finite_pos v -> generic_format radix2 fexp32 (dbl_R v) -> Z.even (dbl_f v) = true.
Proof.
  intros FP F. destruct (finite_pos_f v FP) as [Hf He]. pose proof (dbl_R_pos _ FP) as P.
  apply FLT_format_generic in F; [|reflexivity]. destruct F as [[m c] E Hm Hc]. cbn [Fnum Fexp] in *.
  unfold F2R in E. cbn [Fnum Fexp] in E. unfold dbl_R in E.
  assert (CE : (dbl_e v < c)%Z).
  { destruct (Z.eq_dec (dbl_e v) (-1074)) as [Q|Q]; [lia|].
    destruct (Z_lt_le_dec (dbl_e v) c) as [|LE]; [assumption|exfalso].
    assert (HF : (2 ^ 52 <= dbl_f v)%Z).
    { revert Q. unfold dbl_e, dbl_f. destruct (_ =? _)%Z; [intros Q; contradiction Q; reflexivity|]. intros _.
      unfold frac_field. pose proof (Z.mod_pos_bound v (2 ^ 52) ltac:(lia)). lia. }
    assert (M : IZR m < IZR (2 ^ 52)) by (apply IZR_lt; change (radix2 ^ 24)%Z with (2 ^ 24)%Z in Hm; lia).
    assert (M2 : IZR (2 ^ 52) <= IZR (dbl_f v)) by (apply IZR_le; exact HF).
    assert (M3 : bpow radix2 c <= bpow radix2 (dbl_e v)) by (apply bpow_le; exact LE).
    pose proof (bpow_gt_0 radix2 c). assert (0 < IZR (2 ^ 52)) by (apply IZR_lt; reflexivity). nra. }
  replace c with ((c - dbl_e v) + dbl_e v)%Z in E by lia. rewrite bpow_plus, <- Rmult_assoc in E.
  apply Rmult_eq_reg_r in E; [|pose proof (bpow_gt_0 radix2 (dbl_e v)); lra].
  rewrite <- IZR_Zpower in E by lia. rewrite <- mult_IZR in E. apply eq_IZR in E. rewrite E.
  rewrite Z.even_mul. change (Zpower radix2 (c - dbl_e v)) with (2 ^ (c - dbl_e v))%Z.
  rewrite Z.even_pow by lia. apply Bool.orb_true_r.
Qed.

Lemma float_as_double e u s : nan_ok (e_float e) -> bits32 u -> float_finite u -> float_value u <> 0 -> lexi e (VFloat u) = Ok s ->
  exists z, extract e "."%char TDouble s = Ok (XFloating z) /\ rounded 53 1024 z (float_sign u) (float_value u) /\
    is_finite_SF z = true /\ SF2R radix2 z = float_value u.
Proof.
  intros HN H Fi N L. destruct (float_printed e u HN H) as (w & Hw & _ & E & _ & _ & FW).
  destruct (FW Fi) as (Fw & Vw & Sw). rewrite E in L. rewrite <- Vw in N.
  destruct (read_between e w s Hw Fw N L) as (y & ds & K & F & X & k & kap & FP & G & DV & Bn & Ey & Ry & Fy & B & (z & Ez & Rz) & _).
  exists z. split; [exact Ez|]. pose proof (ld_between (fe_ld (e_float e)) _ _ FP Bn) as B2.
  pose proof (dbl_R_pos _ FP) as P.
  destruct (float_value_facts u) as [FF FM]. pose proof (generic_abs _ _ _ FF) as FA. rewrite <- Vw, DV, Rabs_neg_if in FA by lra.
  pose proof (closed_even _ _ FP (float_even _ FP FA) B2) as NE.
  rewrite Ry in Rz. destruct (rounded_same w z _ Hw FP DV Rz NE) as (R1 & R2 & R3 & R4).
  rewrite <- Vw, <- Sw. split; [|split; [exact R2|exact R3]]. split; [exact R1|].
  assert (W : nearest 53 1024 (double_value w) = double_value w).
  { rewrite Vw. apply nearest_format; [lia|]. apply (wider 53 1024 24 128); [lia|lia|exact FF]. }
  rewrite W. rewrite Rlt_bool_true; [auto|]. rewrite Vw. eapply Rlt_le_trans; [exact FM|]. apply bpow_le. lia.
Qed.

Lemma printed_long e x s : nan_ok (e_float e) -> floating_ok e (VLongDouble x) -> is_finite_SF x = true ->
  Rabs (nearest 53 1024 (SF2R radix2 x)) < bpow radix2 1024 -> lexi e (VLongDouble x) = Ok s ->
  exists w, bits64 w /\ lexi e (VDouble w) = Ok s /\ double_finite w /\ double_value w = nearest 53 1024 (SF2R radix2 x) /\ double_sign w = sign_SF x.
Proof.
  intros HN Hx Fi R L. destruct (long_double_printed e x HN Hx) as (w & Hw & _ & E & M). rewrite E in L.
  exists w. split; [exact Hw|]. split; [exact L|]. rewrite Rlt_bool_true in M by exact R. destruct x; try discriminate Fi; exact M.
Qed.

Lemma long_double_as_double e x s : nan_ok (e_float e) -> floating_ok e (VLongDouble x) -> is_finite_SF x = true ->
  fe_ld (e_float e) <> LD80 ->
  let d := nearest 53 1024 (SF2R radix2 x) in
  d <> 0 -> Rabs d < bpow radix2 1024 -> lexi e (VLongDouble x) = Ok s ->
  exists z, extract e "."%char TDouble s = Ok (XFloating z) /\ rounded 53 1024 z (sign_SF x) (SF2R radix2 x).
Proof.
  intros HN Hx Fi LD d N R L. destruct (printed_long e x s HN Hx Fi R L) as (w & Hw & Lw & Fw & Vw & Sw). fold d in Vw.
  rewrite <- Vw in N. destruct (double_read_exact e w s Hw Fw N Lw (or_introl LD)) as (z & Ez & S1 & S2 & S3 & S4).
  exists z. split; [exact Ez|]. split; [exact S1|]. fold d. rewrite Rlt_bool_true by exact R. rewrite S3, S4, Vw, Sw. auto.
Qed.

Lemma long_double_as_float e x s : nan_ok (e_float e) -> floating_ok e (VLongDouble x) -> is_finite_SF x = true ->
  let d := nearest 53 1024 (SF2R radix2 x) in
  d <> 0 -> Rabs d < bpow radix2 1024 -> ~ halfway 24 128 d -> lexi e (VLongDouble x) = Ok s ->
  exists z, extract e "."%char TFloat s = Ok (XFloating z) /\ rounded 24 128 z (sign_SF x) (SF2R radix2 x).
Proof.
  intros HN Hx Fi d N R NH L. destruct (printed_long e x s HN Hx Fi R L) as (w & Hw & Lw & Fw & Vw & Sw). fold d in Vw.
  rewrite <- Vw in N, NH. destruct (double_as_float e w s Hw Fw N Lw (or_intror NH)) as (z & Ez & Rz).
  exists z. split; [exact Ez|]. rewrite Vw in Rz, NH. rewrite Sw in Rz.
  destruct (twice 53 1024 24 128 double_good float_good ltac:(lia) ltac:(lia) (SF2R radix2 x)) as [T|[T _]]; [|contradiction].
  unfold rounded in *. rewrite <- T. exact Rz.
Qed.

(** ** Where a conversion would give something else *)

Lemma not_rounded p q y z : good_format p q -> is_finite_SF y = true -> SF2R radix2 y <> 0 -> convert p q y <> z ->
  ~ rounded p q z (sign_SF y) (SF2R radix2 y).
Proof.
  intros G F N C R. apply C. pose proof (convert_narrowed p q y G) as W.
  destruct y as [b|b| |b m k]; try discriminate F; [contradiction N; reflexivity|]. cbn [narrowed sign_SF] in *.
  exact (rounded_unique _ _ _ _ _ _ W R).
Qed.

Lemma not_converted p q u z : good_format p q -> double_finite u -> double_value u <> 0 -> convert p q (double_of_bits u) <> z ->
  ~ rounded p q z (double_sign u) (double_value u).
Proof.
  intros G F N C. destruct (bits_same_double u F) as (_ & S1 & S2 & S3). rewrite <- S2, <- S3 in *. apply not_rounded; assumption.
Qed.

Lemma double_as_float_refuted : exists u s z, bits64 u /\ double_finite u /\ double_value u <> 0 /\
  lexi (linux_x86_64 Strict) (VDouble u) = Ok s /\ s = str "2.06794015e34" /\
  extract (linux_x86_64 Strict) "."%char TFloat s = Ok (XFloating z) /\ ~ rounded 24 128 z (double_sign u) (double_value u).
Proof.
  exists 0x470fdc95f0000000%Z, (str "2.06794015e34"), (S754_finite false 16704687 90).
  destruct (sample 0x470fdc95f0000000 eq_refl) as (A & B & C).
  split; [exact A|]. split; [exact B|]. split; [exact C|]. split; [vm_compute; reflexivity|]. split; [reflexivity|].
  split; [vm_compute; reflexivity|]. apply not_converted; [exact float_good|exact B|exact C|]. vm_compute. discriminate.
Qed.

Lemma double_as_long_refuted : exists u s z, bits64 u /\ double_finite u /\ double_value u <> 0 /\
  lexi (linux_x86_64 Strict) (VDouble u) = Ok s /\ s = str "0.1" /\
  extract (linux_x86_64 Strict) "."%char TLongDouble s = Ok (XFloating z) /\ ~ rounded 64 16384 z (double_sign u) (double_value u).
Proof.
  exists 0x3FB999999999999A%Z, (str "0.1"), (S754_finite false 14757395258967641293 (-67)).
  destruct (sample 0x3FB999999999999A eq_refl) as (A & B & C).
  split; [exact A|]. split; [exact B|]. split; [exact C|]. split; [vm_compute; reflexivity|]. split; [reflexivity|].
  split; [vm_compute; reflexivity|]. apply not_converted; [exact (ld_good LD80)|exact B|exact C|]. vm_compute. discriminate.
Qed.

Lemma sf_nonzero b m k : SF2R radix2 (S754_finite b m k) <> 0.
Proof.
  unfold SF2R, F2R. cbn [Fnum Fexp]. pose proof (bpow_gt_0 radix2 k).
  assert (0 < IZR (Z.pos m)) by (apply IZR_lt; reflexivity).
  destruct b; cbn [cond_Zopp]; [change (Z.opp (Z.pos m)) with (- Z.pos m)%Z; rewrite opp_IZR|]; nra.
Qed.

Lemma long_as_double_refuted : exists x s z, floating_ok (linux_x86_64 Strict) (VLongDouble x) /\ is_finite_SF x = true /\
  lexi (linux_x86_64 Strict) (VLongDouble x) = Ok s /\ s = str "8.51286005118775e-173" /\
  extract (linux_x86_64 Strict) "."%char TDouble s = Ok (XFloating z) /\ ~ rounded 53 1024 z (sign_SF x) (SF2R radix2 x).
Proof.
  exists (S754_finite false 12137318271772608512 (-635)), (str "8.51286005118775e-173"), (S754_finite false 5926424937388970 (-624)).
  split; [reflexivity|]. split; [reflexivity|]. split; [vm_compute; reflexivity|]. split; [reflexivity|].
  split; [vm_compute; reflexivity|]. apply not_rounded; [exact double_good|reflexivity|apply sf_nonzero|]. vm_compute. discriminate.
Qed.

Lemma long_as_float_refuted : exists x s z, floating_ok (linux_x86_64 Strict) (VLongDouble x) /\ is_finite_SF x = true /\
  ~ halfway 24 128 (SF2R radix2 x) /\
  lexi (linux_x86_64 Strict) (VLongDouble x) = Ok s /\ s = str "2.06794015e34" /\
  extract (linux_x86_64 Strict) "."%char TFloat s = Ok (XFloating z) /\ ~ rounded 24 128 z (sign_SF x) (SF2R radix2 x).
Proof.
  exists (S754_finite false 18366998144614400001 50), (str "2.06794015e34"), (S754_finite false 16704687 90).
  split; [reflexivity|]. split; [reflexivity|]. split.
  { intros (a & FA & A0 & E).
    pose proof (mid_fits 53 1024 24 128 a float_good ltac:(lia) ltac:(lia) FA A0) as F. rewrite <- E in F. clear E.
    rewrite Rabs_pos_eq in F by (unfold SF2R, F2R; cbn [Fnum Fexp cond_Zopp]; pose proof (bpow_gt_0 radix2 50); lra).
    apply FLT_format_generic in F; [|reflexivity]. destruct F as [[m c] E Hm Hc]. cbn [Fnum Fexp] in *.
    unfold SF2R, F2R in E. cbn [Fnum Fexp cond_Zopp] in E. change (radix2 ^ 53)%Z with (2 ^ 53)%Z in Hm.
    destruct (Z_le_gt_dec c 50) as [LE|GT].
    - assert (M : IZR m < IZR (2 ^ 53)) by (apply IZR_lt; lia). assert (M2 : bpow radix2 c <= bpow radix2 50) by (apply bpow_le; exact LE).
      pose proof (bpow_gt_0 radix2 c). assert (0 < IZR (2 ^ 53) < 18366998144614400001) by (split; apply IZR_lt; reflexivity). nra.
    - replace c with ((c - 50) + 50)%Z in E by lia. rewrite bpow_plus, <- Rmult_assoc in E.
      apply Rmult_eq_reg_r in E; [|pose proof (bpow_gt_0 radix2 50); lra].
      rewrite <- IZR_Zpower in E by lia. rewrite <- mult_IZR in E. apply eq_IZR in E.
      apply (f_equal Z.even) in E. rewrite Z.even_mul in E. change (Zpower radix2 (c - 50)) with (2 ^ (c - 50))%Z in E.
      rewrite Z.even_pow, Bool.orb_true_r in E by lia. discriminate E. }
  split; [vm_compute; reflexivity|]. split; [reflexivity|].
  split; [vm_compute; reflexivity|]. apply not_rounded; [exact float_good|reflexivity|apply sf_nonzero|]. vm_compute. discriminate.
Qed.

(** What the conversion to long double keeps: the double printed is nearest to what is read. *)
Lemma double_as_long e u s : bits64 u -> double_finite u -> double_value u <> 0 -> lexi e (VDouble u) = Ok s ->
  exists y, extract e "."%char TLongDouble s = Ok (XFloating y) /\ is_finite_SF y = true /\ sign_SF y = double_sign u /\
    Rabs (SF2R radix2 y - double_value u) <= ulp radix2 fexp64 (double_value u) / 2 /\
    (fe_ld (e_float e) = LD64 -> SF2R radix2 y = double_value u).
Proof.
  intros H Fi N L.
  destruct (read_between e u s H Fi N L) as (y & ds & K & F & E & k & kap & FP & G & DV & Bn & Ey & Ry & Fy & B & _ & _).
  exists y. split; [exact Ey|]. split; [exact Fy|].
  pose proof (ld_between (fe_ld (e_float e)) _ _ FP Bn) as B2. pose proof (half_gap _ _ FP B2) as HG.
  pose proof (lower_positive _ FP) as LP. pose proof (bpow_gt_0 radix2 (-1076)) as P0.
  split; [|split].
  - rewrite double_sign_field by exact H. set (v := nearest _ _ (digits_R ds K)) in *. assert (PV : 0 < v) by lra. clearbody v.
    destruct y as [b|b| |b m c]; try discriminate Fy.
    + exfalso. cbn [SF2R] in Ry. destruct (sign_field u); cbn [neg_if] in Ry; lra.
    + cbn [sign_SF]. unfold SF2R, F2R in Ry. cbn [Fnum Fexp] in Ry. pose proof (bpow_gt_0 radix2 c).
      assert (0 < IZR (Z.pos m)) by (apply IZR_lt; reflexivity).
      destruct b, (sign_field u); cbn [neg_if cond_Zopp] in Ry; try reflexivity; exfalso;
        [change (Z.opp (Z.pos m)) with (- Z.pos m)%Z in Ry; rewrite opp_IZR in Ry|]; nra.
  - rewrite Ry, DV. destruct (sign_field u); cbn [neg_if].
    + rewrite ulp_opp, dbl_ulp by exact FP. rewrite <- Rabs_Ropp.
      replace (- _) with (nearest (ld_prec (fe_ld (e_float e))) (ld_emax (fe_ld (e_float e))) (digits_R ds K) - dbl_R (u mod 2 ^ 63)) by ring. exact HG.
    + rewrite dbl_ulp by exact FP. exact HG.
  - intros C. rewrite C in Ry. cbn [ld_prec ld_emax] in Ry. rewrite (between_round _ _ _ FP Bn : nearest 53 1024 _ = _), <- DV in Ry. exact Ry.
Qed.
