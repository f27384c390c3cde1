(** Printing and reading again and again (C60), and C78 exactly for long double. *)
From Coq Require Import Reals Lra Psatz Floats.SpecFloat.
From Flocq Require Import Core Relative.
From Flocq Require IEEE754.Binary IEEE754.Bits.
From Flocq Require Import IEEE754.BinarySingleNaN.
From Verif Require Import Machine LibMachine SpecApi SpecDecimal SpecInt SpecNumber SpecIeee SpecString SpecLayout SpecJson SpecRead SpecMore SpecAmount SpecTwice
  ModelItoa ModelInt ModelText ModelIeee ModelDiyfp ModelDtoa
  ModelFloat ModelLexi ModelPlatforms ProofDiyfp ProofCached ProofDigits ProofGrisu ProofLayout ProofText ProofInt ProofIeee ProofDtoa ProofNumber
  ProofRound ProofStrict ProofUnique ProofShort ProofApi ProofFloat ProofFloat2 ProofFloat3 ProofFloat4 ProofRead ProofRead2 ProofRead3 ProofMore ProofMore3 ProofMore5 ProofAmount ProofThrough ProofWide ProofTwice ProofOverrun ProofMeaning2 SpecJoin ProofString.
Open Scope Z_scope.
Ltac Zify.zify_post_hook ::= idtac.
Open Scope R_scope.

Lemma double_is_same e z u w : nan_ok (e_float e) -> e_lit e = default_literals -> bits64 u -> bits64 w -> double_is z u -> double_is z w ->
  lexi e (VDouble u) = lexi e (VDouble w).
Proof.
  intros HN HL HU HW A B. apply double_is_unique; auto using default_fits.
  destruct z as [s|s| |s m k]; cbn [double_is] in *.
  - right. right. destruct A as [A (_ & _ & A' & _)], B as [B (_ & _ & B' & _)]. split; [exact A|]. split; [exact B|]. congruence.
  - right. left. exists s. auto.
  - left. auto.
  - right. right. destruct A as [A (_ & _ & A' & _)], B as [B (_ & _ & B' & _)]. split; [exact A|]. split; [exact B|]. congruence.
Qed.

(** What is read in place of an odd double is even. *)
Lemma even_after e u w s z : bits64 u -> double_finite u -> double_value u <> 0 -> lexi e (VDouble u) = Ok s ->
  extract e "."%char TDouble s = Ok (XFloating z) -> bits64 w -> double_is z w -> ~ same_double z u -> Z.even w = true.
Proof.
  intros H Fi N L X HW D NS. destruct (Z.even w) eqn:Od; [reflexivity|exfalso].
  destruct (double_read_iff e u s H Fi N L) as (y & z0 & Ey & Ez & Fy & I). rewrite X in Ez. injection Ez as <-.
  destruct (proj1 I NS) as [_ TI]. clear I.
  destruct (read_between e u s H Fi N L) as (y' & ds & K & F & E & k & kap & FP & G & DV & Bn & Ey' & Ry & _ & B & (z' & Ez & [Vz Rz]) & _).
  rewrite Ey in Ey'. injection Ey' as <-. rewrite X in Ez. injection Ez as <-.
  destruct (double_read_near e u s H Fi N L) as (z' & Ez & _ & Fz & _). rewrite X in Ez. injection Ez as <-.
  assert (DW : double_finite w /\ SF2R radix2 z = double_value w).
  { destruct z; try discriminate Fz; destruct D as [D1 (_ & _ & D2 & _)]; auto. }
  destruct DW as [FW VW].
  assert (MW : (w mod 2 ^ 63)%Z <> 0%Z).
  { intros Y. apply Z.mod_divide in Y; [|lia]. destruct Y as [c ->]. rewrite Z.even_mul in Od. change (Z.even (2 ^ 63)) with true in Od.
    rewrite Bool.orb_true_r in Od. discriminate Od. }
  assert (FPW : finite_pos (w mod 2 ^ 63)) by (apply abs_finite; [exact HW|apply double_finite_iff; assumption|exact MW]).
  pose proof (odd_significand w HW Od) as O. destruct (midpoints _ FPW O) as [M1 M2]. cbv zeta in TI.
  set (c := Rabs (SF2R radix2 y)) in *. set (x := Rabs (double_value u)) in *.
  assert (EX : x = dbl_R (u mod 2 ^ 63)) by (apply abs_double; assumption).
  assert (EW : nearest 53 1024 c = dbl_R (w mod 2 ^ 63)).
  { rewrite <- abs_double by assumption. rewrite <- VW.
    destruct (Rlt_bool (Rabs (nearest 53 1024 (SF2R radix2 y))) (bpow radix2 1024)); [|rewrite Rz in Fz; discriminate Fz].
    destruct Rz as (-> & _). unfold c. rewrite Ry, nearest_neg.
    pose proof (lower_positive _ FP) as LP. pose proof (bpow_gt_0 radix2 (-1076)) as P0. unfold c in B.
    assert (P : 0 < nearest (ld_prec (fe_ld (e_float e))) (ld_emax (fe_ld (e_float e))) (digits_R ds K)).
    { pose proof (ld_between (fe_ld (e_float e)) _ _ FP Bn). lra. }
    rewrite !Rabs_neg_if; [reflexivity| |lra]. rewrite <- (nearest_zero 53 1024) by apply double_good. apply nearest_le; [lia|lra]. }
  assert (FX : generic_format radix2 fexp64 x) by (rewrite EX; apply dbl_format; exact FP).
  assert (PX : 0 < x) by (rewrite EX; apply dbl_R_pos; exact FP).
  assert (R1 : forall b, c = (IZR (dbl_f (w mod 2 ^ 63)) + (if b : bool then / 2 else - / 2)) * bpow radix2 (dbl_e (w mod 2 ^ 63)) -> False).
  { intros b Y. exact (round_half _ _ b FPW O Y EW). }
  assert (LO : c = (dbl_R (w mod 2 ^ 63) + pred radix2 fexp64 (dbl_R (w mod 2 ^ 63))) / 2 -> False).
  { intros Y. rewrite M1 in Y. exact (R1 false Y). }
  assert (HI : c = (dbl_R (w mod 2 ^ 63) + succ radix2 fexp64 (dbl_R (w mod 2 ^ 63))) / 2 -> False).
  { intros Y. rewrite M2 in Y. exact (R1 true Y). }
  change (binary_format 53 1024) with fexp64 in TI. rewrite <- EW in LO, HI. destruct TI as [TI|TI].
  - set (a := pred radix2 fexp64 x) in *.
    assert (FA : generic_format radix2 fexp64 a) by (apply generic_format_pred; [typeclasses eauto|exact FX]).
    assert (A : 0 <= a) by (apply pred_ge_0; [typeclasses eauto|exact PX|exact FX]).
    assert (SA : succ radix2 fexp64 a = x) by (apply succ_pred; [typeclasses eauto|exact FX]).
    pose proof (succ_more 53 1024 double_good a A) as AB. change (binary_format 53 1024) with fexp64 in AB. rewrite SA in AB.
    destruct (either 53 1024 double_good a c FA A) as [Q|Q]; change (binary_format 53 1024) with fexp64 in *; rewrite ?SA in *; [lra| |].
    + apply HI. rewrite Q, SA. lra.
    + apply LO. rewrite Q. exact TI.
  - assert (A : 0 <= x) by lra.
    pose proof (succ_more 53 1024 double_good x A) as AB. change (binary_format 53 1024) with fexp64 in AB.
    destruct (either 53 1024 double_good x c FX A) as [Q|Q]; change (binary_format 53 1024) with fexp64 in *; [lra| |].
    + apply HI. rewrite Q. exact TI.
    + apply LO. rewrite Q, pred_succ by (try typeclasses eauto; exact FX). lra.
Qed.

(** The text of what was read is the same, or what was read is even. *)
Lemma stable_or_even e u w s z : nan_ok (e_float e) -> e_lit e = default_literals -> bits64 u -> bits64 w -> lexi e (VDouble u) = Ok s ->
  extract e "."%char TDouble s = Ok (XFloating z) -> double_is z w -> lexi e (VDouble w) = Ok s \/ Z.even w = true.
Proof.
  intros HN HL HU HW L X D.
  destruct (special_values e u HN HL HU) as (TN & TI & TM & TZ).
  destruct (special_texts_read e "."%char TDouble ltac:(auto)) as (R0 & RI & RM & RN).
  destruct (double_cases u HU) as [C|[[b C]|[[C Z0]|[C N]]]].
  - left. rewrite <- L. apply (double_is_same e z); auto. pose proof (proj2 TN C) as E. rewrite L in E. apply Ok_inj in E. subst s.
    rewrite RN in X. injection X as <-. exact C.
  - left. rewrite <- L. apply (double_is_same e z); auto.
    destruct b; [pose proof (proj2 TM C) as E|pose proof (proj2 TI C) as E]; rewrite L in E; apply Ok_inj in E; subst s;
      [rewrite RM in X|rewrite RI in X]; injection X as <-; exact C.
  - left. pose proof (proj2 TZ (conj C Z0)) as E. rewrite L in E. apply Ok_inj in E. subst s. rewrite R0 in X. injection X as <-.
    destruct D as [F (_ & _ & V & _)]. apply lexi_zero; auto.
  - destruct (Classical_Prop.classic (same_double z u)) as [S|NS].
    + left. rewrite <- L. apply (double_is_same e z); auto. destruct S as (S1 & S2 & S3 & S4).
      destruct z; try discriminate S2; (split; [exact C|repeat split; assumption]).
    + right. exact (even_after e u w s z HU C N L X HW D NS).
Qed.

(** After one time through text, the second time changes nothing. *)
Lemma double_settles e u s z w s2 z2 w2 : nan_ok (e_float e) -> e_lit e = default_literals -> bits64 u -> bits64 w -> bits64 w2 ->
  lexi e (VDouble u) = Ok s -> extract e "."%char TDouble s = Ok (XFloating z) -> double_is z w ->
  lexi e (VDouble w) = Ok s2 -> extract e "."%char TDouble s2 = Ok (XFloating z2) -> double_is z2 w2 ->
  lexi e (VDouble w2) = Ok s2.
Proof.
  intros HN HL HU HW HW2 L X D L2 X2 D2. destruct (stable_or_even e u w s z HN HL HU HW L X D) as [S|S].
  - rewrite S in L2. apply Ok_inj in L2. subst s2. rewrite X in X2. injection X2 as <-.
    rewrite <- S. apply (double_is_same e z); auto.
  - exact (double_stable e w w2 s2 z2 HN HL HW HW2 (or_intror S) L2 X2 D2).
Qed.

(** ** long double *)

(** Every long double prints as the double it converts to. *)
Lemma long_as e x : nan_ok (e_float e) -> floating_ok e (VLongDouble x) ->
  exists w, bits64 w /\ lexi e (VLongDouble x) = lexi e (VDouble w) /\ double_is (convert 53 1024 x) w.
Proof.
  intros HN H. destruct (long_double_printed e x HN H) as (w & B & _ & E & M). exists w. split; [exact B|]. split; [exact E|].
  pose proof (convert_narrowed 53 1024 x double_good) as C. destruct x as [s|s| |s m k]; cbn [narrowed] in C; try (rewrite C; exact M).
  - rewrite C. cbn [SF2R] in M. rewrite nearest_0, Rlt_bool_true in M by (rewrite Rabs_R0; apply bpow_gt_0).
    destruct M as (M1 & M2 & M3). split; [exact M1|]. repeat split; auto.
  - destruct C as [V R]. destruct (Rlt_bool (Rabs (nearest 53 1024 (SF2R radix2 (S754_finite s m k)))) (bpow radix2 1024)).
    + destruct R as (R1 & R2 & R3), M as (M1 & M2 & M3). cbn [sign_SF] in M3.
      destruct (convert 53 1024 (S754_finite s m k)); try discriminate R2; (split; [exact M1|]; repeat split; congruence).
    + rewrite R. exact M.
Qed.

Lemma double_of_long e s y : extract e "."%char TLongDouble s = Ok (XFloating y) -> extract e "."%char TDouble s = Ok (XFloating (convert 53 1024 y)).
Proof.
  cbn [extract]. destruct (ExtractFloat (e_float e) "." s); cbn [bind]; intros X; try discriminate X. injection X as <-. reflexivity.
Qed.

Lemma long_read_ok e s y : extract e "."%char TLongDouble s = Ok (XFloating y) -> floating_ok e (VLongDouble y).
Proof.
  intros X. destruct (texts_denote "."%char s dot_ok) as (v & R & _). destruct (float_extracts e "."%char s v dot_ok R) as (y' & RA & EL & _).
  rewrite X in EL. injection EL as <-. exact (read_valid _ _ _ _ RA).
Qed.

Lemma long_stable e x s y : nan_ok (e_float e) -> e_lit e = default_literals -> floating_ok e (VLongDouble x) -> fe_ld (e_float e) <> LD80 ->
  lexi e (VLongDouble x) = Ok s -> extract e "."%char TLongDouble s = Ok (XFloating y) -> lexi e (VLongDouble y) = Ok s.
Proof.
  intros HN HL Hx LD L X. destruct (long_as e x HN Hx) as (u & Bu & Eu & _). rewrite Eu in L.
  destruct (long_as e y HN (long_read_ok e s y X)) as (w & Bw & Ew & Dw). rewrite Ew.
  exact (double_stable e u w s _ HN HL Bu Bw (or_introl LD) L (double_of_long e s y X) Dw).
Qed.

Lemma long_settles e x s y s2 y2 : nan_ok (e_float e) -> e_lit e = default_literals -> floating_ok e (VLongDouble x) ->
  lexi e (VLongDouble x) = Ok s -> extract e "."%char TLongDouble s = Ok (XFloating y) ->
  lexi e (VLongDouble y) = Ok s2 -> extract e "."%char TLongDouble s2 = Ok (XFloating y2) -> lexi e (VLongDouble y2) = Ok s2.
Proof.
  intros HN HL Hx L X L2 X2. destruct (long_as e x HN Hx) as (u & Bu & Eu & _). rewrite Eu in L.
  destruct (long_as e y HN (long_read_ok e s y X)) as (w & Bw & Ew & Dw). rewrite Ew in L2.
  destruct (long_as e y2 HN (long_read_ok e s2 y2 X2)) as (w2 & Bw2 & Ew2 & Dw2). rewrite Ew2.
  exact (double_settles e u s _ w s2 _ w2 HN HL Bu Bw Bw2 L (double_of_long e s y X) Dw L2 (double_of_long e s2 y2 X2) Dw2).
Qed.

Lemma long_stable_exactly e x s : nan_ok (e_float e) -> e_lit e = default_literals -> floating_ok e (VLongDouble x) -> is_finite_SF x = true ->
  let d := nearest 53 1024 (SF2R radix2 x) in
  d <> 0 -> Rabs d < bpow radix2 1024 -> lexi e (VLongDouble x) = Ok s ->
  exists u y, bits64 u /\ double_finite u /\ double_value u = d /\
    extract e "."%char TLongDouble s = Ok (XFloating y) /\ is_finite_SF y = true /\
    (lexi e (VLongDouble y) <> Ok s <->
     Z.even u = false /\
     (Rabs (SF2R radix2 y) = (Rabs d + pred radix2 (binary_format 53 1024) (Rabs d)) / 2 \/
      Rabs (SF2R radix2 y) = (Rabs d + succ radix2 (binary_format 53 1024) (Rabs d)) / 2)).
Proof.
  intros HN HL Hx Fi d N R L. destruct (printed_long e x s HN Hx Fi R L) as (u & Hu & Lu & Fu & Vu & Su). fold d in Vu.
  destruct (texts_denote "."%char s dot_ok) as (v & RV & _). destruct (float_extracts e "."%char s v dot_ok RV) as (y & _ & X & _).
  destruct (long_as e y HN (long_read_ok e s y X)) as (w & Bw & Ew & Dw). rewrite <- Vu in N.
  destruct (stable_exactly e u w s _ HN HL Hu Bw Fu N Lu (double_of_long e s y X) Dw) as (y' & X' & Fy & I).
  rewrite X in X'. injection X' as <-. exists u, y. rewrite Ew. cbv zeta in I. rewrite Vu in I. repeat (split; [assumption|]). exact I.
Qed.

(** ** long double to double and to float exactly *)

Lemma long_double_exactly e x s : nan_ok (e_float e) -> floating_ok e (VLongDouble x) -> is_finite_SF x = true ->
  let d := nearest 53 1024 (SF2R radix2 x) in
  d <> 0 -> Rabs d < bpow radix2 1024 -> lexi e (VLongDouble x) = Ok s ->
  exists u y z, bits64 u /\ double_finite u /\ double_value u = d /\
    extract e "."%char TLongDouble s = Ok (XFloating y) /\ is_finite_SF y = true /\ extract e "."%char TDouble s = Ok (XFloating z) /\
    (~ rounded 53 1024 z (sign_SF x) (SF2R radix2 x) <->
     Z.even u = false /\
     (Rabs (SF2R radix2 y) = (Rabs d + pred radix2 (binary_format 53 1024) (Rabs d)) / 2 \/
      Rabs (SF2R radix2 y) = (Rabs d + succ radix2 (binary_format 53 1024) (Rabs d)) / 2)).
Proof.
  intros HN Hx Fi d N R L. destruct (printed_long e x s HN Hx Fi R L) as (u & Hu & Lu & Fu & Vu & Su). fold d in Vu.
  rewrite <- Vu in N. destruct (double_read_iff e u s Hu Fu N Lu) as (y & z & Ey & Ez & Fy & I).
  exists u, y, z. repeat (split; [assumption|]). cbv zeta in I. rewrite Vu in I. change fexp64 with (binary_format 53 1024) in I. rewrite <- I.
  assert (Q : rounded 53 1024 z (sign_SF x) (SF2R radix2 x) <-> same_double z u); [|tauto].
  unfold rounded, same_double. fold d. rewrite Rlt_bool_true by exact R. rewrite Vu, Su. tauto.
Qed.

Lemma long_float_exactly e x s : nan_ok (e_float e) -> floating_ok e (VLongDouble x) -> is_finite_SF x = true ->
  let d := nearest 53 1024 (SF2R radix2 x) in
  d <> 0 -> Rabs d < bpow radix2 1024 -> lexi e (VLongDouble x) = Ok s ->
  exists y z, extract e "."%char TLongDouble s = Ok (XFloating y) /\ is_finite_SF y = true /\ extract e "."%char TFloat s = Ok (XFloating z) /\
    (~ rounded 24 128 z (sign_SF x) (SF2R radix2 x) <->
     halfway 24 128 d /\ Rabs d < bpow radix2 128 /\
     ~ (other_side 24 128 d (SF2R radix2 x) <-> other_side 24 128 d (SF2R radix2 y))).
Proof.
  intros HN Hx Fi d N R L. destruct (printed_long e x s HN Hx Fi R L) as (u & Hu & Lu & Fu & Vu & Su). fold d in Vu.
  assert (Nu : double_value u <> 0) by (rewrite Vu; exact N).
  destruct (read_between e u s Hu Fu Nu Lu) as (y & ds & K & F & E & k & kap & FP & G & DV & Bn & Ey & Ry & Fy & B & _ & (z & Ez & Rz)).
  exists y, z. split; [exact Ey|]. split; [exact Fy|]. split; [exact Ez|].
  rewrite <- double_sign_field in Rz by exact Hu. rewrite Su in Rz. set (neg := sign_SF x) in *.
  pose proof (dbl_R_pos _ FP) as P. pose proof (dbl_format _ FP) as FF.
  pose proof (lower_above_mid _ FP) as LM. pose proof (upper_is_mid _ FP) as UM. pose proof (lower_positive _ FP) as LP. pose proof (bpow_gt_0 radix2 (-1076)) as P0.
  rewrite Vu in DV. set (b := sign_field u) in *. set (c := dbl_R (u mod 2 ^ 63)) in *.
  set (w := nearest (ld_prec (fe_ld (e_float e))) (ld_emax (fe_ld (e_float e))) (digits_R ds K)) in *.
  assert (W : Rabs (SF2R radix2 y) = w).
  { rewrite Ry. apply Rabs_neg_if. pose proof (ld_between (fe_ld (e_float e)) _ _ FP Bn) as X. fold w in X. lra. }
  rewrite W in B. rewrite Ry in Rz.
  destruct (sign_split (SF2R radix2 x)) as [b' EX]. pose proof (Rabs_pos (SF2R radix2 x)) as PX. set (v := Rabs (SF2R radix2 x)) in *.
  assert (EV : nearest 53 1024 v = c /\ b' = b).
  { assert (NV : 0 <= nearest 53 1024 v) by (rewrite <- (nearest_zero 53 1024) by apply double_good; apply nearest_le; [lia|exact PX]).
    assert (Q : neg_if b' (nearest 53 1024 v) = neg_if b c) by (rewrite <- nearest_neg, <- EX; exact DV).
    destruct b', b; cbn [neg_if] in Q; split; try reflexivity; lra. }
  destruct EV as [EV ->].
  rewrite EX, Ry, DV. rewrite !other_side_neg by (try exact float_good; lra). rewrite halfway_neg_if, Rabs_neg_if by lra.
  assert (CORE : halfway 24 128 c -> (~ rounded 24 128 z neg (neg_if b v) <-> c < bpow radix2 128 /\
    ~ (((v < c /\ c < nearest 24 128 c) \/ (c < v /\ nearest 24 128 c < c)) <-> ((w < c /\ c < nearest 24 128 c) \/ (c < w /\ nearest 24 128 c < c))))).
  { intros (a & FA & A & EC). rewrite Rabs_pos_eq in EC by lra.
    pose proof (succ_more 24 128 float_good a A) as AB.
    assert (FB : generic_format radix2 fexp32 (succ radix2 fexp32 a)) by (apply generic_format_succ; [typeclasses eauto|exact FA]).
    change (binary_format 24 128) with fexp32 in *.
    pose proof (wider 53 1024 24 128 a ltac:(lia) ltac:(lia) FA) as WA. pose proof (wider 53 1024 24 128 _ ltac:(lia) ltac:(lia) FB) as WB.
    assert (a <= pred radix2 fexp64 c) by (apply pred_ge_gt; [typeclasses eauto|exact WA|exact FF|lra]).
    assert (succ radix2 fexp64 c <= succ radix2 fexp32 a) by (apply succ_le_lt; [typeclasses eauto|exact FF|exact WB|lra]).
    assert (BW : a <= w <= succ radix2 fexp32 a) by lra.
    assert (BV : a <= v <= succ radix2 fexp32 a).
    { split.
      - destruct (Rle_or_lt a v) as [|X]; [assumption|exfalso]. assert (c <= a); [|lra].
        rewrite <- EV, <- (nearest_format 53 1024 a (proj1 double_good) WA). apply nearest_le; [lia|lra].
      - destruct (Rle_or_lt v (succ radix2 fexp32 a)) as [|X]; [assumption|exfalso].
        assert (succ radix2 fexp32 a <= c); [|lra].
        rewrite <- EV, <- (nearest_format 53 1024 _ (proj1 double_good) WB). apply nearest_le; [lia|lra]. }
    destruct (mid_differs 24 128 float_good a c w b z neg FA A EC BW) as [_ MW]. specialize (MW Rz).
    destruct (mid_differs 24 128 float_good a c v b z neg FA A EC BV) as [MV _].
    pose proof (sides 24 128 float_good a c w FA A EC BW) as SW. pose proof (sides 24 128 float_good a c v FA A EC BV) as SV.
    pose proof (rounded_same 24 128 float_good z neg b w v Rz ltac:(lra) ltac:(lra)) as RS.
    assert (TWO : nearest 24 128 w <> nearest 24 128 c -> nearest 24 128 v <> nearest 24 128 c -> nearest 24 128 w = nearest 24 128 v).
    { destruct (either 24 128 float_good a w FA A BW) as [-> | ->]; destruct (either 24 128 float_good a v FA A BV) as [-> | ->];
        destruct (either 24 128 float_good a c FA A) as [-> | ->]; change (binary_format 24 128) with fexp32; lra || congruence. }
    destruct (Classical_Prop.classic (rounded 24 128 z neg (neg_if b c))) as [RC|NC].
    - specialize (MV RC). rewrite MV. destruct (Rlt_or_le c (bpow radix2 128)) as [S|S]; [|split; intros [X _]; lra].
      assert (NW : ~ ((w < c /\ c < nearest 24 128 c) \/ (c < w /\ nearest 24 128 c < c))) by (intros X; apply (proj2 MW (conj S X)); exact RC).
      split; intros [_ X]; (split; [exact S|]); [intros I; exact (NW (proj1 I X))|].
      apply Classical_Prop.NNPP. intros Y. apply X. split; intros Q; contradiction.
    - destruct (proj1 MW NC) as [S OW]. split.
      + intros NR. split; [exact S|]. intros I. apply NR. apply RS. left. apply TWO; [apply SW; exact OW|apply SV, I, OW].
      + intros [_ NI] RV. apply NI. split; [intros _; exact OW|]. intros _. apply RS in RV.
        apply SV. intros X. apply NC. apply (rounded_same 24 128 float_good z neg b w c Rz ltac:(lra) ltac:(lra)). rewrite <- X. exact RV. }
  split.
  - intros NR. assert (HW : halfway 24 128 c).
    { destruct (Classical_Prop.classic (halfway 24 128 c)) as [X|X]; [exact X|exfalso].
      rewrite <- (halfway_neg_if 24 128 b c), <- DV in X. destruct (long_double_as_float e x s HN Hx Fi N R X L) as (z' & Ez' & Rz').
      rewrite Ez in Ez'. injection Ez' as <-. rewrite EX in Rz'. exact (NR Rz'). }
    split; [exact HW|]. apply (CORE HW). exact NR.
  - intros [HW X]. apply (CORE HW). exact X.
Qed.

(** An integer through text to float (C58). *)
Lemma integer_float_exactly e point t v s : platform_ok (e_platform e) -> point_ok point -> has_int_type (e_platform e) t v ->
  lexi e (VInt t v) = Ok s ->
  exists z, extract e point TFloat s = Ok (XFloating z) /\
    (~ rounded 24 128 z (v <? 0)%Z (IZR v) <->
     let c := nearest (ld_prec (fe_ld (e_float e))) (ld_emax (fe_ld (e_float e))) (IZR v) in
     halfway 24 128 c /\ other_side 24 128 c (IZR v)).
Proof.
  intros HP PO HV L. destruct (integer_formats e t v HP HV) as (s' & L' & _ & _ & _ & C). rewrite L in L'. apply Ok_inj in L'. subst s'.
  pose proof (has_int_type_range _ _ _ HP HV) as B.
  destruct (integer_as_float e point s v PO C B) as ((y & EY & RY) & _ & _).
  destruct (texts_denote point s PO) as (d & RD & _). destruct (float_extracts e point s d PO RD) as (y' & _ & EY' & _ & (z & EZ & NZ)).
  rewrite EY in EY'. injection EY' as <-. exists z. split; [exact EZ|].
  pose proof (ld_good (fe_ld (e_float e))) as G.
  assert (HP1 : (24 + 1 <= ld_prec (fe_ld (e_float e)))%Z) by (destruct (fe_ld (e_float e)); cbn; lia).
  assert (HQ1 : (3 - ld_emax (fe_ld (e_float e)) - ld_prec (fe_ld (e_float e)) + 1 <= 3 - 128 - 24)%Z) by (destruct (fe_ld (e_float e)); cbn; lia).
  assert (HM1 : (128 < ld_emax (fe_ld (e_float e)))%Z) by (destruct (fe_ld (e_float e)); cbn; lia).
  rewrite (narrowed_exactly _ _ 24 128 G float_good HP1 HQ1 HM1 y z _ _ RY NZ). cbv zeta.
  destruct RY as [VY RY]. set (c := nearest _ _ (IZR v)) in *.
  assert (SM : Rabs c <= bpow radix2 64).
  { apply Rabs_le. assert (F : generic_format radix2 (binary_format (ld_prec (fe_ld (e_float e))) (ld_emax (fe_ld (e_float e)))) (bpow radix2 64)).
    { apply generic_format_FLT_bpow; [apply G|]. destruct G. lia. }
    assert (Q : -bpow radix2 64 <= IZR v <= bpow radix2 64).
    { rewrite <- IZR_Zpower by lia. rewrite <- opp_IZR. split; apply IZR_le; change (radix2 ^ 64)%Z with (2 ^ 64)%Z; lia. }
    split.
    - rewrite <- (nearest_format _ _ _ (proj1 G) (generic_format_opp _ _ _ F)). apply nearest_le; [apply G|apply Q].
    - rewrite <- (nearest_format _ _ _ (proj1 G) F). apply nearest_le; [apply G|apply Q]. }
  rewrite Rlt_bool_true in RY by (apply Rle_lt_trans with (1 := SM); apply bpow_lt; lia).
  destruct RY as (-> & FY & _). pose proof (bpow_lt radix2 64 128 ltac:(lia)). split.
  - intros (_ & Q1 & _ & Q2). auto.
  - intros (Q1 & Q2). repeat split; try assumption. lra.
Qed.

(** ** JSON with configured words (C24) *)
Lemma configured_json e u s : nan_ok (e_float e) -> float_literals_ok (e_lit e) -> bits64 u -> jsonify_of e (VDouble u) = Ok s ->
  (json_text s <-> double_finite u \/ (double_nan u /\ json_text (lit_nan (e_lit e))) \/
     (double_infinity u false /\ json_text (lit_infinity (e_lit e))) \/ (double_infinity u true /\ json_text (lit_negative_infinity (e_lit e)))).
Proof.
  intros HN (L1 & L2 & L3) H J. destruct (floating_functions e (VDouble u) H) as (_ & _ & X). pose proof J as J'. rewrite X in J'.
  assert (EXC : double_nan u \/ (exists b, double_infinity u b) \/ double_finite u).
  { unfold double_nan, double_infinity, double_finite. destruct (Bits.b64_of_bits u); cbn; eauto. }
  destruct EXC as [C|[[b C]|C]].
  - rewrite lexi_nan in J' by assumption. apply Ok_inj in J'. subst s. split; [auto|].
    intros [Q|[[_ Q]|[[Q _]|[Q _]]]]; [|exact Q| |]; exfalso; unfold double_nan, double_infinity, double_finite in *;
      destruct (Bits.b64_of_bits u); cbn in *; try discriminate C; try discriminate Q; contradiction.
  - rewrite (lexi_infinity e u b) in J' by (destruct b; assumption). apply Ok_inj in J'. subst s. split; [destruct b; auto|].
    unfold double_nan, double_infinity, double_finite in *.
    intros [Q|[[Q _]|[[Q Y]|[Q Y]]]]; destruct (Bits.b64_of_bits u) as [q|q|q pl|q m k]; cbn in *; try discriminate Q; try discriminate C;
      try contradiction; destruct b; try exact Y; congruence.
  - split; [auto|]. intros _. exact (proj2 (finite_json e u s H C J)).
Qed.

(** ** Lines and escape (C75) *)
Lemma inserted_lines s t : inserted escaped_class s t -> (one_line t <-> one_line s).
Proof.
  unfold one_line. induction 1 as [|c s t Hc H IH|c s t Hc H IH]; [tauto| |].
  - rewrite !Forall_cons_iff, IH. assert (32 <= code BACKSLASH)%Z by (vm_compute; discriminate). tauto.
  - rewrite !Forall_cons_iff, IH. tauto.
Qed.

Lemma escape_lines e v s t : platform_ok (e_platform e) -> nan_ok (e_float e) -> e_lit e = default_literals -> argument_ok e v ->
  lexi e v = Ok s -> escape_of e v = Ok t -> (one_line t <-> one_line s).
Proof.
  intros HP HN HL HV L E.
  assert (STR : forall x y, escape_of e (VString x) = Ok y -> (one_line y <-> one_line x)).
  { intros x y Q. destruct (escape_string e x) as (y' & Q' & I). rewrite Q in Q'. apply Ok_inj in Q'. subst y'. apply inserted_lines, I. }
  assert (OTHER : value_ok e v -> (forall c, v <> VChar c) -> one_line t <-> one_line s).
  { intros V NC. assert (X : exists f, Format e v = Ok f).
    { destruct v; try contradiction V; cbn [lexi] in L; destruct (Format e _) as [f| | |]; try discriminate L; eauto. }
    destruct X as [f F]. destruct (all_views e v f HP HN HL V F) as (s' & L' & _ & _ & W). destruct (W NC) as [W' _].
    rewrite L in L'. apply Ok_inj in L'. rewrite E in W'. apply Ok_inj in W'. subst. tauto. }
  destruct v; try (apply OTHER; [exact HV|discriminate]).
  - destruct (char_views e c) as (_ & _ & _ & Q & _). rewrite Q in E. destruct (char_formats e c) as [Q' _]. rewrite Q' in L.
    apply Ok_inj in L. subst s. exact (STR _ _ E).
  - apply Ok_inj in L. subst s. exact (STR _ _ E).
  - rewrite (proj1 (cstring_as_string e s0 s L)) in E. exact (STR _ _ E).
Qed.
