(** Rounding twice, continued: exactly when it is wrong (C66, C78, C60). *)
From Coq Require Import Reals Lra Psatz Floats.SpecFloat.
From Flocq Require Import Core Relative.
From Flocq Require IEEE754.Binary IEEE754.Bits.
From Flocq Require Import IEEE754.BinarySingleNaN.
From Verif Require Import Machine LibMachine SpecApi SpecDecimal SpecInt SpecNumber SpecIeee SpecString SpecLayout SpecJson SpecRead SpecMore SpecAmount SpecTwice
  ModelItoa ModelInt ModelText ModelIeee ModelDiyfp ModelDtoa
  ModelFloat ModelLexi ModelPlatforms ProofDiyfp ProofCached ProofDigits ProofGrisu ProofLayout ProofText ProofInt ProofIeee ProofDtoa ProofNumber
  ProofRound ProofStrict ProofUnique ProofShort ProofApi ProofFloat ProofFloat2 ProofFloat3 ProofFloat4 ProofRead ProofRead2 ProofRead3 ProofMore ProofMore3 ProofMore5 ProofAmount ProofThrough ProofWide.
Open Scope Z_scope.
Ltac Zify.zify_post_hook ::= idtac.
Open Scope R_scope.

Section Sides.
Context (p q : Z) (G : good_format p q).
Let fx := binary_format p q.
Instance valid_sides : Valid_exp fx := FLT_exp_valid (3 - q - p) p (prec_gt_0_ := proj1 G).

Lemma succ_more a : 0 <= a -> a < succ radix2 fx a.
Proof.
  intros A. destruct (Req_dec a 0) as [->|N]; [|apply succ_gt_id; exact N].
  rewrite succ_0. unfold fx, binary_format. rewrite ulp_FLT_0 by apply G. apply bpow_gt_0.
Qed.

(** Between two neighbours everything is rounded to one of them. *)
Lemma either a w : generic_format radix2 fx a -> 0 <= a -> a <= w <= succ radix2 fx a -> nearest p q w = a \/ nearest p q w = succ radix2 fx a.
Proof.
  intros F A [L H]. pose proof (succ_more a A) as AB.
  assert (FB : generic_format radix2 fx (succ radix2 fx a)) by (apply generic_format_succ; [apply valid_sides|exact F]).
  assert (N1 : a <= nearest p q w) by (rewrite <- (nearest_format p q a (proj1 G) F) at 1; apply nearest_le; [apply G|exact L]).
  assert (N2 : nearest p q w <= succ radix2 fx a).
  { rewrite <- (nearest_format p q _ (proj1 G) FB). apply nearest_le; [apply G|exact H]. }
  destruct N1 as [N1|N1]; [right|left; symmetry; exact N1]. apply Rle_antisym; [exact N2|].
  apply succ_le_lt; [apply valid_sides|exact F| |exact N1]. apply generic_format_round; [apply valid_sides|apply valid_rnd_N].
Qed.

Lemma sides a c w : generic_format radix2 fx a -> 0 <= a -> c = (a + succ radix2 fx a) / 2 -> a <= w <= succ radix2 fx a ->
  (nearest p q w <> nearest p q c <-> (w < c /\ c < nearest p q c) \/ (c < w /\ nearest p q c < c)).
Proof.
  intros F A C W. pose proof (succ_more a A) as AB. destruct (either a c F A ltac:(lra)) as [E|E]; rewrite E;
    (destruct (Rtotal_order w c) as [H|[H|H]];
     [rewrite (near_low p q G a w F) by (fold fx; lra)|subst w; rewrite E|
      rewrite (near_high p q G a (succ radix2 fx a) w)
        by first [apply generic_format_succ; [apply valid_sides|exact F]|apply pred_succ; [apply valid_sides|exact F]|lra]]);
    split; intros X; try lra; try (intros Y; lra).
Qed.

(** Two numbers on the same side of zero that are rounded to the same or not. *)
Lemma rounded_same z neg b r1 r2 : rounded p q z neg (neg_if b r1) -> 0 <= r1 -> 0 <= r2 ->
  (rounded p q z neg (neg_if b r2) <-> nearest p q r1 = nearest p q r2 \/ (bpow radix2 q <= nearest p q r1 /\ bpow radix2 q <= nearest p q r2)).
Proof.
  intros [V R] P1 P2. unfold rounded. rewrite !nearest_neg in *.
  assert (N : forall r, 0 <= r -> Rabs (neg_if b (nearest p q r)) = nearest p q r).
  { intros r P. assert (0 <= nearest p q r) by (rewrite <- (nearest_zero p q) by apply G; apply nearest_le; [apply G|exact P]).
    destruct b; cbn [neg_if]; [rewrite Rabs_Ropp|]; apply Rabs_pos_eq; assumption. }
  rewrite (N r1 P1) in R. rewrite (N r2 P2). revert R.
  destruct (Rlt_bool_spec (nearest p q r1) (bpow radix2 q)) as [B1|B1]; destruct (Rlt_bool_spec (nearest p q r2) (bpow radix2 q)) as [B2|B2]; intros R; split.
  - intros (_ & E & _). left. destruct R as (R & _). rewrite R in E. destruct b; cbn [neg_if] in E; lra.
  - intros [E|E]; [|lra]. rewrite <- E. split; [exact V|]. exact R.
  - intros (_ & ->). destruct R as (_ & X & _). discriminate X.
  - intros [E|E]; lra.
  - intros (_ & _ & X & _). rewrite R in X. discriminate X.
  - intros [E|E]; lra.
  - intros _. right. auto.
  - intros _. auto.
Qed.

(** The middle of two values, and a number between them. *)
Lemma power_format : generic_format radix2 fx (bpow radix2 q).
Proof. apply generic_format_FLT_bpow; [apply G|]. destruct G. lia. Qed.

Lemma mid_small a : generic_format radix2 fx a -> 0 <= a -> ((a + succ radix2 fx a) / 2 < bpow radix2 q <-> a < bpow radix2 q).
Proof.
  intros F A. pose proof (succ_more a A) as AB. split; intros H; [lra|].
  assert (succ radix2 fx a <= bpow radix2 q) by (apply succ_le_lt; [apply valid_sides|exact F|exact power_format|exact H]). lra.
Qed.

Lemma mid_differs a c w b z neg : generic_format radix2 fx a -> 0 <= a -> c = (a + succ radix2 fx a) / 2 -> a <= w <= succ radix2 fx a ->
  (rounded p q z neg (neg_if b c) -> ~ rounded p q z neg (neg_if b w) <->
     c < bpow radix2 q /\ ((w < c /\ c < nearest p q c) \/ (c < w /\ nearest p q c < c))) /\
  (rounded p q z neg (neg_if b w) -> ~ rounded p q z neg (neg_if b c) <->
     c < bpow radix2 q /\ ((w < c /\ c < nearest p q c) \/ (c < w /\ nearest p q c < c))).
Proof.
  intros F A C W. pose proof (succ_more a A) as AB.
  assert (BOTH : (bpow radix2 q <= nearest p q c /\ bpow radix2 q <= nearest p q w) /\ c < bpow radix2 q -> nearest p q w = nearest p q c).
  { intros [[H1 H2] H3]. rewrite C in H3. apply (proj1 (mid_small a F A)) in H3.
    destruct (either a c F A ltac:(lra)) as [E|E]; destruct (either a w F A W) as [E'|E']; lra. }
  assert (BIG : bpow radix2 q <= c -> bpow radix2 q <= nearest p q c /\ bpow radix2 q <= nearest p q w).
  { intros H. assert (bpow radix2 q <= a).
    { destruct (Rle_or_lt (bpow radix2 q) a) as [X|X]; [exact X|]. apply (proj2 (mid_small a F A)) in X. lra. }
    destruct (either a c F A ltac:(lra)) as [E|E]; destruct (either a w F A W) as [E'|E']; lra. }
  pose proof (sides a c w F A C W) as SD.
  assert (KEY : ~ (nearest p q c = nearest p q w \/ (bpow radix2 q <= nearest p q c /\ bpow radix2 q <= nearest p q w)) <->
    c < bpow radix2 q /\ ((w < c /\ c < nearest p q c) \/ (c < w /\ nearest p q c < c))).
  { rewrite <- SD. destruct (Rlt_or_le c (bpow radix2 q)) as [H|H].
    - split; [intros X; split; [exact H|]; intros Y; apply X; left; symmetry; exact Y|].
      intros [_ X] [Y|Y]; apply X; [symmetry; exact Y|]. apply BOTH. auto.
    - split; [intros X; contradiction X; right; exact (BIG H)|lra]. }
  split; intros R.
  - rewrite (rounded_same z neg b c w R) by lra. exact KEY.
  - rewrite (rounded_same z neg b w c R) by lra. rewrite <- KEY. split; intros X Y; apply X; destruct Y as [Y|[Y1 Y2]]; [left; symmetry; exact Y|right; auto|left; symmetry; exact Y|right; auto].
Qed.
End Sides.

Lemma sign_split x : exists b, x = neg_if b (Rabs x).
Proof. destruct (Rle_or_lt 0 x) as [H|H]; [exists false; cbn; rewrite Rabs_pos_eq; lra|exists true; cbn; rewrite Rabs_left by exact H; lra]. Qed.

Lemma other_side_neg p q b1 b2 c w : good_format p q -> 0 <= c -> 0 <= w ->
  (other_side p q (neg_if b1 c) (neg_if b2 w) <-> (w < c /\ c < nearest p q c) \/ (c < w /\ nearest p q c < c)).
Proof.
  intros G C W. unfold other_side. rewrite nearest_neg.
  assert (A : forall b r, 0 <= r -> Rabs (neg_if b r) = r).
  { intros [|] r P; cbn [neg_if]; [rewrite Rabs_Ropp|]; apply Rabs_pos_eq; exact P. }
  assert (0 <= nearest p q c) by (rewrite <- (nearest_zero p q) by apply G; apply nearest_le; [apply G|exact C]).
  rewrite !A by assumption. reflexivity.
Qed.

Section Again.
Context (p q p' q' : Z) (G : good_format p q) (G' : good_format p' q') (HP : (p' + 1 <= p)%Z) (HQ : (3 - q - p + 1 <= 3 - q' - p')%Z) (HM : (q' < q)%Z).

Lemma narrowed_exactly y z neg x : rounded p q y neg x -> narrowed p' q' y z ->
  (~ rounded p' q' z neg x <->
   is_finite_SF y = true /\ halfway p' q' (SF2R radix2 y) /\ Rabs (SF2R radix2 y) < bpow radix2 q' /\ other_side p' q' (SF2R radix2 y) x).
Proof.
  intros RY NZ.
  assert (CORE : is_finite_SF y = true -> halfway p' q' (SF2R radix2 y) ->
    (~ rounded p' q' z neg x <-> Rabs (SF2R radix2 y) < bpow radix2 q' /\ other_side p' q' (SF2R radix2 y) x)).
  { intros FY (a & F & A & E).
    destruct (sign_split x) as [b EX]. pose proof (Rabs_pos x) as PX. set (w := Rabs x) in *.
    destruct RY as [V RY]. rewrite EX, nearest_neg in RY.
    assert (PN : 0 <= nearest p q w) by (rewrite <- (nearest_zero p q) by apply G; apply nearest_le; [apply G|exact PX]).
    assert (EY : SF2R radix2 y = neg_if b (nearest p q w) /\ sign_SF y = neg).
    { revert RY. destruct (Rlt_bool_spec (Rabs (neg_if b (nearest p q w))) (bpow radix2 q)); [intros (E1 & _ & E2); auto|intros ->; discriminate FY]. }
    destruct EY as [EY SY].
    assert (AY : Rabs (SF2R radix2 y) = nearest p q w).
    { rewrite EY. destruct b; cbn [neg_if]; [rewrite Rabs_Ropp|]; apply Rabs_pos_eq; exact PN. }
    set (c := nearest p q w) in *. rewrite AY in *.
    pose proof (succ_more p' q' G' a A) as AB.
    assert (FB : generic_format radix2 (binary_format p' q') (succ radix2 (binary_format p' q') a)).
    { apply generic_format_succ; [apply FLT_exp_valid; apply G'|exact F]. }
    assert (W : a <= w <= succ radix2 (binary_format p' q') a).
    { pose proof (wider p q p' q' a ltac:(lia) ltac:(lia) F) as WA. pose proof (wider p q p' q' _ ltac:(lia) ltac:(lia) FB) as WB. split.
      - destruct (Rle_or_lt a w) as [|X]; [assumption|exfalso]. assert (c <= a); [|lra].
        unfold c. rewrite <- (nearest_format p q a (proj1 G) WA). apply nearest_le; [apply G|lra].
      - destruct (Rle_or_lt w (succ radix2 (binary_format p' q') a)) as [|X]; [assumption|exfalso].
        assert (succ radix2 (binary_format p' q') a <= c); [|lra].
        unfold c. rewrite <- (nearest_format p q _ (proj1 G) WB) at 1. apply nearest_le; [apply G|lra]. }
    assert (RZ : rounded p' q' z neg (neg_if b c)).
    { rewrite <- EY. destruct y as [s|s| |s m k]; try discriminate FY; cbn [narrowed sign_SF] in *; [|rewrite <- SY; exact NZ].
      exfalso. cbn [SF2R] in AY. rewrite Rabs_R0 in AY. lra. }
    rewrite EX, EY. rewrite other_side_neg by (assumption || lra).
    apply (proj1 (mid_differs p' q' G' a c w b z neg F A E W)). exact RZ. }
  split.
  - intros NR. destruct (narrowed_twice p q p' q' G G' HP HQ HM y z neg x RY NZ) as [X|(FY & H & _)]; [contradiction|].
    split; [exact FY|]. split; [exact H|]. apply (CORE FY H). exact NR.
  - intros (FY & H & X). apply (CORE FY H). exact X.
Qed.
End Again.

(** A value of the format is not the middle of two. *)
Lemma not_halfway p q y : good_format p q -> SpecFloat.valid_binary p q y = true -> is_finite_SF y = true -> ~ halfway p q (SF2R radix2 y).
Proof.
  intros G V F (a & FA & A & E). pose proof (succ_more p q G a A) as AB.
  assert (FY : generic_format radix2 (binary_format p q) (Rabs (SF2R radix2 y))).
  { apply generic_format_abs. exact (proj1 (valid_format p q y G V F)). }
  assert (succ radix2 (binary_format p q) a <= Rabs (SF2R radix2 y)); [|lra].
  apply succ_le_lt; [apply FLT_exp_valid; apply G|exact FA|exact FY|lra].
Qed.

(** Extraction (C66). *)
Lemma nearest_exactly e point s v x T p q : point_ok point -> reads point s v -> denotes v x -> target_format e T = Some (p, q) ->
  exists y z, extract e point TLongDouble s = Ok (XFloating y) /\ extract e point T s = Ok (XFloating z) /\
    (~ read_as p q v z <->
     is_finite_SF y = true /\ halfway p q (SF2R radix2 y) /\ Rabs (SF2R radix2 y) < bpow radix2 q /\ other_side p q (SF2R radix2 y) x).
Proof.
  intros PO R D HT. destruct (float_extracts e point s v PO R) as (y & RY & EY & (z & EZ & NZ) & (w & EW & NW)).
  assert (Y : exists neg, rounded (ld_prec (fe_ld (e_float e))) (ld_emax (fe_ld (e_float e))) y neg x /\
    forall p q t, read_as p q v t <-> rounded p q t neg x).
  { destruct v as [neg A K|neg A K| | |]; try contradiction D; cbn [denotes read_as] in *; subst x; exists neg; (split; [exact RY|reflexivity]). }
  destruct Y as (neg & Y & RR). exists y. pose proof (ld_good (fe_ld (e_float e))) as G.
  destruct T; try discriminate HT; injection HT as <- <-.
  - exists w. split; [exact EY|]. split; [exact EW|]. rewrite RR.
    apply (narrowed_exactly _ _ 24 128 G float_good); try assumption; destruct (fe_ld (e_float e)); cbn; lia.
  - exists z. split; [exact EY|]. split; [exact EZ|]. rewrite RR. destruct (fe_ld (e_float e)) eqn:EL.
    + rewrite (narrowed_same 53 1024 y z neg x G Y NZ). cbn [ld_prec ld_emax] in Y. split; [intros X; contradiction|].
      intros (X1 & X2 & _). contradiction (not_halfway 53 1024 y double_good (proj1 Y) X1 X2).
    + apply (narrowed_exactly _ _ 53 1024 G double_good); try assumption; cbn; lia.
    + apply (narrowed_exactly _ _ 53 1024 G double_good); try assumption; cbn; lia.
  - exists y. split; [exact EY|]. split; [exact EY|]. rewrite RR. split; [intros X; contradiction|].
    intros (X1 & X2 & _). contradiction (not_halfway _ _ y G (proj1 Y) X1 X2).
Qed.

(** A double through text to float (C78). *)
Lemma double_float_exactly e u s : bits64 u -> double_finite u -> double_value u <> 0 -> lexi e (VDouble u) = Ok s ->
  exists y z, extract e "."%char TLongDouble s = Ok (XFloating y) /\ extract e "."%char TFloat s = Ok (XFloating z) /\
    (~ rounded 24 128 z (double_sign u) (double_value u) <->
     halfway 24 128 (double_value u) /\ Rabs (double_value u) < bpow radix2 128 /\ other_side 24 128 (double_value u) (SF2R radix2 y)).
Proof.
  intros H Fi N L.
  destruct (read_between e u s H Fi N L) as (y & ds & K & F & E & k & kap & FP & G & DV & Bn & Ey & Ry & Fy & B & _ & (z & Ez & Rz)).
  exists y, z. split; [exact Ey|]. split; [exact Ez|]. rewrite double_sign_field by exact H.
  pose proof (dbl_R_pos _ FP) as P. pose proof (dbl_format _ FP) as FF.
  pose proof (lower_above_mid _ FP) as LM. pose proof (upper_is_mid _ FP) as UM. pose proof (lower_positive _ FP) as LP. pose proof (bpow_gt_0 radix2 (-1076)) as P0.
  set (b := sign_field u) in *. set (c := dbl_R (u mod 2 ^ 63)) in *.
  set (w := nearest (ld_prec (fe_ld (e_float e))) (ld_emax (fe_ld (e_float e))) (digits_R ds K)) in *.
  assert (W : Rabs (SF2R radix2 y) = w).
  { rewrite Ry. apply Rabs_neg_if. pose proof (ld_between (fe_ld (e_float e)) _ _ FP Bn) as X. fold w in X. lra. }
  rewrite W in B. rewrite Ry in Rz. rewrite DV, Ry. rewrite other_side_neg by (try exact float_good; lra).
  rewrite halfway_neg_if, Rabs_neg_if by lra.
  assert (CORE : halfway 24 128 c -> (~ rounded 24 128 z b (neg_if b c) <-> c < bpow radix2 128 /\ ((w < c /\ c < nearest 24 128 c) \/ (c < w /\ nearest 24 128 c < c)))).
  { intros (a & FA & A & EC). rewrite Rabs_pos_eq in EC by lra.
    pose proof (succ_more 24 128 float_good a A) as AB.
    assert (FB : generic_format radix2 fexp32 (succ radix2 fexp32 a)) by (apply generic_format_succ; [typeclasses eauto|exact FA]).
    pose proof (wider 53 1024 24 128 a ltac:(lia) ltac:(lia) FA) as WA. pose proof (wider 53 1024 24 128 _ ltac:(lia) ltac:(lia) FB) as WB.
    assert (a <= pred radix2 fexp64 c) by (apply pred_ge_gt; [typeclasses eauto|exact WA|exact FF|lra]).
    assert (succ radix2 fexp64 c <= succ radix2 fexp32 a) by (apply succ_le_lt; [typeclasses eauto|exact FF|exact WB|unfold fexp32, binary_format in *; lra]).
    apply (proj2 (mid_differs 24 128 float_good a c w b z b FA A EC ltac:(fold fexp32; lra))). exact Rz. }
  split.
  - intros NR. assert (HW : halfway 24 128 c).
    { destruct (Classical_Prop.classic (halfway 24 128 c)) as [X|X]; [exact X|exfalso].
      rewrite <- (halfway_neg_if 24 128 b c), <- DV in X. destruct (double_as_float e u s H Fi N L (or_intror X)) as (z' & Ez' & Rz').
      rewrite Ez in Ez'. injection Ez' as <-. rewrite double_sign_field, DV in Rz' by exact H. exact (NR Rz'). }
    split; [exact HW|]. apply (CORE HW). exact NR.
  - intros [HW X]. apply (CORE HW). exact X.
Qed.

(** Printing what was read (C60). *)
Lemma stable_exactly e u w s z : nan_ok (e_float e) -> e_lit e = default_literals -> bits64 u -> bits64 w -> double_finite u -> double_value u <> 0 ->
  lexi e (VDouble u) = Ok s -> extract e "."%char TDouble s = Ok (XFloating z) -> double_is z w ->
  exists y, extract e "."%char TLongDouble s = Ok (XFloating y) /\ is_finite_SF y = true /\
    (lexi e (VDouble w) <> Ok s <->
     let x := Rabs (double_value u) in
     Z.even u = false /\
     (Rabs (SF2R radix2 y) = (x + pred radix2 (binary_format 53 1024) x) / 2 \/ Rabs (SF2R radix2 y) = (x + succ radix2 (binary_format 53 1024) x) / 2)).
Proof.
  intros HN HL HU HW Fi N L X D. destruct (double_read_iff e u s HU Fi N L) as (y & z' & Ey & Ez & Fy & I).
  rewrite X in Ez. injection Ez as <-. exists y. split; [exact Ey|]. split; [exact Fy|]. rewrite <- I.
  destruct (read_between e u s HU Fi N L) as (y' & ds & K & F & E & k & kap & _ & _ & _ & _ & Ey' & _ & Fy' & _ & (z' & Ez & Vz & Rz) & _).
  rewrite X in Ez. injection Ez as <-.
  assert (NN : z <> S754_nan).
  { intros ->. destruct (Rlt_bool _ _); [destruct Rz as (_ & Rz & _)|]; discriminate Rz. }
  assert (EQ : lexi e (VDouble w) = Ok s <-> same_double z u); [|tauto]. split.
  - intros LW. assert (NW : ~ double_nan w).
    { destruct z; try contradiction; cbn [double_is] in D; unfold double_infinity, double_finite, double_nan in *; destruct (Bits.b64_of_bits w); intuition discriminate. }
    assert (NU : ~ double_nan u) by (unfold double_finite, double_nan in *; destruct (Bits.b64_of_bits u); intuition discriminate).
    destruct (double_injective e e u w s HL HL HU HW NU NW L LW) as [EU|(_ & Z0 & _)]; [|contradiction]. subst w.
    destruct z as [s0|s0| |s0 m e0]; try contradiction; cbn [double_is] in D; [exact (proj2 D)| |exact (proj2 D)].
    unfold double_infinity, double_finite in *. destruct (Bits.b64_of_bits u); intuition discriminate.
  - intros S. rewrite <- L. symmetry. apply double_is_unique; auto using default_fits. right. right. split; [exact Fi|].
    destruct S as (_ & FZ & V & _). destruct z; try discriminate FZ; destruct D as [Fw (_ & _ & V' & _)]; (split; [exact Fw|]); congruence.
Qed.
