(** The decimal fast path in the rounding directions and in wider formats. *)
From Coq Require Import Reals Lra Psatz Floats.SpecFloat.
From Flocq Require Import Core IEEE754.BinarySingleNaN.
From Verif Require Import Machine SpecDecimal SpecNumber SpecIeee SpecRead SpecMore SpecDirected SpecTwice
  ModelFloat ModelDirected ModelStrtod ModelEval
  ProofDiyfp ProofCached ProofDigits ProofGrisu ProofIeee ProofRound ProofMore5 ProofDirected ProofStrtod ProofTwice.
Open Scope Z_scope.
Ltac Zify.zify_post_hook ::= idtac.

Lemma d_rounded_zero d p q s : good_format p q -> d_rounded d p q (S754_zero s) s 0.
Proof.
  intros G. split; [reflexivity|]. cbv zeta. rewrite round_0 by (destruct d; cbn; typeclasses eauto).
  rewrite Rabs_R0, Rlt_bool_true by apply bpow_gt_0. repeat split; reflexivity.
Qed.

Lemma d_rounded_nearest p q z neg x : d_rounded ToNearest p q z neg x <-> rounded p q z neg x.
Proof. unfold d_rounded, rounded. cbn [flocq_mode round_mode d_overflow]. reflexivity. Qed.

Section Operations.
Context (d : direction) (p q : Z) (G : good_format p q).

Lemma d_mul_rounded a b : SpecFloat.valid_binary p q a = true -> SpecFloat.valid_binary p q b = true ->
  is_finite_SF a = true -> is_finite_SF b = true ->
  d_rounded d p q (d_mul d p q a b) (xorb (sign_SF a) (sign_SF b)) (dvalue a * dvalue b).
Proof.
  intros Va Vb Fa Fb.
  destruct a as [sa|sa| |sa ma ea]; try discriminate Fa;
  destruct b as [sb|sb| |sb mb eb]; try discriminate Fb;
  cbn [SF2R sign_SF]; rewrite ?Rmult_0_l, ?Rmult_0_r; try apply (d_rounded_zero _ _ _ _ G).
  unfold d_mul, d_rounded. rewrite round_aux_equiv, overflow_equiv.
  exact (@BinarySingleNaN.Bmult_correct_aux p q (proj1 G) (proj2 G) (flocq_mode d) sa ma ea Va sb mb eb Vb).
Qed.

Lemma d_div_rounded2 a b : SpecFloat.valid_binary p q a = true -> SpecFloat.valid_binary p q b = true ->
  is_finite_SF a = true -> is_finite_SF b = true -> dvalue b <> 0%R ->
  d_rounded d p q (d_div d p q a b) (xorb (sign_SF a) (sign_SF b)) (dvalue a / dvalue b).
Proof.
  intros Va Vb Fa Fb Nb.
  destruct a as [sa|sa| |sa ma ea]; try discriminate Fa;
  destruct b as [sb|sb| |sb mb eb]; try discriminate Fb; try (exfalso; apply Nb; reflexivity);
  cbn [SF2R sign_SF].
  - unfold Rdiv. rewrite Rmult_0_l. apply (d_rounded_zero _ _ _ _ G).
  - unfold d_div, d_rounded. rewrite overflow_equiv.
    pose proof (@BinarySingleNaN.Bdiv_correct_aux p q (proj1 G) (proj2 G) (flocq_mode d) sa ma ea sb mb eb) as H.
    cbv zeta in H. destruct (SFdiv_core_binary p q (Z.pos ma) ea (Z.pos mb) eb) as [[m e] l].
    rewrite round_aux_equiv. exact H.
Qed.

Lemma d_convert_rounded y : is_finite_SF y = true -> d_rounded d p q (d_convert d p q y) (sign_SF y) (dvalue y).
Proof.
  intros F. destruct y as [s|s| |s m e]; try discriminate F; [apply d_rounded_zero, G|].
  exact (d_normalize_rounded d p q s m e G).
Qed.

(** A number of the format is not rounded. *)
Lemma d_rounded_exact z neg x : d_rounded d p q z neg x -> generic_format radix2 (binary_format p q) x -> (Rabs x < bpow radix2 q)%R ->
  SpecFloat.valid_binary p q z = true /\ is_finite_SF z = true /\ sign_SF z = neg /\ dvalue z = x.
Proof.
  intros [V H] F B. cbv zeta in H. rewrite round_generic in H by (try exact F; destruct d; cbn; typeclasses eauto).
  rewrite Rlt_bool_true in H by exact B. destruct H as (A & C & D). auto.
Qed.

(** A number not below 2^k, if that is of the format, becomes one not below it, or the positive infinity. *)
Lemma d_rounded_above z x k : d_rounded d p q z false x -> generic_format radix2 (binary_format p q) (bpow radix2 k) -> k < q ->
  (bpow radix2 k <= x)%R -> z = S754_infinity false \/ (is_finite_SF z = true /\ (bpow radix2 k <= dvalue z)%R).
Proof.
  intros [V H] F K X. cbv zeta in H. pose proof (valid_flt p q G) as VE.
  destruct (Rlt_bool _ _); [right; destruct H as (-> & A & _); split; [exact A|]; apply round_ge_generic; auto; destruct d; cbn; typeclasses eauto|].
  subst z. assert (L : (bpow radix2 k <= bpow radix2 q - bpow radix2 (q - p))%R).
  { assert (A : (bpow radix2 k <= bpow radix2 (q - 1))%R) by (apply bpow_le; lia).
    assert (B : (bpow radix2 (q - p) <= bpow radix2 (q - 1))%R) by (apply bpow_le; destruct G; lia).
    assert (D : (bpow radix2 q = bpow radix2 (q - 1) * 2)%R).
    { change 2%R with (bpow radix2 1). rewrite <- bpow_plus. f_equal. lia. }
    lra. }
  destruct (largest_value p q false G) as [_ E]. cbn [signed] in E.
  destruct d; cbn [d_overflow]; auto; right; (split; [reflexivity|rewrite E; exact L]).
Qed.

End Operations.

Section Evaluations.
Context (ev : evaluation).
Notation dir := (ev_direction ev).
Notation P := (ld_prec (ev_format ev)).
Notation Q := (ld_emax (ev_format ev)).

Lemma ev_good : good_format P Q.
Proof. apply ld_good. Qed.
Lemma ev_wide : 53 <= P /\ 1024 <= Q.
Proof. destruct (ev_format ev); cbn; lia. Qed.

Lemma widened_ok a : dvalid a = true -> is_finite_SF a = true ->
  SpecFloat.valid_binary P Q (widened ev a) = true /\ is_finite_SF (widened ev a) = true /\
  sign_SF (widened ev a) = sign_SF a /\ dvalue (widened ev a) = dvalue a.
Proof.
  intros V F. unfold widened. pose proof ev_wide. rewrite (d_convert_wider dir 53 1024 P Q a double_good ev_good) by (lia || exact V).
  destruct (sf_format 53 1024 a double_good V F) as [GF B].
  apply (convert_exact P Q a ev_good F).
  - apply (format_incl 53 1024); [lia|lia|exact GF].
  - eapply Rlt_le_trans; [exact B|]. apply bpow_le. lia.
Qed.

Lemma e_mul_rounded a b : dvalid a = true -> dvalid b = true -> is_finite_SF a = true -> is_finite_SF b = true ->
  d_rounded dir P Q (e_mul ev a b) (xorb (sign_SF a) (sign_SF b)) (dvalue a * dvalue b).
Proof.
  intros Va Vb Fa Fb. destruct (widened_ok a Va Fa) as (A1 & A2 & A3 & A4). destruct (widened_ok b Vb Fb) as (B1 & B2 & B3 & B4).
  rewrite <- A3, <- A4, <- B3, <- B4. apply d_mul_rounded; auto. apply ev_good.
Qed.
Lemma e_div_rounded a b : dvalid a = true -> dvalid b = true -> is_finite_SF a = true -> is_finite_SF b = true -> dvalue b <> 0%R ->
  d_rounded dir P Q (e_div ev a b) (xorb (sign_SF a) (sign_SF b)) (dvalue a / dvalue b).
Proof.
  intros Va Vb Fa Fb Nb. destruct (widened_ok a Va Fa) as (A1 & A2 & A3 & A4). destruct (widened_ok b Vb Fb) as (B1 & B2 & B3 & B4).
  rewrite <- A3, <- A4, <- B3, <- B4. apply d_div_rounded2; auto; [apply ev_good|rewrite B4; exact Nb].
Qed.

(** The double nearest to a power of ten. *)
Definition table (n : Z) : R := nearest 53 1024 (bpow radix10 n).
Lemma literal_nonzero n : 0 <= n <= 308 -> dvalue (literal n) <> 0%R.
Proof.
  intros H. destruct (literal_facts n H) as (_ & _ & _ & ->). apply Rgt_not_eq. apply Rlt_le_trans with 1%R; [lra|].
  rewrite <- (nearest_format 53 1024 1) by (lia || exact (small_format 1 ltac:(lia))).
  apply nearest_le'; [lia|]. change 1%R with (bpow radix10 0). apply bpow_le. lia.
Qed.

Lemma e_fastPath_wide d n : dvalid d = true -> is_finite_SF d = true -> -308 <= n <= 308 ->
  exists y, e_fastPath ev d n = Ok (to_double ev y) /\
    d_rounded dir P Q y (sign_SF d) (if 0 <=? n then dvalue d * table n else dvalue d / table (- n))%R.
Proof.
  intros V F H. unfold e_fastPath, table. destruct (Z.ltb_spec n (-308)); [lia|].
  destruct (Z.leb_spec 0 n); rewrite pow10_in by lia; cbn [bind]; eexists; (split; [reflexivity|]).
  - destruct (literal_facts n) as (Vl & Fl & Sl & <-); [lia|].
    pose proof (e_mul_rounded d (literal n) V Vl F Fl) as R. rewrite Sl, xorb_false_r in R. exact R.
  - pose proof (literal_nonzero (- n) ltac:(lia)) as NZ. destruct (literal_facts (- n)) as (Vl & Fl & Sl & <-); [lia|].
    pose proof (e_div_rounded d (literal (- n)) V Vl F Fl NZ) as R. rewrite Sl, xorb_false_r in R. exact R.
Qed.

Lemma table_exact n : 0 <= n <= 22 -> table n = bpow radix10 n.
Proof. intros H. apply nearest_format; [lia|]. apply pow10_format. exact H. Qed.

Lemma e_fastPath_small d n : dvalid d = true -> is_finite_SF d = true -> -22 <= n <= 22 ->
  exists y, e_fastPath ev d n = Ok (to_double ev y) /\ d_rounded dir P Q y (sign_SF d) (dvalue d * bpow radix10 n).
Proof.
  intros V F H. destruct (e_fastPath_wide d n V F ltac:(lia)) as (y & E & R). exists y. split; [exact E|].
  destruct (Z.leb_spec 0 n); rewrite table_exact in R by lia; [exact R|].
  unfold Rdiv in R. rewrite <- bpow_opp, Z.opp_involutive in R. exact R.
Qed.

(** The product of the disguised case: exact, or above the bound. *)
Lemma e_product_exact d N k : dvalid d = true -> is_finite_SF d = true -> dvalue d = IZR N ->
  0 <= k <= 22 -> Z.abs (N * 10 ^ k) <= 2 ^ 53 ->
  let x := to_double ev (e_mul ev d (literal k)) in
  dvalid x = true /\ is_finite_SF x = true /\ sign_SF x = sign_SF d /\ dvalue x = IZR (N * 10 ^ k).
Proof.
  intros V F E Hk B. cbv zeta. pose proof ev_wide.
  destruct (literal_facts k) as (Vl & Fl & Sl & _); [lia|].
  pose proof (e_mul_rounded d (literal k) V Vl F Fl) as R.
  rewrite Sl, xorb_false_r, literal_exact, E, <- pow10_bpow, <- mult_IZR in R by lia.
  pose proof (small_format _ B) as GF.
  assert (L : (Rabs (IZR (N * 10 ^ k)) < bpow radix2 1024)%R).
  { rewrite <- abs_IZR. apply Rle_lt_trans with (IZR (2 ^ 53)); [now apply IZR_le|].
    rewrite <- IZR_Zpower by lia. apply IZR_lt. reflexivity. }
  destruct (d_rounded_exact _ P Q _ _ _ R) as (V1 & F1 & S1 & E1).
  { apply (format_incl 53 1024); [lia|lia|exact GF]. }
  { eapply Rlt_le_trans; [exact L|]. apply bpow_le. lia. }
  pose proof (d_convert_rounded dir 53 1024 double_good _ F1) as R2. rewrite S1, E1 in R2.
  exact (d_rounded_exact _ 53 1024 _ _ _ R2 GF L).
Qed.

Lemma e_product_above d N k : dvalid d = true -> is_finite_SF d = true -> dvalue d = IZR N ->
  0 <= k <= 22 -> 2 ^ 53 <= N * 10 ^ k ->
  dle (to_double ev (e_mul ev d (literal k))) max_significand = false.
Proof.
  intros V F E Hk B. pose proof ev_wide.
  destruct (literal_facts k) as (Vl & Fl & Sl & _); [lia|].
  pose proof (e_mul_rounded d (literal k) V Vl F Fl) as R.
  assert (NP : 0 < N) by (pose proof (Z.pow_pos_nonneg 10 k); nia).
  assert (S : sign_SF d = false).
  { destruct d as [s|s| |s m e]; try discriminate F.
    - cbn in E. assert (N = 0) by (apply eq_IZR; symmetry; exact E). lia.
    - destruct s; [|reflexivity]. exfalso. apply IZR_lt in NP. rewrite <- E in NP. cbn [SF2R] in NP.
      apply gt_0_F2R in NP. cbn in NP. lia. }
  rewrite S, Sl, literal_exact, E, <- pow10_bpow, <- mult_IZR in R by lia. cbn [xorb] in R.
  assert (G1 : generic_format radix2 (binary_format 53 1024) (bpow radix2 53)).
  { apply generic_format_bpow. vm_compute. discriminate. }
  assert (X : (bpow radix2 53 <= IZR (N * 10 ^ k))%R) by (change (bpow radix2 53) with (IZR (2 ^ 53)); now apply IZR_le).
  assert (G2 : generic_format radix2 (binary_format P Q) (bpow radix2 53)) by (apply (format_incl 53 1024); [lia|lia|exact G1]).
  destruct (d_rounded_above dir P Q ev_good _ _ 53 R G2 ltac:(lia) X) as [-> |[F1 Y]]; [reflexivity|].
  pose proof (proj1 (rounded_sign _ _ _ _ _ _ R)) as S1.
  pose proof (d_convert_rounded dir 53 1024 double_good _ F1) as R2. rewrite S1 in R2.
  destruct (d_rounded_above dir 53 1024 double_good _ _ 53 R2 G1 ltac:(lia) Y) as [Z2|[F2 Z2]]; fold (to_double ev (e_mul ev d (literal k))) in Z2.
  - rewrite Z2. reflexivity.
  - destruct max_facts as (Vm & Fm & Em). rewrite dle_finite; [|apply R2|exact Vm|exact F2|exact Fm].
    rewrite Em. apply Rle_bool_false. eapply Rlt_le_trans; [|exact Z2]. change (bpow radix2 53) with (IZR (2 ^ 53)). apply IZR_lt. lia.
Qed.

Lemma e_fastPath_ok d n : n <= 308 -> exists r, e_fastPath ev d n = Ok r.
Proof.
  intros H. unfold e_fastPath. destruct (Z.ltb_spec n (-308)); [eauto|].
  destruct (Z.leb_spec 0 n); rewrite pow10_in by lia; cbn; eauto.
Qed.

Lemma e_fast_accepts d N n : dvalid d = true -> is_finite_SF d = true -> dvalue d = IZR N -> 0 <= N ->
  ((exists r, e_fast ev d n = Ok (Some r)) <->
   (-22 <= n <= 22 /\ N < 2 ^ 53) \/ (22 < n < 38 /\ N * 10 ^ (n - 22) < 2 ^ 53)).
Proof.
  intros V F E HN. unfold e_fast.
  destruct ((22 <? n) && (n <? 22 + 16)) eqn:C.
  - rewrite pow10_in by lia. cbn [bind].
    destruct (Z_lt_le_dec (N * 10 ^ (n - 22)) (2 ^ 53)) as [L|L].
    + assert (B : Z.abs (N * 10 ^ (n - 22)) <= 2 ^ 53).
      { pose proof (Z.pow_pos_nonneg 10 (n - 22)). rewrite Z.abs_eq by nia. lia. }
      destruct (e_product_exact d N (n - 22) V F E ltac:(lia) B) as (Vx & Fx & Sx & Ex).
      rewrite (dle_max _ _ Vx Fx Ex). replace (N * 10 ^ (n - 22) <? 2 ^ 53) with true by lia.
      cbn [Z.leb Z.compare andb Z.opp Pos.compare Pos.compare_cont].
      destruct (e_fastPath_ok (to_double ev (e_mul ev d (literal (n - 22)))) 22) as [r ->]; [lia|]. cbn [bind].
      split; [intros _; right; split; [lia|exact L]|eauto].
    + rewrite (e_product_above d N (n - 22) V F E) by lia. rewrite andb_false_r.
      split; [intros [r X]; discriminate X|]. intros [[X _]|[_ X]]; [lia|].
      exfalso. clear - X L. lia.
  - cbn [bind]. rewrite (dle_max d N V F E).
    destruct ((-22 <=? n) && (n <=? 22) && (N <? 2 ^ 53)) eqn:D.
    + destruct (e_fastPath_ok d n) as [r ->]; [lia|]. cbn [bind].
      split; [intros _; left; lia|eauto].
    + split; [intros [r X]; discriminate X|]. intros [X|[X _]]; lia.
Qed.

(** What is accepted is the exact product rounded to the wide format and then to double. *)
Lemma e_fast_small d n r : dvalid d = true -> is_finite_SF d = true -> n <= 22 -> e_fast ev d n = Ok (Some r) ->
  exists y, r = to_double ev y /\ d_rounded dir P Q y (sign_SF d) (dvalue d * bpow radix10 n).
Proof.
  intros V F Hp E. unfold e_fast in E.
  replace ((22 <? n) && (n <? 22 + 16)) with false in E by lia. cbn [bind] in E.
  destruct ((-22 <=? n) && (n <=? 22) && dle d max_significand) eqn:C; [|discriminate E].
  destruct (e_fastPath_small d n V F) as (y & E' & R); [lia|]. rewrite E' in E. cbn in E.
  injection E as <-. eauto.
Qed.

Lemma e_fast_twice d N n r : dvalid d = true -> is_finite_SF d = true -> dvalue d = IZR N -> 0 <= N -> e_fast ev d n = Ok (Some r) ->
  exists y, r = to_double ev y /\ d_rounded dir P Q y (sign_SF d) (IZR N * bpow radix10 n).
Proof.
  intros V F E HN Ef.
  assert (A : exists r, e_fast ev d n = Ok (Some r)) by eauto.
  apply (e_fast_accepts d N n V F E HN) in A. destruct A as [[A _]|[A L]].
  - rewrite <- E. apply (e_fast_small d n r V F); [lia|exact Ef].
  - assert (B : Z.abs (N * 10 ^ (n - 22)) <= 2 ^ 53).
    { pose proof (Z.pow_pos_nonneg 10 (n - 22)). rewrite Z.abs_eq by nia. lia. }
    destruct (e_product_exact d N (n - 22) V F E ltac:(lia) B) as (Vx & Fx & Sx & Ex).
    unfold e_fast in Ef. replace ((22 <? n) && (n <? 22 + 16)) with true in Ef by lia.
    rewrite pow10_in in Ef by lia. cbn [bind] in Ef.
    destruct ((-22 <=? 22) && (22 <=? 22) && dle (to_double ev (e_mul ev d (literal (n - 22)))) max_significand);
      [|discriminate Ef].
    destruct (e_fastPath_small _ 22 Vx Fx) as (y & E' & R); [lia|]. rewrite E' in Ef. cbn in Ef.
    injection Ef as <-. exists y. split; [reflexivity|].
    rewrite Sx, Ex, mult_IZR, Rmult_assoc, (pow10_bpow (n - 22)), <- bpow_plus in R by lia.
    replace (n - 22 + 22) with n in R by lia. exact R.
Qed.

End Evaluations.

(** ** The directed modes *)

Lemma sign_fits_value d n : is_finite_SF d = true -> sign_fits (sign_SF d) (dvalue d * bpow radix10 n).
Proof.
  intros F. pose proof (bpow_gt_0 radix10 n) as B. unfold sign_fits.
  assert (A : if sign_SF d then (dvalue d <= 0)%R else (0 <= dvalue d)%R).
  { destruct d as [s|s| |s m e]; try discriminate F; [destruct s; cbn; lra|].
    destruct s; cbn [sign_SF SF2R cond_Zopp]; [apply F2R_le_0|apply F2R_ge_0]; cbn; lia. }
  destruct (sign_SF d); nra.
Qed.

Lemma to_double_directed ev y neg x : ev_direction ev <> ToNearest -> sign_fits neg x ->
  d_rounded (ev_direction ev) (ld_prec (ev_format ev)) (ld_emax (ev_format ev)) y neg x ->
  directed (ev_direction ev) 53 1024 (to_double ev y) x /\ sign_SF (to_double ev y) = neg.
Proof.
  intros N S R. pose proof (ev_good ev) as G. pose proof (ev_wide ev) as W. split.
  - apply (d_narrowed _ 53 1024 (ld_prec (ev_format ev)) (ld_emax (ev_format ev))); try lia; auto using double_good.
    destruct (Req_dec x 0) as [->|X]; [|apply (directed_of_round _ _ _ _ neg); auto].
    destruct (d_rounded_exact _ _ _ _ _ _ R) as (V & F & SY & E); [apply generic_format_0|rewrite Rabs_R0; apply bpow_gt_0|].
    destruct y as [s|s| |s m e]; try discriminate F; [apply directed_zero; exact N|].
    exfalso. cbn [SF2R] in E. apply eq_0_F2R in E. destruct s; discriminate E.
  - unfold to_double. rewrite d_convert_sign by exact double_good. apply (rounded_sign _ _ _ _ _ _ R).
Qed.

Lemma fast_directed ev d N n r : ev_direction ev <> ToNearest -> dvalid d = true -> is_finite_SF d = true -> dvalue d = IZR N -> 0 <= N ->
  e_fast ev d n = Ok (Some r) -> directed (ev_direction ev) 53 1024 r (IZR N * bpow radix10 n) /\ sign_SF r = sign_SF d.
Proof.
  intros ND V F E HN A. destruct (e_fast_twice ev d N n r V F E HN A) as (y & -> & R).
  apply to_double_directed; auto. rewrite <- E. apply sign_fits_value. exact F.
Qed.

Lemma fast_directed_small ev d n r : ev_direction ev <> ToNearest -> dvalid d = true -> is_finite_SF d = true -> n <= 22 ->
  e_fast ev d n = Ok (Some r) -> directed (ev_direction ev) 53 1024 r (dvalue d * bpow radix10 n) /\ sign_SF r = sign_SF d.
Proof.
  intros ND V F HN A. destruct (e_fast_small ev d n r V F HN A) as (y & -> & R).
  apply to_double_directed; auto. apply sign_fits_value. exact F.
Qed.

(** ** To nearest in a wider format *)

Lemma fast_nearest_exactly ev d N n r : ev_direction ev = ToNearest -> ev_format ev <> LD64 ->
  dvalid d = true -> is_finite_SF d = true -> dvalue d = IZR N -> 0 <= N -> e_fast ev d n = Ok (Some r) ->
  let x := (IZR N * bpow radix10 n)%R in
  exists y, rounded (ld_prec (ev_format ev)) (ld_emax (ev_format ev)) y (sign_SF d) x /\
    (~ rounded 53 1024 r (sign_SF d) x <->
     is_finite_SF y = true /\ halfway 53 1024 (SF2R radix2 y) /\ (Rabs (SF2R radix2 y) < bpow radix2 1024)%R /\ other_side 53 1024 (SF2R radix2 y) x).
Proof.
  intros D NF V F E HN A x. destruct (e_fast_twice ev d N n r V F E HN A) as (y & -> & R).
  unfold to_double in *. rewrite D in *. apply d_rounded_nearest in R. exists y. split; [exact R|].
  apply (narrowed_exactly (ld_prec (ev_format ev)) (ld_emax (ev_format ev)) 53 1024 (ev_good ev) double_good);
    try (destruct (ev_format ev); cbn; try lia; exfalso; apply NF; reflexivity); [exact R|].
  destruct y as [s|s| |s m e]; try reflexivity. cbn [narrowed]. apply d_rounded_nearest. exact (d_convert_rounded ToNearest 53 1024 double_good (S754_finite s m e) eq_refl).
Qed.

Lemma fast_extended_wrong : exists d N n r, dvalid d = true /\ is_finite_SF d = true /\ dvalue d = IZR N /\ 0 <= N /\
  e_fast (Evaluation ToNearest LD80) d n = Ok (Some r) /\ ~ rounded 53 1024 r false (IZR N * bpow radix10 n).
Proof.
  exists (SpecFloat.binary_normalize 53 1024 10375 0 false), 10375, 22.
  eexists. split; [reflexivity|]. split; [reflexivity|]. split.
  { vm_compute SpecFloat.binary_normalize. unfold SF2R, F2R. cbn. lra. }
  split; [lia|]. split; [vm_compute; reflexivity|].
  intros R. pose proof (round_decimal_rounded 53 1024 false 10375 22 double_good eq_refl) as Q.
  unfold decimal_R in Q. cbn [cond_Zopp Z.opp] in Q.
  pose proof (rounded_unique _ _ _ _ _ _ R Q) as X. vm_compute in X. discriminate X.
Qed.

(** ** The default evaluation *)

Lemma convert_same dir y : dvalid y = true -> d_convert dir 53 1024 y = y.
Proof.
  intros V. destruct (is_finite_SF y) eqn:F; [|destruct y; try discriminate F; reflexivity].
  destruct (sf_format 53 1024 y double_good V F) as [GF B].
  rewrite (d_convert_exact dir 53 1024 y double_good F GF B).
  destruct (convert_exact 53 1024 y double_good F GF B) as (V' & F' & S & R). apply (sf_inj 53 1024); auto.
Qed.

Lemma d_mul_nearest p q a b : d_mul ToNearest p q a b = SFmul p q a b.
Proof. destruct a, b; reflexivity. Qed.
Lemma d_div_nearest p q a b : d_div ToNearest p q a b = SFdiv p q a b.
Proof. destruct a, b; reflexivity. Qed.

Lemma dmul_valid a b : dvalid a = true -> dvalid b = true -> dvalid (dmul a b) = true.
Proof.
  intros Va Vb. destruct (is_finite_SF a) eqn:Fa; [|destruct a, b; try discriminate Fa; reflexivity].
  destruct (is_finite_SF b) eqn:Fb; [|destruct a, b; try discriminate Fb; reflexivity].
  apply (mul_rounded a b Va Vb Fa Fb).
Qed.
Lemma ddiv_valid a b : dvalid a = true -> dvalid b = true -> dvalid (ddiv a b) = true.
Proof.
  intros Va Vb. destruct (is_finite_SF a) eqn:Fa; [|destruct a, b; try discriminate Fa; reflexivity].
  destruct (is_finite_SF b) eqn:Fb; [|destruct a, b; try discriminate Fb; reflexivity].
  destruct b as [s|s| |s m e]; try discriminate Fb; [destruct a; reflexivity|].
  apply (div_rounded_double a (S754_finite s m e) Va Vb Fa Fb). cbn [SF2R]. intros H. apply eq_0_F2R in H. destruct s; discriminate H.
Qed.

Definition plain : evaluation := Evaluation ToNearest LD64.
Lemma plain_mul a b : dvalid a = true -> dvalid b = true -> to_double plain (e_mul plain a b) = dmul a b.
Proof.
  intros Va Vb. unfold to_double, e_mul, widened. cbn [plain ev_direction ev_format ld_prec ld_emax]. rewrite (convert_same _ a), (convert_same _ b) by assumption.
  rewrite d_mul_nearest. apply convert_same. apply dmul_valid; auto.
Qed.
Lemma plain_div a b : dvalid a = true -> dvalid b = true -> to_double plain (e_div plain a b) = ddiv a b.
Proof.
  intros Va Vb. unfold to_double, e_div, widened. cbn [plain ev_direction ev_format ld_prec ld_emax]. rewrite (convert_same _ a), (convert_same _ b) by assumption.
  rewrite d_div_nearest. apply convert_same. apply ddiv_valid; auto.
Qed.
Lemma plain_fastPath d n : dvalid d = true -> e_fastPath plain d n = fastPath d n /\ forall r, fastPath d n = Ok r -> dvalid r = true.
Proof.
  intros V. unfold e_fastPath, fastPath. destruct (Z.ltb_spec n (-308)); [split; [reflexivity|intros r [= <-]; reflexivity]|].
  assert (T : forall k, pow10 k = UB "read outside of POWER10" \/ exists l, pow10 k = Ok l /\ dvalid l = true).
  { intros k. destruct (Z_le_dec 0 k), (Z_le_dec k 308); try (left; apply pow10_out; lia).
    right. exists (literal k). split; [apply pow10_in; lia|]. apply literal_facts. lia. }
  destruct (0 <=? n); [destruct (T n) as [->|(l & -> & Vl)]|destruct (T (- n)) as [->|(l & -> & Vl)]]; cbn [bind];
    try (split; [reflexivity|intros r; discriminate]).
  - rewrite plain_mul by assumption. split; [reflexivity|]. intros r [= <-]. apply dmul_valid; auto.
  - rewrite plain_div by assumption. split; [reflexivity|]. intros r [= <-]. apply ddiv_valid; auto.
Qed.
Lemma plain_same d n : dvalid d = true -> e_fast plain d n = fast d n /\ e_StrtodNormalPrecision plain d n = StrtodNormalPrecision d n.
Proof.
  intros V. split.
  - unfold e_fast, fast. destruct ((22 <? n) && (n <? 22 + 16)) eqn:C.
    + rewrite pow10_in by lia. cbn [bind]. destruct (literal_facts (n - 22)) as (Vl & _); [lia|]. rewrite plain_mul by assumption.
      rewrite (proj1 (plain_fastPath _ 22 (dmul_valid _ _ V Vl))). reflexivity.
    + cbn [bind]. rewrite (proj1 (plain_fastPath d n V)). reflexivity.
  - unfold e_StrtodNormalPrecision, StrtodNormalPrecision. destruct (n <? -308); [|apply plain_fastPath; exact V].
    destruct (plain_fastPath d (-308) V) as [-> W]. destruct (fastPath d (-308)) as [x| | |]; try reflexivity. cbn [bind].
    apply plain_fastPath. apply W. reflexivity.
Qed.

(** Scaling by an entry of the table. *)
Lemma scaling_directed ev d n : ev_direction ev <> ToNearest -> dvalid d = true -> is_finite_SF d = true -> -308 <= n <= 308 ->
  exists r, e_StrtodNormalPrecision ev d n = Ok r /\ sign_SF r = sign_SF d /\
    directed (ev_direction ev) 53 1024 r (if 0 <=? n then dvalue d * nearest 53 1024 (bpow radix10 n) else dvalue d / nearest 53 1024 (bpow radix10 (- n)))%R.
Proof.
  intros N V F B. destruct (e_fastPath_wide ev d n V F B) as (y & E & R).
  unfold e_StrtodNormalPrecision. destruct (Z.ltb_spec n (-308)); [lia|]. eexists. split; [exact E|].
  apply and_comm. apply to_double_directed; auto. unfold table in *.
  assert (S : forall t, (0 < t)%R -> sign_fits (sign_SF d) (dvalue d * t)).
  { intros t T. pose proof (sign_fits_value d 0 F) as A. change (bpow radix10 0) with 1%R in A. rewrite Rmult_1_r in A.
    unfold sign_fits in *. destruct (sign_SF d); nra. }
  assert (T : forall k, 0 <= k -> (0 < nearest 53 1024 (bpow radix10 k))%R).
  { intros k K. apply Rlt_le_trans with 1%R; [lra|]. rewrite <- (nearest_format 53 1024 1) by (lia || exact (small_format 1 ltac:(lia))).
    apply nearest_le'; [lia|]. change 1%R with (bpow radix10 0). apply bpow_le. lia. }
  destruct (Z.leb_spec 0 n); [apply S, T; lia|]. apply S. apply Rinv_0_lt_compat, T. lia.
Qed.
