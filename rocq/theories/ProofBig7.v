(** What BigInteger makes of digit strings beyond its capacity. *)
From Coq Require Import Lia.
From Verif Require Import Machine LibMachine SpecDecimal SpecBig ModelDiyfp ModelBigint ProofBig ProofBig2 ProofBig3 ProofBig4.
Open Scope Z_scope.
Ltac Zify.zify_post_hook ::= idtac.

(** One group: exact, or an overrun; the check for the capacity is never reached. *)
Lemma add_outcome cc b v p : holds b v -> v * 5 ^ 19 < LIMIT -> Forall is_digit p -> (1 <= length p <= 19)%nat ->
  (exists b', add cc b p = Ok b' /\ holds b' (v * 10 ^ Z.of_nat (length p) + numeral_value p) /\
     (v * 10 ^ Z.of_nat (length p) + numeral_value p) * 5 ^ 19 < LIMIT) \/
  (exists w, add cc b p = UB w /\ Wp 415 <= v * 10 ^ Z.of_nat (length p) + numeral_value p).
Proof.
  intros H V F L. pose proof (holds_bounds b v H) as VB. pose proof (numeral_value_bounds p F) as NB.
  set (k := Z.of_nat (length p)) in *. assert (K : 1 <= k <= 19) by (unfold k; clear - L; lia).
  assert (P5 : 5 ^ k <= 5 ^ 19) by (apply Z.pow_le_mono_r; [reflexivity|apply K]).
  assert (P2 : 2 ^ k <= 2 ^ 19) by (apply Z.pow_le_mono_r; [reflexivity|apply K]).
  assert (P0 : 0 < 5 ^ k) by (apply Z.pow_pos_nonneg; [reflexivity|clear - K; lia]).
  assert (Q0 : 0 < 2 ^ k) by (apply Z.pow_pos_nonneg; [reflexivity|clear - K; lia]).
  assert (E10 : 10 ^ k = 5 ^ k * 2 ^ k) by (change 10 with (5 * 2); apply Z.pow_mul_l).
  assert (N19 : 10 ^ k <= 10 ^ 19) by (apply Z.pow_le_mono_r; [reflexivity|apply K]).
  destruct (Z.lt_ge_cases (v * 5 ^ k) (Wp 415)) as [G|G].
  - left. destruct (add_ok cc b v p H F L G) as (b' & E & H'). exists b'. split; [exact E|]. split; [exact H'|].
    rewrite LIMIT_415. rewrite E10. assert (U : v * (5 ^ k * 2 ^ k) <= (Wp 415 - 1) * 2 ^ 19).
    { rewrite Z.mul_assoc. apply Z.mul_le_mono_nonneg; [apply Z.mul_nonneg_nonneg; [apply VB|clear - P0; lia]|clear - G; lia|clear - Q0; lia|exact P2]. }
    assert (BIG : 2 ^ 128 <= Wp 415) by (rewrite Wp_pow; apply Z.pow_le_mono_r; [reflexivity|vm_compute; discriminate]).
    apply Z.le_lt_trans with (((Wp 415 - 1) * 2 ^ 19 + 10 ^ 19) * 5 ^ 19).
    + apply Z.mul_le_mono_nonneg_r; [discriminate|]. apply Z.add_le_mono; [exact U|]. clear - NB N19. lia.
    + unfold W. clear - BIG. lia.
  - right. assert (V0 : v <> 0). { intros ->. rewrite Z.mul_0_l in G. pose proof (Wp_pos 415) as P. clear - G P. lia. }
    destruct (add_overrun cc b v p H V0 F L) as (w & E).
    + split; [exact G|]. eapply Z.le_lt_trans; [|exact V]. apply Z.mul_le_mono_nonneg_l; [apply VB|exact P5].
    + exists w. split; [exact E|]. rewrite E10. eapply Z.le_trans; [exact G|]. rewrite Z.mul_assoc.
      pose proof (Z.le_mul_diag_r (v * 5 ^ k) (2 ^ k)) as X.
      assert (Y : 0 < v * 5 ^ k) by (pose proof (Wp_pos 415) as P; clear - G P; lia).
      apply X in Y. destruct Y as [Y _].
      assert (Z1 : v * 5 ^ k <= v * 5 ^ k * 2 ^ k).
      { rewrite <- (Z.mul_1_r (v * 5 ^ k)) at 1. apply Z.mul_le_mono_nonneg_l; [|clear - Q0; lia].
        apply Z.mul_nonneg_nonneg; [apply VB|clear - P0; lia]. }
      clear - Z1 NB. lia.
Qed.

Lemma decimals_outcome cc : forall fuel b v s, holds b v -> v * 5 ^ 19 < LIMIT -> Forall is_digit s -> (length s <= fuel)%nat ->
  (exists b', decimals_loop cc fuel b s = Ok b' /\ holds b' (v * 10 ^ Z.of_nat (length s) + numeral_value s)) \/
  (exists w, decimals_loop cc fuel b s = UB w /\ Wp 415 <= v * 10 ^ Z.of_nat (length s) + numeral_value s).
Proof.
  induction fuel as [|fuel IH]; intros b v s H V F L.
  - left. destruct s as [|c s]; [|cbn in L; lia]. exists b. split; [reflexivity|]. change (numeral_value []) with 0. cbn [length]. change (10 ^ Z.of_nat 0) with 1.
    replace (v * 1 + 0) with v by (clear; lia). exact H.
  - cbn [decimals_loop]. unfold DIGITS_ITERATION. destruct (Z.leb_spec 19 (Z.of_nat (length s))) as [G|G].
    + change (Z.to_nat 19) with 19%nat. set (p := firstn 19 s) in *. set (t := skipn 19 s) in *. assert (ES : s = p ++ t) by (symmetry; apply firstn_skipn).
      assert (Lp : length p = 19%nat) by (unfold p; rewrite firstn_length; clear - G; lia).
      assert (Lt : length s = (19 + length t)%nat) by (rewrite ES, app_length; clear - Lp; lia).
      rewrite ES in F. apply Forall_app in F. destruct F as [Fp Ft].
      assert (EV : v * 10 ^ Z.of_nat (length s) + numeral_value s = (v * 10 ^ Z.of_nat (length p) + numeral_value p) * 10 ^ Z.of_nat (length t) + numeral_value t).
      { rewrite ES, numeral_value_app, app_length, Nat2Z.inj_add, Z.pow_add_r by (clear; lia). ring. }
      rewrite EV. destruct (add_outcome cc b v p H V Fp) as [(b1 & E1 & H1 & V1)|(w & E1 & B1)]; [clear - Lp; lia| |].
      * rewrite E1. cbn [bind]. apply IH; [exact H1|exact V1|exact Ft|clear - L Lt; lia].
      * right. exists w. rewrite E1. split; [reflexivity|]. pose proof (numeral_value_bounds t Ft) as Bt.
        set (u := v * 10 ^ Z.of_nat (length p) + numeral_value p) in *.
        assert (Pt : 0 < 10 ^ Z.of_nat (length t)) by (apply Z.pow_pos_nonneg; [reflexivity|clear; lia]).
        pose proof (Wp_pos 415) as P. clear - B1 Bt Pt P. nia.
    + destruct (Z.ltb_spec 0 (Z.of_nat (length s))) as [Q|Q].
      * destruct (add_outcome cc b v s H V F) as [(b1 & E1 & H1 & _)|(w & E1 & B1)]; [clear - G Q; lia| |].
        -- left. exists b1. split; assumption.
        -- right. exists w. split; assumption.
      * left. destruct s as [|c s]; [|cbn [length] in Q; lia]. exists b. split; [reflexivity|]. change (numeral_value []) with 0. cbn [length]. change (10 ^ Z.of_nat 0) with 1.
        replace (v * 1 + 0) with v by (clear; lia). exact H.
Qed.

Lemma any_digits cc s : Forall is_digit s ->
  (exists b, BigInteger_decimals cc s = Ok b /\ holds b (numeral_value s)) \/
  (exists w, BigInteger_decimals cc s = UB w /\ 2 ^ (64 * 415) <= numeral_value s).
Proof.
  intros F. destruct (decimals_start cc s) as (b & H & ->).
  destruct (decimals_outcome cc (length s) b 0 s H) as [R|R]; [rewrite LIMIT_415; reflexivity|exact F|apply le_n| |].
  - left. rewrite Z.mul_0_l, Z.add_0_l in R. exact R.
  - right. rewrite Z.mul_0_l, Z.add_0_l in R. rewrite Wp_pow in R. exact R.
Qed.

Lemma too_large cc s : Forall is_digit s -> LIMIT <= numeral_value s -> exists w, BigInteger_decimals cc s = UB w.
Proof.
  intros F G. destruct (any_digits cc s F) as [(b & _ & H)|(w & E & _)]; [|exists w; exact E].
  pose proof (holds_bounds b _ H) as B. exfalso. clear - B G. lia.
Qed.

Lemma ten_7999_small : 10 ^ 7999 * 5 ^ 19 <= Wp 416.
Proof.
  rewrite Wp_pow. apply Z.le_trans with (2 ^ 26618); [|apply Z.pow_le_mono_r; [reflexivity|vm_compute; discriminate]].
  apply (powers_below 10 2 (5 ^ 19) 59 196 135 34); vm_compute; discriminate || reflexivity.
Qed.

Lemma product_between lo hi v q M A B : 0 < lo -> lo <= v -> v < hi -> 5 <= q -> q <= M -> A <= lo * 5 -> hi * M <= B ->
  v <> 0 /\ A <= v * q < B.
Proof. intros. split; [lia|]. split; [|]; nia. Qed.

Lemma lead_value c s : is_digit c -> c <> "0"%char -> Forall is_digit s -> 10 ^ Z.of_nat (length s) <= numeral_value (c :: s).
Proof.
  intros D N F. change (c :: s) with ([c] ++ s). rewrite numeral_value_app. pose proof (numeral_value_bounds s F) as B.
  assert (1 <= numeral_value [c]).
  { unfold numeral_value. cbn [fold_left]. unfold is_digit in D. destruct (Z.eq_dec (code c) 48) as [E|E].
    - exfalso. apply N. rewrite <- (chr_code c). rewrite E. reflexivity.
    - cbn. unfold digit_value. lia. }
  nia.
Qed.

Lemma from_8000 cc c s : Forall is_digit (c :: s) -> c <> "0"%char -> 8000 <= Z.of_nat (length (c :: s)) ->
  exists w, BigInteger_decimals cc (c :: s) = UB w.
Proof.
  intros F N L. assert (K : exists k, Z.of_nat k = 421) by (exists (Z.to_nat 421); reflexivity). destruct K as (k & K).
  set (n := (19 * k - 1)%nat). set (a := firstn n s). set (t := skipn n s). assert (Lc : Z.of_nat (length (c :: s)) = 1 + Z.of_nat (length s)) by (cbn [length]; clear; lia).
  assert (Ln : Z.of_nat n = 7998) by (unfold n; clear - K; lia).
  assert (ES : s = a ++ t) by (symmetry; apply firstn_skipn).
  assert (La : length a = n) by (unfold a; rewrite firstn_length; clear - L Lc Ln; lia).
  assert (Lt : (length s = n + length t)%nat) by (rewrite ES, app_length; clear - La; lia).
  inversion F as [|? ? Dc Fs]; subst x l. rewrite ES in Fs. apply Forall_app in Fs. destruct Fs as [Fa Ft].
  destruct (decimals_start cc (c :: s)) as (b & H & ->).
  assert (LC : length (c :: a) = (19 * k)%nat) by (cbn [length]; rewrite La; unfold n; clear - K; lia).
  replace (length (c :: s)) with (k + (length (c :: s) - k))%nat by (clear - L K; lia).
  assert (FU : exists m, (length (c :: s) - k = S m)%nat) by (exists (length (c :: s) - k - 1)%nat; clear - L K; lia). destruct FU as (m & ->).
  replace (c :: s) with ((c :: a) ++ t) by (rewrite ES; reflexivity).
  destruct (decimals_prefix cc t k (S m) b 0 (c :: a) 0 H) as (b' & -> & H'); [constructor; assumption|exact LC|reflexivity|clear; lia|clear - K; lia|].
  rewrite Z.mul_0_l, Z.add_0_l in H'. set (v := numeral_value (c :: a)) in *.
  assert (VL : 10 ^ 7998 <= v). { rewrite <- Ln, <- La. apply lead_value; assumption. }
  assert (VH : v < 10 ^ 7999).
  { unfold v. replace 7999 with (Z.of_nat (length (c :: a))) by (rewrite LC; clear - K; lia). apply numeral_value_bounds. constructor; assumption. }
  assert (OV : forall p, Forall is_digit p -> (1 <= length p <= 19)%nat -> exists w, add cc b' p = UB w).
  { intros p Fp Lp.
    assert (P5 : 5 ^ 1 <= 5 ^ Z.of_nat (length p)) by (apply Z.pow_le_mono_r; [reflexivity|clear - Lp; lia]).
    assert (P5' : 5 ^ Z.of_nat (length p) <= 5 ^ 19) by (apply Z.pow_le_mono_r; [reflexivity|clear - Lp; lia]).
    destruct (product_between (10 ^ 7998) (10 ^ 7999) v (5 ^ Z.of_nat (length p)) (5 ^ 19) (Wp 415) LIMIT) as [V0 VB];
      [apply Z.pow_pos_nonneg; [reflexivity|discriminate]|exact VL|exact VH|exact P5|exact P5'|exact (proj1 ten_7998)|rewrite LIMIT_Wp; exact ten_7999_small|].
    exact (add_overrun cc b' v p H' V0 Fp Lp VB). }
  cbn [decimals_loop]. unfold DIGITS_ITERATION. destruct (Z.leb_spec 19 (Z.of_nat (length t))) as [G|G].
  - change (Z.to_nat 19) with 19%nat. destruct (OV (firstn 19 t)) as (w & ->).
    + rewrite <- (firstn_skipn 19 t) in Ft. apply Forall_app in Ft. apply Ft.
    + rewrite firstn_length. clear - G. lia.
    + exists w. reflexivity.
  - destruct (Z.ltb_spec 0 (Z.of_nat (length t))) as [Q|Q]; [|exfalso; clear - Q L Lc Lt Ln; lia].
    apply OV; [exact Ft|clear - G Q; lia].
Qed.

(** Exactly which digit strings overrun: those whose last group finds the product by a power of
    five too long. *)
Lemma add_overrun_iff cc b v p : holds b v -> v * 5 ^ 19 < LIMIT -> Forall is_digit p -> (1 <= length p <= 19)%nat ->
  (v * 5 ^ Z.of_nat (length p) < Wp 415 -> exists b', add cc b p = Ok b' /\ holds b' (v * 10 ^ Z.of_nat (length p) + numeral_value p) /\
     (v * 10 ^ Z.of_nat (length p) + numeral_value p) * 5 ^ 19 < LIMIT) /\
  (Wp 415 <= v * 5 ^ Z.of_nat (length p) -> exists w, add cc b p = UB w).
Proof.
  intros H V F L. pose proof (holds_bounds b v H) as VB. split; intros G.
  - destruct (add_ok cc b v p H F L G) as (b' & E & H').
    destruct (add_outcome cc b v p H V F L) as [(b2 & E2 & X & Y)|(w & E2 & _)]; rewrite E in E2; [|discriminate E2].
    injection E2 as <-. eauto.
  - assert (V0 : v <> 0). { intros ->. rewrite Z.mul_0_l in G. pose proof (Wp_pos 415) as P. clear - G P. lia. }
    apply (add_overrun cc b v p H V0 F L). split; [exact G|]. eapply Z.le_lt_trans; [|exact V].
    apply Z.mul_le_mono_nonneg_l; [apply VB|]. apply Z.pow_le_mono_r; [reflexivity|clear - L; lia].
Qed.

Lemma decimals_loop_nil cc fuel b : decimals_loop cc fuel b [] = Ok b.
Proof. destruct fuel; reflexivity. Qed.

Lemma overrun_loop cc p : Forall is_digit p -> (1 <= length p <= 19)%nat ->
  forall j fuel b v a, holds b v -> v * 5 ^ 19 < LIMIT -> Forall is_digit a -> length a = (19 * j)%nat -> (length (a ++ p) <= fuel)%nat ->
  ((exists w, decimals_loop cc fuel b (a ++ p) = UB w) <->
   Wp 415 <= (v * 10 ^ Z.of_nat (length a) + numeral_value a) * 5 ^ Z.of_nat (length p)).
Proof.
  intros Fp Lp. induction j as [|j IH]; intros fuel b v a H V F L FU.
  - destruct a as [|c a]; [|cbn [length] in L; lia]. cbn [app length]. change (10 ^ Z.of_nat 0) with 1. change (numeral_value []) with 0.
    replace (v * 1 + 0) with v by (clear; lia).
    assert (X : exists fuel', decimals_loop cc fuel b p = (let* x := add cc b p in decimals_loop cc fuel' x [])).
    { destruct fuel as [|fuel]; [exfalso; cbn [app] in FU; clear - FU Lp; lia|]. cbn [decimals_loop]. unfold DIGITS_ITERATION.
      destruct (Z.leb_spec 19 (Z.of_nat (length p))) as [G|G].
      - exists fuel. change (Z.to_nat 19) with 19%nat. assert (E : length p = 19%nat) by (clear - G Lp; lia).
        rewrite (firstn_all2 p), (skipn_all2 p) by (clear - E; lia). reflexivity.
      - exists 0%nat. destruct (Z.ltb_spec 0 (Z.of_nat (length p))) as [Q|Q]; [|exfalso; clear - Q Lp; lia].
        destruct (add cc b p); reflexivity. }
    destruct X as (fuel' & ->). destruct (add_overrun_iff cc b v p H V Fp Lp) as [A1 A2].
    destruct (Z.lt_ge_cases (v * 5 ^ Z.of_nat (length p)) (Wp 415)) as [G|G].
    + destruct (A1 G) as (b' & -> & _). cbn [bind]. rewrite decimals_loop_nil. split; [intros [w X]; discriminate X|intros X; exfalso; clear - X G; lia].
    + destruct (A2 G) as (w & ->). cbn [bind]. split; [intros _; exact G|intros _; exists w; reflexivity].
  - set (q := firstn 19 a). set (t := skipn 19 a). assert (ES : a = q ++ t) by (symmetry; apply firstn_skipn).
    assert (Lq : length q = 19%nat) by (unfold q; rewrite firstn_length; clear - L; lia).
    assert (Lt : length t = (19 * j)%nat) by (unfold t; rewrite skipn_length; clear - L; lia).
    rewrite ES in F. apply Forall_app in F. destruct F as [Fq Ft].
    destruct fuel as [|fuel]; [exfalso; rewrite app_length in FU; clear - FU L; lia|]. cbn [decimals_loop]. unfold DIGITS_ITERATION.
    destruct (Z.leb_spec 19 (Z.of_nat (length (a ++ p)))) as [G|G]; [|exfalso; rewrite app_length in G; clear - G L; lia].
    change (Z.to_nat 19) with 19%nat.
    assert (E1 : firstn 19 (a ++ p) = q).
    { rewrite ES, <- app_assoc, firstn_app, Lq. cbn [Nat.sub]. rewrite firstn_O, app_nil_r. apply firstn_all2. clear - Lq; lia. }
    assert (E2 : skipn 19 (a ++ p) = t ++ p).
    { rewrite ES, <- app_assoc, skipn_app, Lq, (skipn_all2 q) by (clear - Lq; lia). reflexivity. }
    rewrite E1, E2.
    assert (EV : v * 10 ^ Z.of_nat (length a) + numeral_value a = (v * 10 ^ Z.of_nat (length q) + numeral_value q) * 10 ^ Z.of_nat (length t) + numeral_value t).
    { rewrite ES, numeral_value_app, app_length, Nat2Z.inj_add, Z.pow_add_r by (clear; lia). ring. }
    rewrite EV. destruct (add_overrun_iff cc b v q H V Fq) as [A1 A2]; [clear - Lq; lia|].
    destruct (Z.lt_ge_cases (v * 5 ^ Z.of_nat (length q)) (Wp 415)) as [G1|G1].
    + destruct (A1 G1) as (b' & -> & H' & V'). cbn [bind]. apply IH; [exact H'|exact V'|exact Ft|exact Lt|].
      rewrite app_length in *. clear - FU L Lt. lia.
    + destruct (A2 G1) as (w & ->). cbn [bind]. split; [intros _|intros _; exists w; reflexivity].
      pose proof (numeral_value_bounds q Fq) as Bq. pose proof (numeral_value_bounds t Ft) as Bt. pose proof (holds_bounds b v H) as VB.
      assert (P1 : 1 <= 10 ^ Z.of_nat (length t)) by (apply (Z.pow_le_mono_r 10 0); [reflexivity|clear; lia]).
      assert (P2 : 1 <= 5 ^ Z.of_nat (length p)) by (apply (Z.pow_le_mono_r 5 0); [reflexivity|clear; lia]).
      assert (P3 : 5 ^ Z.of_nat (length q) <= 10 ^ Z.of_nat (length q)) by (apply Z.pow_le_mono_l; split; [discriminate|discriminate]).
      pose proof (Wp_pos 415) as WP. clear - G1 Bq Bt P1 P2 P3 WP VB.
      apply Z.le_trans with (1 := G1). apply Z.le_trans with (v * 10 ^ Z.of_nat (length q)); [apply Z.mul_le_mono_nonneg_l; [apply VB|exact P3]|].
      set (x := v * 10 ^ Z.of_nat (length q)) in *. assert (0 <= x) by (unfold x; apply Z.mul_nonneg_nonneg; [apply VB|apply Z.pow_nonneg; discriminate]). clearbody x. clear G1 VB P3.
      set (y := 10 ^ Z.of_nat (length t)) in *. set (z := 5 ^ Z.of_nat (length p)) in *. clearbody y z.
      apply Z.le_trans with ((x + numeral_value q) * y + numeral_value t); nia.
Qed.

Lemma overrun_iff cc a p j : Forall is_digit (a ++ p) -> length a = (19 * j)%nat -> (1 <= length p <= 19)%nat ->
  ((exists w, BigInteger_decimals cc (a ++ p) = UB w) <-> 2 ^ (64 * 415) <= numeral_value a * 5 ^ Z.of_nat (length p)).
Proof.
  intros F L Lp. apply Forall_app in F. destruct F as [Fa Fp]. destruct (decimals_start cc (a ++ p)) as (b & H & ->).
  rewrite (overrun_loop cc p Fp Lp j (length (a ++ p)) b 0 a H); [|rewrite LIMIT_415; reflexivity|exact Fa|exact L|apply le_n].
  rewrite Z.mul_0_l, Z.add_0_l, Wp_pow. reflexivity.
Qed.

(** Whole groups of digits and then a group with something else in it. *)
Lemma stop_loop cc a c t : Forall is_digit a -> ~ is_digit c -> (length a < 19)%nat ->
  forall j f1 f2 b v g, holds b v -> v * 5 ^ 19 < LIMIT -> Forall is_digit g -> length g = (19 * j)%nat ->
  (length g <= f1)%nat -> (length g < f2)%nat ->
  (exists w, decimals_loop cc f1 b g = UB w /\ decimals_loop cc f2 b (g ++ a ++ c :: t) = UB w) \/
  (exists b' w, decimals_loop cc f1 b g = Ok b' /\ decimals_loop cc f2 b (g ++ a ++ c :: t) = Throw w).
Proof.
  intros Fa N La. induction j as [|j IH]; intros f1 f2 b v g H V F L L1 L2.
  - right. destruct g as [|x g]; [|cbn [length] in L; lia]. destruct f2 as [|f2]; [exfalso; clear - L2; lia|].
    destruct (group_bad cc f2 b a c t Fa N La) as [w E]. exists b, w. split; [apply decimals_loop_nil|exact E].
  - set (q := firstn 19 g). set (s := skipn 19 g). assert (ES : g = q ++ s) by (symmetry; apply firstn_skipn).
    assert (Lq : length q = 19%nat) by (unfold q; rewrite firstn_length; clear - L; lia).
    assert (Ls : length s = (19 * j)%nat) by (unfold s; rewrite skipn_length; clear - L; lia).
    set (r := a ++ c :: t) in *.
    destruct f1 as [|f1]; [exfalso; clear - L L1; lia|]. destruct f2 as [|f2]; [exfalso; clear - L2; lia|].
    cbn [decimals_loop]. unfold DIGITS_ITERATION.
    destruct (Z.leb_spec 19 (Z.of_nat (length g))) as [G|G]; [|exfalso; clear - G L; lia].
    destruct (Z.leb_spec 19 (Z.of_nat (length (g ++ r)))) as [G'|G']; [|exfalso; rewrite app_length in G'; clear - G' L; lia].
    change (Z.to_nat 19) with 19%nat. fold q s.
    assert (E1 : firstn 19 (g ++ r) = q).
    { rewrite ES, <- app_assoc, firstn_app, Lq. cbn [Nat.sub]. rewrite firstn_O, app_nil_r. apply firstn_all2. clear - Lq; lia. }
    assert (E2 : skipn 19 (g ++ r) = s ++ r).
    { rewrite ES, <- app_assoc, skipn_app, Lq, (skipn_all2 q) by (clear - Lq; lia). reflexivity. }
    rewrite E1, E2. rewrite ES in F. apply Forall_app in F. destruct F as [Fq Fs].
    destruct (add_outcome cc b v q H V Fq) as [(b' & -> & H' & V')|(w & -> & _)]; [clear - Lq; lia| |].
    + cbn [bind]. apply (IH f1 f2 b' _ s H' V' Fs Ls); [clear - L L1 Ls; lia|clear - L L2 Ls; lia].
    + left. exists w. split; reflexivity.
Qed.

(** Any text with something other than digits in it. *)
Lemma stopped_text cc g a c t j : Forall is_digit (g ++ a) -> ~ is_digit c -> length g = (19 * j)%nat -> (length a < 19)%nat ->
  (2 ^ (64 * 415) <= numeral_value g / 10 ^ 19 * 5 ^ 19 -> exists w, BigInteger_decimals cc (g ++ a ++ c :: t) = UB w) /\
  (numeral_value g / 10 ^ 19 * 5 ^ 19 < 2 ^ (64 * 415) -> exists w, BigInteger_decimals cc (g ++ a ++ c :: t) = Throw w).
Proof.
  intros F N L La. apply Forall_app in F. destruct F as [Fg Fa].
  assert (K : (exists w, BigInteger_decimals cc g = UB w) <-> 2 ^ (64 * 415) <= numeral_value g / 10 ^ 19 * 5 ^ 19).
  { destruct j as [|j].
    - destruct g as [|x g]; [|exfalso; clear - L; cbn [length] in L; lia]. split; [intros [w X]; discriminate X|]. intros X. exfalso.
      change (numeral_value [] / 10 ^ 19 * 5 ^ 19) with 0 in X. assert (P : 0 < 2 ^ (64 * 415)) by (apply Z.pow_pos_nonneg; [reflexivity|discriminate]).
      exact (Zlt_not_le _ _ P X).
    - set (h := firstn (19 * j) g). set (q := skipn (19 * j) g). assert (ES : g = h ++ q) by (symmetry; apply firstn_skipn).
      assert (Lh : length h = (19 * j)%nat) by (unfold h; rewrite firstn_length; clear - L; lia).
      assert (Lq : length q = 19%nat) by (unfold q; rewrite skipn_length; clear - L; lia).
      assert (Fq : Forall is_digit q) by (rewrite ES in Fg; apply Forall_app in Fg; apply Fg).
      rewrite ES in Fg |- *. rewrite (overrun_iff cc h q j Fg Lh) by (clear - Lq; lia). rewrite numeral_value_app, Lq.
      pose proof (numeral_value_bounds q Fq) as B. rewrite Lq in B. change (Z.of_nat 19) with 19 in *.
      rewrite Z.div_add_l by discriminate. rewrite (Z.div_small (numeral_value q)) by exact B. rewrite Z.add_0_r. reflexivity. }
  rewrite <- Z.nle_gt, <- K. clear K.
  unfold BigInteger_decimals. destruct (BigInteger_word_ok 0 word_0) as (b & -> & H). cbn [bind].
  assert (V : 0 * 5 ^ 19 < LIMIT) by (rewrite LIMIT_415; reflexivity).
  destruct (stop_loop cc a c t Fa N La j (length g) (length (g ++ a ++ c :: t)) b 0 g H V Fg L (le_n _)) as [(w & E1 & E2)|(b' & w & E1 & E2)].
  { rewrite !app_length. cbn [length]. clear. lia. }
  - split; [intros _; exists w; exact E2|]. intros X. exfalso. apply X. exists w. exact E1.
  - split; [|intros _; exists w; exact E2]. intros [w' X]. rewrite E1 in X. discriminate X.
Qed.
