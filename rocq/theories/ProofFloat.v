(** API-level results for floating point formatting. *)
From Coq Require Import Reals Lra Psatz.
From Flocq Require Import Core.
From Flocq Require IEEE754.Binary IEEE754.Bits.
From Verif Require Import Machine LibMachine SpecApi SpecDecimal SpecNumber SpecIeee ModelInt ModelText ModelIeee ModelDiyfp ModelDtoa
  ModelFloat ModelLexi ProofDiyfp ProofCached ProofDigits ProofGrisu ProofLayout ProofIeee ProofDtoa ProofNumber
  ProofRound ProofStrict ProofUnique ProofShort ProofApi.
Open Scope Z_scope.
Ltac Zify.zify_post_hook ::= idtac.

Lemma bind_Ok {A} (x : outcome A) : (let* a := x in Ok a) = x.
Proof. destruct x; reflexivity. Qed.

Lemma lexi_double e u : lexi e (VDouble u) = let* o := FormatFloat_double (e_float e) u in FormatFloat_string o.
Proof. cbn. destruct (FormatFloat_double _ _); reflexivity. Qed.
Lemma lexi_float e u : lexi e (VFloat u) = let* o := FormatFloat_float (e_float e) u in FormatFloat_string o.
Proof. cbn. destruct (FormatFloat_float _ _); reflexivity. Qed.
Lemma lexi_long_double e x :
  lexi e (VLongDouble x) = let* o := FormatFloat_long_double (e_float e) x in FormatFloat_string o.
Proof. cbn. destruct (FormatFloat_long_double _ _); reflexivity. Qed.

(** ** Zero, and the other finite doubles *)

Lemma nonzero_field u : bits64 u -> double_finite u -> double_value u <> 0%R <-> u mod 2 ^ 63 <> 0.
Proof.
  intros H F. rewrite double_value_eq by assumption. destruct (dbl_mod u H) as [Ef Ee].
  split; intros N Z0; apply N.
  - pose proof (proj2 (dbl_f_nonzero u ltac:(unfold bits64 in H; lia)) Z0) as X.
    unfold dbl_R. rewrite X. destruct (sign_field u); lra.
  - apply (dbl_f_nonzero u ltac:(unfold bits64 in H; lia)).
    assert (X : dbl_R u = 0%R) by (destruct (sign_field u); lra). unfold dbl_R in X.
    apply Rmult_integral in X as [X|X]; [apply eq_IZR in X; exact X|].
    pose proof (bpow_gt_0 radix2 (dbl_e u)). lra.
Qed.

Lemma finite_not_nan u : bits64 u -> double_finite u -> (exp_field u =? 2047) && negb (frac_field u =? 0) = false.
Proof. intros H F. apply double_finite_iff in F; [|exact H]. rewrite (proj2 (Z.eqb_neq _ _) F). reflexivity. Qed.

Lemma double_finite_bits env u : bits64 u -> double_finite u -> FormatFloat_double env u = format_bits env u.
Proof. intros H F. rewrite double_bits, finite_not_nan by assumption. reflexivity. Qed.

(** The text of a finite non-zero double, for every environment; [tc] is the toolchain with
    some memory after the table. *)
Lemma finite_format_bits env u : bits64 u -> double_finite u -> double_value u <> 0%R ->
  exists ds K F E k kap,
    pure_grisu (fe_tc (defined env)) (u mod 2 ^ 63) = Ok (ds, K) /\
    grisu_ok (u mod 2 ^ 63) ds K F E k kap /\
    getCachedPower EvalDouble (norm_e (u mod 2 ^ 63)) = Ok (MkDiyFp F E, k) /\
    (exists o, format_bits (defined env) u = Ok o /\ FormatFloat_holds o (sign_text u ++ layout ds K)) /\
    (format_bits env u = format_bits (defined env) u \/
     format_bits env u = overrun /\ tc_policy (fe_tc env) = Strict /\ kap < -9) /\
    (tc_policy (fe_tc env) = Strict -> kap < -9 -> format_bits env u = overrun).
Proof.
  intros H HF N. apply nonzero_field in N; [|assumption..]. apply double_finite_iff in HF; [|exact H].
  assert (FP : finite_pos (u mod 2 ^ 63)) by (apply abs_finite; assumption).
  pose proof (proj2 (isFinite_iff u H) HF) as IF.
  destruct (grisu2_ok _ _ (defined_lenient env) FP) as (ds & K & F & E & k & kap & P & G & GC & _).
  exists ds, K, F, E, k, kap. split; [exact P|]. split; [exact G|]. split; [exact GC|]. split.
  - destruct (dtoa_ok _ u (defined_lenient env) H HF) as (text & b' & T & D & FI).
    unfold pure_text in T. rewrite (proj2 (Z.eqb_neq _ _) N), P in T. cbn [bind] in T. apply Ok_inj in T. subst text.
    unfold format_bits. rewrite IF. cbn [negb]. rewrite D. cbn [bind cbuf cpos]. eexists. split; [reflexivity|].
    apply float_holds_intro. exact FI.
  - unfold defined in *. destruct (tc_policy (fe_tc env)) as [|o] eqn:S.
    2:{ split; [left; reflexivity|discriminate]. }
    destruct (format_bits_strict env (fun _ => 0) u S H IF N)
      as (ds2 & K2 & F2 & E2 & k2 & kap2 & P2 & G2 & GC2 & X).
    cbn [fe_tc float_policy] in P. rewrite P in P2. apply Ok_inj in P2. injection P2 as <- <-.
    rewrite GC in GC2. apply Ok_inj in GC2. injection GC2 as <- <- <-.
    pose proof (go_K _ _ _ _ _ _ _ G) as EK. pose proof (go_K _ _ _ _ _ _ _ G2) as EK2.
    assert (kap2 = kap) by lia. subst kap2.
    rewrite X. split.
    + destruct (Z.leb_spec (-9) kap); [left; reflexivity|right; auto].
    + intros _ L. rewrite (proj2 (Z.leb_gt _ _) L). reflexivity.
Qed.

Lemma FormatFloat_holds_string o s1 s2 : FormatFloat_holds o s1 -> FormatFloat_string o = Ok s2 -> s1 = s2.
Proof. intros (A & _) B. rewrite A in B. apply Ok_inj in B. exact B. Qed.

Lemma finite_text e u s : bits64 u -> double_finite u -> double_value u <> 0%R -> lexi e (VDouble u) = Ok s ->
  exists ds K F E k kap,
    pure_grisu (fe_tc (defined (e_float e))) (u mod 2 ^ 63) = Ok (ds, K) /\
    grisu_ok (u mod 2 ^ 63) ds K F E k kap /\ s = sign_text u ++ layout ds K.
Proof.
  intros H F N L. rewrite lexi_double, double_finite_bits in L by assumption.
  destruct (finite_format_bits (e_float e) u H F N) as (ds & K & F0 & E & k & kap & P & G & GC & (o & D & Ho) & [X|(X & _)] & _).
  - exists ds, K, F0, E, k, kap. split; [exact P|]. split; [exact G|].
    rewrite X, D in L. cbn [bind] in L. symmetry. eapply FormatFloat_holds_string; eassumption.
  - rewrite X in L. discriminate L.
Qed.

Lemma finite_defined e u : bits64 u -> double_finite u -> double_value u <> 0%R -> lenient (fe_tc (e_float e)) ->
  exists s, lexi e (VDouble u) = Ok s.
Proof.
  intros H F N Le. rewrite lexi_double, double_finite_bits by assumption.
  destruct (finite_format_bits (e_float e) u H F N) as (ds & K & F0 & E & k & kap & P & G & GC & (o & D & Ho) & _).
  rewrite defined_eq in D by exact Le. rewrite D. cbn [bind]. eexists. apply Ho.
Qed.

(** ** Reading the text *)

Definition neg_if (b : bool) (x : R) : R := if b then (- x)%R else x.

Lemma n_value_neg_if n : n_value n = neg_if (n_negative n) (n_magnitude n).
Proof. reflexivity. Qed.
Lemma double_value_neg_if u : bits64 u -> double_finite u -> double_value u = neg_if (sign_field u) (dbl_R u).
Proof. intros. rewrite double_value_eq by assumption. reflexivity. Qed.

Lemma layout_negative neg ds K : n_negative (layout_number neg ds K) = neg.
Proof. unfold layout_number. destruct ds as [|d [|d' r]]; repeat destruct (_ && _); reflexivity. Qed.

(** Everything the properties need about the number printed. *)
Lemma finite_number e u s : bits64 u -> double_finite u -> double_value u <> 0%R -> lexi e (VDouble u) = Ok s ->
  exists ds K F E k kap, let v := u mod 2 ^ 63 in let n := layout_number (sign_field u) ds K in
    finite_pos v /\ grisu_ok v ds K F E k kap /\ good_digits ds /\
    -1000 < Z.of_nat (length ds) + K - 1 < 1000 /\
    s = sign_text u ++ layout ds K /\ json_number s n /\
    n_magnitude n = digits_R ds K /\ n_value n = neg_if (sign_field u) (digits_R ds K) /\
    (lower_R v < digits_R ds K < upper_R v)%R /\
    double_value u = neg_if (sign_field u) (dbl_R v).
Proof.
  intros H F N L. destruct (finite_text e u s H F N L) as (ds & K & F0 & E & k & kap & P & G & ->).
  exists ds, K, F0, E, k, kap. cbn zeta.
  assert (FP : finite_pos (u mod 2 ^ 63)).
  { apply abs_finite; [exact H|apply double_finite_iff; assumption|apply nonzero_field; assumption]. }
  pose proof (digits_good _ _ _ _ _ _ (go_digits _ _ _ _ _ _ _ G)) as GD.
  pose proof (grisu_exponent _ _ _ _ _ _ _ G) as GE.
  pose proof (layout_magnitude (sign_field u) ds K GD GE) as LM.
  split; [exact FP|]. split; [exact G|]. split; [exact GD|]. split; [exact GE|].
  split; [reflexivity|]. split; [apply layout_json; assumption|]. split; [exact LM|]. split; [|split].
  - rewrite n_value_neg_if, layout_negative, LM. reflexivity.
  - pose proof (go_value _ _ _ _ _ _ _ G). pose proof (unit_pos (u mod 2 ^ 63) E k). lra.
  - rewrite double_value_neg_if by assumption. f_equal. unfold dbl_R. destruct (dbl_mod u H) as [-> ->]. reflexivity.
Qed.

Lemma neg_if_nearest b x v : strictly_nearest 53 1024 x v -> strictly_nearest 53 1024 (neg_if b x) (neg_if b v).
Proof.
  intros [G S]. destruct b; [|split; assumption]. cbn [neg_if]. split; [apply generic_format_opp; exact G|].
  intros y Gy Ny. specialize (S (- y)%R (generic_format_opp _ _ _ Gy)).
  replace (- v - - x)%R with (- (v - x))%R by lra. replace (- v - y)%R with (- (v - - y))%R by lra.
  rewrite !Rabs_Ropp. apply S. lra.
Qed.

Lemma nearest_neg_if b v : nearest 53 1024 (neg_if b v) = neg_if b (nearest 53 1024 v).
Proof. destruct b; [|reflexivity]. apply round_NE_opp. Qed.

(** C20 *)
Lemma double_round_trip e u s : bits64 u -> double_finite u -> double_value u <> 0%R -> lexi e (VDouble u) = Ok s ->
  exists n, json_number s n /\ (forall n', json_number s n' -> n' = n) /\
    strictly_nearest 53 1024 (double_value u) (n_value n) /\
    nearest 53 1024 (n_value n) = double_value u.
Proof.
  intros H F N L. destruct (finite_number e u s H F N L) as (ds & K & F0 & E & k & kap & FP & G & GD & GE & Es & J & M & V & B & DV).
  exists (layout_number (sign_field u) ds K). split; [exact J|]. split; [intros n' J'; eapply json_number_unique; eassumption|].
  rewrite V, DV. split.
  - apply neg_if_nearest. apply between_nearest; assumption.
  - rewrite nearest_neg_if. f_equal. apply (between_round _ _ _ FP B).
Qed.

(** C21 *)
Lemma digit_count e u s n : bits64 u -> double_finite u -> double_value u <> 0%R -> lexi e (VDouble u) = Ok s ->
  json_number s n -> (1 <= length (significant (n_digits n)) <= 17)%nat.
Proof.
  intros H F N L J'. destruct (finite_number e u s H F N L) as (ds & K & F0 & E & k & kap & FP & G & GD & GE & Es & J & M & V & B & DV).
  rewrite (json_number_unique _ _ _ J' J). pose proof (layout_significant (sign_field u) ds K GD) as [S _].
  pose proof (go_length _ _ _ _ _ _ _ G). lia.
Qed.

(** ** Special values *)

Lemma special_string s : (length s < FLOAT_SIZE)%nat -> (let* o := special s in FormatFloat_string o) = Ok s.
Proof. intros H. destruct (special_ok s H) as (o & -> & Ho). apply Ho. Qed.

Lemma format_nan env u : bits64 u -> double_nan u -> format_bits env u = special (lit_nan (fe_lit env)).
Proof.
  intros H N. apply double_nan_iff in N as [N1 N2]; [|exact H]. unfold format_bits.
  assert (IF : isFinite u = false).
  { destruct (isFinite u) eqn:X; [|reflexivity]. apply isFinite_iff in X; [|exact H]. contradiction. }
  rewrite IF. cbn [negb]. rewrite (proj2 (isNan_iff u H) (conj N1 N2)). reflexivity.
Qed.

Lemma format_infinity env u (s : bool) : bits64 u -> double_infinity u s ->
  format_bits env u = special (if s then lit_negative_infinity (fe_lit env) else lit_infinity (fe_lit env)).
Proof.
  intros H N. apply double_infinity_iff in N as (N1 & N2 & N3); [|exact H]. unfold format_bits.
  assert (IF : isFinite u = false).
  { destruct (isFinite u) eqn:X; [|reflexivity]. apply isFinite_iff in X; [|exact H]. contradiction. }
  assert (IN : isNan u = false).
  { destruct (isNan u) eqn:X; [|reflexivity]. apply isNan_iff in X as [_ X]; [|exact H]. contradiction. }
  rewrite IF, IN. cbn [negb]. destruct (isInfinity u) eqn:X.
  - apply isInfinity_iff in X as (_ & _ & X); [|exact H]. rewrite X in N3. subst s. reflexivity.
  - destruct s; [reflexivity|]. rewrite (proj2 (isInfinity_iff u H)) in X; [discriminate|auto].
Qed.

Lemma format_zero env u : bits64 u -> double_finite u -> double_value u = 0%R ->
  (let* o := format_bits env u in FormatFloat_string o) = Ok (str "0.0").
Proof.
  intros H F Z0. assert (X : u mod 2 ^ 63 = 0).
  { destruct (Z.eq_dec (u mod 2 ^ 63) 0) as [|N]; [assumption|]. apply nonzero_field in N; [contradiction|assumption..]. }
  unfold format_bits. rewrite (proj2 (isFinite_iff u H) (proj1 (double_finite_iff u H) F)). cbn [negb].
  unfold dtoa. change (double_is_zero u) with (u mod 2 ^ 63 =? 0). rewrite X. reflexivity.
Qed.

Lemma infinity_not_nan u s : bits64 u -> double_infinity u s -> (exp_field u =? 2047) && negb (frac_field u =? 0) = false.
Proof. intros H I. apply double_infinity_iff in I as (_ & -> & _); [|exact H]. destruct (_ =? 2047); reflexivity. Qed.

(** The text of every kind of double. *)
Lemma lexi_nan e u : nan_ok (e_float e) -> (length (lit_nan (e_lit e)) < FLOAT_SIZE)%nat -> bits64 u -> double_nan u ->
  lexi e (VDouble u) = Ok (lit_nan (e_lit e)).
Proof.
  intros [NB NN] HL H N. rewrite lexi_double, double_bits by exact H.
  pose proof (proj1 (double_nan_iff u H) N) as [N1 N2]. rewrite (proj2 (Z.eqb_eq _ _) N1), (proj2 (Z.eqb_neq _ _) N2).
  cbn [andb negb]. rewrite format_nan by assumption. apply special_string. exact HL.
Qed.

Lemma lexi_infinity e u (s : bool) :
  (length (if s then lit_negative_infinity (e_lit e) else lit_infinity (e_lit e)) < FLOAT_SIZE)%nat ->
  bits64 u -> double_infinity u s ->
  lexi e (VDouble u) = Ok (if s then lit_negative_infinity (e_lit e) else lit_infinity (e_lit e)).
Proof.
  intros HL H I. rewrite lexi_double, double_bits, (infinity_not_nan u s) by assumption.
  rewrite (format_infinity _ u s) by assumption. apply special_string. exact HL.
Qed.

Lemma lexi_zero e u : bits64 u -> double_finite u -> double_value u = 0%R -> lexi e (VDouble u) = Ok (str "0.0").
Proof. intros H F Z0. rewrite lexi_double, double_finite_bits by assumption. apply format_zero; assumption. Qed.

Lemma double_cases u : bits64 u ->
  double_nan u \/ (exists s, double_infinity u s) \/ (double_finite u /\ double_value u = 0%R) \/
  (double_finite u /\ double_value u <> 0%R).
Proof.
  intros H. rewrite double_nan_iff, double_finite_iff by exact H.
  destruct (Z.eq_dec (exp_field u) 2047) as [X|X].
  - destruct (Z.eq_dec (frac_field u) 0) as [Y|Y]; [|tauto]. right. left. exists (sign_field u).
    apply double_infinity_iff; auto.
  - destruct (Req_dec (double_value u) 0); tauto.
Qed.

Lemma double_exclusive u : bits64 u ->
  (double_nan u -> ~ double_finite u) /\ (forall s, double_infinity u s -> ~ double_finite u /\ ~ double_nan u).
Proof.
  intros H. pose proof (double_nan_iff u H) as N. pose proof (double_finite_iff u H) as F. split; [tauto|].
  intros s I. apply double_infinity_iff in I; [|exact H]. tauto.
Qed.

(** The first characters of a finite double's text. *)
Lemma json_number_first s n : json_number s n -> exists c r, s = c :: r /\ (c = "-"%char \/ is_digit c).
Proof.
  intros ((ec & _ & ->) & NI & DI & _). destruct (n_negative n).
  - exists "-"%char. eexists. split; [reflexivity|]. left. reflexivity.
  - destruct (n_integer n) as [|c r]; [contradiction|]. exists c. eexists. split; [reflexivity|].
    right. inversion DI; assumption.
Qed.

Lemma json_number_second s n : json_number s n -> exists a c r, s = a ++ c :: r /\ (a = [] \/ a = ["-"%char]) /\ is_digit c.
Proof.
  intros ((ec & _ & ->) & NI & DI & _). destruct (n_integer n) as [|c r]; [contradiction|].
  exists (if n_negative n then ["-"%char] else []), c. eexists. split; [reflexivity|]. split.
  - destruct (n_negative n); auto.
  - inversion DI; assumption.
Qed.

Lemma zero_number n : json_number (str "0.0") n -> n_value n = 0%R.
Proof.
  intros J. assert (J0 : json_number (str "0.0") (Number false (str "0") (Some (str "0")) None)).
  { split; [exists "e"%char; split; [left; reflexivity|reflexivity]|]. cbn [n_integer n_fraction n_exponent].
    split; [discriminate|]. split; [repeat constructor; cbn; lia|]. split; [intros r X; injection X as <-; reflexivity|].
    split; [intros f X; injection X as <-; split; [discriminate|repeat constructor; cbn; lia]|discriminate]. }
  rewrite (json_number_unique _ _ _ J J0). unfold n_value, n_magnitude; cbn. lra.
Qed.

Lemma nearest_0 : nearest 53 1024 0 = 0%R.
Proof. apply round_0. apply valid_rnd_N. Qed.

(** C19 *)
Lemma special_values e u : nan_ok (e_float e) -> e_lit e = default_literals -> bits64 u ->
  (lexi e (VDouble u) = Ok (str "NaN") <-> double_nan u) /\
  (lexi e (VDouble u) = Ok (str "Infinity") <-> double_infinity u false) /\
  (lexi e (VDouble u) = Ok (str "-Infinity") <-> double_infinity u true) /\
  (lexi e (VDouble u) = Ok (str "0.0") <-> double_finite u /\ double_value u = 0%R).
Proof.
  intros HN HL H. destruct (double_exclusive u H) as [X1 X2].
  assert (TN : double_nan u -> lexi e (VDouble u) = Ok (str "NaN")).
  { intros N. rewrite lexi_nan; rewrite ?HL; try assumption; [reflexivity|cbn; unfold FLOAT_SIZE; lia]. }
  assert (TI : forall s, double_infinity u s -> lexi e (VDouble u) = Ok (if s then str "-Infinity" else str "Infinity")).
  { intros s N. rewrite (lexi_infinity e u s); rewrite ?HL; try assumption; [destruct s; reflexivity|].
    destruct s; cbn; unfold FLOAT_SIZE; lia. }
  assert (TZ := lexi_zero e u H).
  assert (TF : double_finite u -> double_value u <> 0%R -> forall s, lexi e (VDouble u) = Ok s ->
    s <> str "NaN" /\ s <> str "Infinity" /\ s <> str "-Infinity" /\ s <> str "0.0").
  { intros F N s L. destruct (double_round_trip e u s H F N L) as (n & J & _ & _ & R).
    destruct (json_number_second s n J) as (a & c & r & E & A & D).
    assert (Y : forall w, s = str w -> s <> str "0.0" -> False -> False) by auto. clear Y.
    split; [|split; [|split]]; intros X; rewrite X in *.
    - destruct A; subst a; [injection E as <- _|discriminate E]. unfold is_digit in D; cbn in D; lia.
    - destruct A; subst a; [injection E as <- _|discriminate E]. unfold is_digit in D; cbn in D; lia.
    - destruct A; subst a; injection E.
      + intros _ <-. unfold is_digit in D; cbn in D; lia.
      + intros _ <-. unfold is_digit in D; cbn in D; lia.
    - rewrite (zero_number n J), nearest_0 in R. symmetry in R. contradiction. }
  assert (C := double_cases u H).
  assert (Inj : forall (x y : bytes), @Ok bytes x = Ok y -> x = y) by (intros x y Q; apply Ok_inj in Q; exact Q).
  split; [split|split; [split|split; [split|split]]]; intros Q.
  - destruct C as [N|[[s N]|[[F Z0]|[F N]]]]; [exact N| | |].
    + rewrite (TI s N) in Q. apply Inj in Q. destruct s; discriminate Q.
    + rewrite (TZ F Z0) in Q. apply Inj in Q. discriminate Q.
    + exfalso. destruct (TF F N _ Q) as (A & _). apply A. reflexivity.
  - exact (TN Q).
  - destruct C as [N|[[s N]|[[F Z0]|[F N]]]].
    + rewrite (TN N) in Q. apply Inj in Q. discriminate Q.
    + rewrite (TI s N) in Q. apply Inj in Q. destruct s; [discriminate Q|exact N].
    + rewrite (TZ F Z0) in Q. apply Inj in Q. discriminate Q.
    + exfalso. destruct (TF F N _ Q) as (_ & A & _). apply A. reflexivity.
  - exact (TI false Q).
  - destruct C as [N|[[s N]|[[F Z0]|[F N]]]].
    + rewrite (TN N) in Q. apply Inj in Q. discriminate Q.
    + rewrite (TI s N) in Q. apply Inj in Q. destruct s; [exact N|discriminate Q].
    + rewrite (TZ F Z0) in Q. apply Inj in Q. discriminate Q.
    + exfalso. destruct (TF F N _ Q) as (_ & _ & A & _). apply A. reflexivity.
  - exact (TI true Q).
  - destruct C as [N|[[s N]|[[F Z0]|[F N]]]].
    + rewrite (TN N) in Q. apply Inj in Q. discriminate Q.
    + rewrite (TI s N) in Q. apply Inj in Q. destruct s; discriminate Q.
    + split; assumption.
    + exfalso. destruct (TF F N _ Q) as (_ & _ & _ & A). apply A. reflexivity.
  - destruct Q as [F Z0]. exact (TZ F Z0).
Qed.
