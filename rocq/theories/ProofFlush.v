(** Proofs about lexi with subnormal numbers treated as zero. *)
From Coq Require Import Reals Floats.SpecFloat Lia Lra Bool.
From Flocq Require Import Core IEEE754.BinarySingleNaN.
From Verif Require Import Machine SpecApi SpecDecimal SpecNumber SpecIeee SpecRead SpecFlush ModelItoa ModelInt ModelText
  ModelIeee ModelDiyfp ModelDtoa ModelFloat ModelLexi ModelPlatforms ModelFlush
  ProofDiyfp ProofIeee ProofDtoa ProofRound ProofFloat ProofFloat2 ProofRead ProofRead2 ProofRead3.
Open Scope Z_scope.

(** ** Subnormal numbers of a format *)

Lemma canonical_parts prec emax s m e : good_format prec emax ->
  SpecFloat.valid_binary prec emax (S754_finite s m e) = true ->
  3 - emax - prec <= e /\ (Zpos m < 2 ^ (prec - 1) -> e = 3 - emax - prec).
Proof.
  intros [Gp Ge] V. cbn [SpecFloat.valid_binary] in V. unfold SpecFloat.bounded in V.
  apply andb_prop in V as [C _]. unfold SpecFloat.canonical_mantissa in C.
  apply Zeq_bool_eq in C. unfold SpecFloat.fexp, SpecFloat.emin in C.
  rewrite Digits.Zpos_digits2_pos in C.
  pose proof (Digits.Zdigits_correct radix2 (Zpos m)) as D.
  set (d := Digits.Zdigits radix2 (Zpos m)) in *.
  change (Z.abs (Zpos m)) with (Zpos m) in D. change (radix_val radix2) with 2 in D.
  split; [lia|]. intros L.
  assert (d <= prec - 1); [|lia].
  apply Z.nlt_ge. intros X. assert (2 ^ (prec - 1) <= 2 ^ (d - 1)) by (apply Z.pow_le_mono_r; lia). lia.
Qed.

Lemma finite_abs s m e : Rabs (SF2R radix2 (S754_finite s m e)) = (IZR (Zpos m) * bpow radix2 e)%R.
Proof.
  cbn [SF2R]. rewrite <- F2R_Zabs. replace (Z.abs (cond_Zopp s (Zpos m))) with (Zpos m) by (destruct s; reflexivity).
  reflexivity.
Qed.

Lemma subnormal_iff prec emax x : good_format prec emax -> SpecFloat.valid_binary prec emax x = true ->
  sf_subnormal prec x = true <-> subnormal emax (SF2R radix2 x).
Proof.
  intros G V. unfold subnormal. destruct x as [s|s| |s m e].
  1-3: cbn; rewrite Rabs_R0; split; [discriminate|intros [X _]; lra].
  destruct (canonical_parts _ _ _ _ _ G V) as [L E]. rewrite finite_abs. cbn [sf_subnormal]. rewrite Z.ltb_lt.
  assert (P : (0 < IZR (Zpos m))%R) by (apply IZR_lt; lia). pose proof (bpow_gt_0 radix2 e) as Pe.
  destruct G as [Gp Ge].
  assert (B : forall k, 0 <= k -> IZR (2 ^ k) = bpow radix2 k) by (intros k Hk; exact (IZR_Zpower radix2 k Hk)).
  split.
  - intros X. split; [apply Rmult_lt_0_compat; assumption|].
    rewrite (E X). replace (2 - emax) with ((prec - 1) + (3 - emax - prec)) by lia. rewrite bpow_plus, <- (B (prec - 1)) by lia.
    apply Rmult_lt_compat_r; [apply bpow_gt_0|]. apply IZR_lt. exact X.
  - intros [_ X]. apply Z.nle_gt. intros Y. revert X. apply Rle_not_lt.
    replace (2 - emax) with ((prec - 1) + (3 - emax - prec)) by lia. rewrite bpow_plus, <- (B (prec - 1)) by lia.
    apply Rmult_le_compat; [apply IZR_le; lia|apply bpow_ge_0|apply IZR_le; exact Y|apply bpow_le; exact L].
Qed.

Lemma not_subnormal_iff prec emax x : good_format prec emax -> SpecFloat.valid_binary prec emax x = true ->
  sf_subnormal prec x = false <-> ~ subnormal emax (SF2R radix2 x).
Proof. intros G V. rewrite <- (subnormal_iff prec emax x G V). destruct (sf_subnormal prec x); split; congruence. Qed.

Lemma flushed_valid prec emax x : SpecFloat.valid_binary prec emax x = true -> SpecFloat.valid_binary prec emax (flushed prec x) = true.
Proof. intros V. unfold flushed. destruct (sf_subnormal prec x); [|exact V]. destruct x; try exact V. reflexivity. Qed.

Lemma flushed_twice prec x : flushed prec (flushed prec x) = flushed prec x.
Proof. unfold flushed at 2 3. destruct (sf_subnormal prec x) eqn:S; [|unfold flushed; rewrite S; reflexivity]. destruct x; reflexivity. Qed.

Lemma flushed_not prec x : sf_subnormal prec x = false -> flushed prec x = x.
Proof. intros S. unfold flushed. rewrite S. reflexivity. Qed.

Lemma flushed_zero prec x : sf_subnormal prec x = true -> flushed prec x = S754_zero (sign_SF x).
Proof. intros S. unfold flushed. rewrite S. destruct x; try discriminate S. reflexivity. Qed.

Lemma convert_itself prec emax y : good_format prec emax -> SpecFloat.valid_binary prec emax y = true -> convert prec emax y = y.
Proof.
  intros G V. destruct (is_finite_SF y) eqn:F; [|destruct y; try discriminate F; reflexivity].
  destruct (sf_format prec emax y G V F) as [GF B].
  destruct (convert_exact prec emax y G F GF B) as (V' & F' & S' & R').
  eapply sf_inj; eauto.
Qed.

(** ** Patterns *)

Lemma pattern_subnormal u : bits64 u -> double_is_subnormal u = sf_subnormal 53 (double_of_bits u).
Proof.
  intros H. unfold double_is_subnormal, double_is_zero, double_of_bits, sf_of_bits.
  change (3 - 2 ^ (11 - 1) - (52 + 1)) with (-1074). change (2 ^ 11 - 1) with 2047.
  fold (exp_field u) (frac_field u).
  pose proof (Z.mod_pos_bound u (2 ^ 52) ltac:(lia)) as F. fold (frac_field u) in F.
  pose proof (exp_field_range u) as E.
  destruct (Z.eqb_spec (exp_field u) 0) as [E0|E0].
  - assert (X : u mod 2 ^ 63 = frac_field u).
    { pose proof (Z.rem_mul_r u (2 ^ 52) (2 ^ 11) ltac:(lia) ltac:(lia)) as R.
      change (2 ^ 52 * 2 ^ 11) with (2 ^ 63) in R. fold (exp_field u) (frac_field u) in R. lia. }
    rewrite X, andb_true_r. destruct (frac_field u) as [|p|p]; [reflexivity| |lia].
    cbn [sf_subnormal]. change (Zpos p =? 0) with false. cbn [negb]. symmetry. apply Z.ltb_lt. change (53 - 1) with 52. lia.
  - rewrite andb_false_r. destruct (exp_field u =? 2047); [destruct (frac_field u =? 0); reflexivity|].
    destruct (frac_field u + 2 ^ 52) as [|p|p] eqn:X; [reflexivity| |reflexivity].
    cbn [sf_subnormal]. symmetry. apply Z.ltb_ge. change (53 - 1) with 52. lia.
Qed.

Lemma pattern_of_subnormal nan z : SpecFloat.valid_binary 53 1024 z = true -> z <> S754_nan ->
  double_is_subnormal (bits_of_double nan z) = sf_subnormal 53 z.
Proof.
  intros V N. destruct (double_of_bits_of_double nan z V N) as [B E]. rewrite pattern_subnormal by exact B. rewrite E. reflexivity.
Qed.

Lemma nan_pattern env : nan_ok env -> double_is_subnormal (fe_nan env) = false.
Proof.
  intros [B N]. rewrite pattern_subnormal by exact B. apply double_of_bits_nan in N. rewrite N. reflexivity.
Qed.

(** ** The formatting of a double *)

Lemma format_bits_same fl env u : fl_compare fl = false \/ double_is_subnormal u = false ->
  z_format_bits fl env u = format_bits env u.
Proof.
  intros H. assert (Z : z_is_zero fl u = double_is_zero u).
  { unfold z_is_zero. destruct H as [H|H]; rewrite H; [|rewrite andb_false_r]; apply orb_false_r. }
  assert (N : z_is_negative fl u = double_is_negative u) by (unfold z_is_negative, double_is_negative; rewrite Z; reflexivity).
  unfold z_format_bits, format_bits, z_dtoa, dtoa. rewrite Z, N. reflexivity.
Qed.

Lemma subnormal_pattern_finite u : bits64 u -> double_is_subnormal u = true -> isFinite u = true.
Proof.
  intros H S. apply isFinite_iff; [exact H|]. unfold double_is_subnormal in S. apply andb_prop in S as [_ S].
  apply Z.eqb_eq in S. fold (exp_field u) in S. lia.
Qed.

Lemma format_bits_zero fl env u : bits64 u -> fl_compare fl = true -> double_is_subnormal u = true ->
  (let* o := z_format_bits fl env u in FormatFloat_string o) = Ok (str "0.0").
Proof.
  intros H C S. unfold z_format_bits. rewrite (subnormal_pattern_finite u H S). cbn [negb].
  unfold z_dtoa, z_is_zero. rewrite C, S, orb_true_r. reflexivity.
Qed.

Lemma zero_pattern fl env nan s : (let* o := z_format_bits fl env (bits_of_double nan (S754_zero s)) in FormatFloat_string o) = Ok (str "0.0").
Proof. rewrite format_bits_same by (right; destruct s; reflexivity). destruct s; reflexivity. Qed.

Lemma sf_format_same fl env z : nan_ok env -> SpecFloat.valid_binary 53 1024 z = true ->
  fl_compare fl = false \/ sf_subnormal 53 z = false ->
  z_format_bits fl env (bits_of_double (fe_nan env) z) = format_bits env (bits_of_double (fe_nan env) z).
Proof.
  intros NO V H. apply format_bits_same. destruct H as [H|H]; [left; exact H|right].
  destruct z as [s|s| |s m e]; try (rewrite pattern_of_subnormal; [exact H|exact V|discriminate]).
  exact (nan_pattern env NO).
Qed.

Lemma sf_format_zero fl env z : SpecFloat.valid_binary 53 1024 z = true ->
  fl_compare fl = true -> sf_subnormal 53 z = true ->
  (let* o := z_format_bits fl env (bits_of_double (fe_nan env) z) in FormatFloat_string o) = Ok (str "0.0").
Proof.
  intros V C S. assert (N : z <> S754_nan) by (intros ->; discriminate S).
  destruct (double_of_bits_of_double (fe_nan env) z V N) as [B _].
  apply format_bits_zero; [exact B|exact C|]. rewrite pattern_of_subnormal; assumption.
Qed.

Lemma z_lexi_double fl e u : z_lexi fl e (VDouble u) = let* o := z_FormatFloat_double fl (e_float e) u in FormatFloat_string o.
Proof. cbn. destruct (z_FormatFloat_double _ _ _); reflexivity. Qed.
Lemma z_lexi_float fl e u : z_lexi fl e (VFloat u) = let* o := z_FormatFloat_float fl (e_float e) u in FormatFloat_string o.
Proof. cbn. destruct (z_FormatFloat_float _ _ _); reflexivity. Qed.
Lemma z_lexi_long_double fl e x : z_lexi fl e (VLongDouble x) = let* o := z_FormatFloat_long_double fl (e_float e) x in FormatFloat_string o.
Proof. cbn. destruct (z_FormatFloat_long_double _ _ _); reflexivity. Qed.

Lemma ld_cases f : f = LD64 \/ f <> LD64 /\ (ld_prec f =? 53) = false.
Proof. destruct f; [left; reflexivity|right..]; split; try discriminate; reflexivity. Qed.
Lemma ld_float f : (ld_prec f =? 24) = false.
Proof. destruct f; reflexivity. Qed.
Lemma ld_wide f : 53 <= ld_prec f /\ 1024 <= ld_emax f.
Proof. destruct f; cbn; lia. Qed.

(** The double that the constructor from double passes on. *)
Lemma double_path fl f x : SpecFloat.valid_binary 53 1024 x = true ->
  z_narrow fl (ld_prec f) 53 1024 (z_widen fl 53 (ld_prec f) (ld_emax f) x) =
  if negb (ld_prec f =? 53) && (fl_widen fl || fl_narrow fl) then flushed 53 x else x.
Proof.
  intros V. unfold z_narrow, z_widen. destruct (ld_prec f =? 53); [reflexivity|]. cbn [negb andb].
  destruct (ld_wide f) as [W1 W2].
  rewrite (convert_back 53 1024 _ _ _ double_good (ld_good f) W1 W2)
    by (destruct (fl_widen fl); [apply flushed_valid|]; exact V).
  destruct (fl_widen fl), (fl_narrow fl); cbn [orb]; try reflexivity. apply flushed_twice.
Qed.

Theorem double_text fl e u : nan_ok (e_float e) -> bits64 u ->
  let on := fl_compare fl = true \/ fe_ld (e_float e) <> LD64 /\ (fl_widen fl = true \/ fl_narrow fl = true) in
  (subnormal 1024 (double_value u) -> on -> z_lexi fl e (VDouble u) = Ok (str "0.0")) /\
  (~ (subnormal 1024 (double_value u) /\ on) -> z_lexi fl e (VDouble u) = lexi e (VDouble u)).
Proof.
  intros NO H on. pose proof (double_of_bits_valid u) as V.
  rewrite <- double_of_bits_value, <- (subnormal_iff 53 1024 _ double_good V).
  rewrite z_lexi_double, lexi_double. unfold z_FormatFloat_double, z_format. rewrite double_path by exact V.
  assert (O : on <-> fl_compare fl = true \/ negb (ld_prec (fe_ld (e_float e)) =? 53) && (fl_widen fl || fl_narrow fl) = true).
  { unfold on. rewrite andb_true_iff, orb_true_iff.
    destruct (ld_cases (fe_ld (e_float e))) as [->|[X ->]]; cbn; intuition congruence. }
  clearbody on. destruct (negb _ && _) eqn:Z.
  - split.
    + intros S _. rewrite (flushed_zero _ _ S). apply zero_pattern.
    + intros N. assert (S : sf_subnormal 53 (double_of_bits u) = false).
      { destruct (sf_subnormal 53 (double_of_bits u)); [|reflexivity]. exfalso. apply N. split; [reflexivity|]. apply O. right. reflexivity. }
      rewrite (flushed_not _ _ S). rewrite (sf_format_same fl _ _ NO V) by (right; exact S).
      unfold FormatFloat_double, format. destruct (ld_wide (fe_ld (e_float e))) as [W1 W2].
      rewrite (convert_back 53 1024 _ _ _ double_good (ld_good _) W1 W2 V). reflexivity.
  - split.
    + intros S C. apply O in C as [C|C]; [|discriminate C]. apply sf_format_zero; assumption.
    + intros N. rewrite (sf_format_same fl _ _ NO V).
      * unfold FormatFloat_double, format. destruct (ld_wide (fe_ld (e_float e))) as [W1 W2].
        rewrite (convert_back 53 1024 _ _ _ double_good (ld_good _) W1 W2 V). reflexivity.
      * destruct (fl_compare fl); [right|left; reflexivity]. destruct (sf_subnormal 53 (double_of_bits u)); [|reflexivity].
        exfalso. apply N. split; [reflexivity|]. apply O. left. reflexivity.
Qed.

(** ** Floats *)

Lemma float_as_double x : SpecFloat.valid_binary 24 128 x = true ->
  SpecFloat.valid_binary 53 1024 (convert 53 1024 x) = true /\ sf_subnormal 53 (convert 53 1024 x) = false.
Proof.
  intros V. destruct (is_finite_SF x) eqn:F; [|destruct x; try discriminate F; split; reflexivity].
  destruct (sf_format 24 128 x float_good V F) as [GF B].
  destruct (convert_exact 53 1024 x double_good F) as (V' & F' & S' & R').
  { apply (format_incl 24 128); [lia|lia|exact GF]. }
  { eapply Rlt_trans; [exact B|]. apply bpow_lt. lia. }
  split; [exact V'|]. apply (not_subnormal_iff 53 1024 _ double_good V'). rewrite R'. unfold subnormal.
  intros [P Q]. destruct x as [s|s| |s m e]; try (cbn in P; rewrite Rabs_R0 in P; lra).
  rewrite finite_abs in Q. destruct (canonical_parts _ _ _ _ _ float_good V) as [L _]. revert Q. apply Rle_not_lt.
  apply Rle_trans with (1 * bpow radix2 e)%R; [rewrite Rmult_1_l; apply bpow_le; lia|].
  apply Rmult_le_compat_r; [apply bpow_ge_0|apply IZR_le; lia].
Qed.

Lemma float_path fl f x : SpecFloat.valid_binary 24 128 x = true ->
  z_narrow fl (ld_prec f) 53 1024 (z_widen fl 24 (ld_prec f) (ld_emax f) x) =
  convert 53 1024 (if fl_widen fl then flushed 24 x else x).
Proof.
  intros V0. unfold z_narrow, z_widen. rewrite (ld_float f). set (y := if fl_widen fl then _ else _).
  assert (V : SpecFloat.valid_binary 24 128 y = true) by (unfold y; destruct (fl_widen fl); [apply flushed_valid|]; exact V0).
  destruct (float_as_double y V) as [_ S].
  destruct (ld_cases f) as [->|[_ ->]]; [reflexivity|]. destruct (ld_wide f) as [W1 W2].
  rewrite (convert_via 24 128 53 1024 _ _ _ float_good double_good (ld_good f)) by (try lia; exact V).
  destruct (fl_narrow fl); [apply flushed_not; exact S|reflexivity].
Qed.

Theorem float_text fl e u : nan_ok (e_float e) -> bits32 u ->
  (subnormal 128 (float_value u) -> fl_widen fl = true -> z_lexi fl e (VFloat u) = Ok (str "0.0")) /\
  (~ (subnormal 128 (float_value u) /\ fl_widen fl = true) -> z_lexi fl e (VFloat u) = lexi e (VFloat u)).
Proof.
  intros NO _. pose proof (float_of_bits_valid u) as V.
  rewrite <- float_of_bits_value, <- (subnormal_iff 24 128 _ float_good V).
  rewrite z_lexi_float, lexi_float. unfold z_FormatFloat_float, z_format. rewrite float_path by exact V.
  split.
  - intros S W. rewrite W, (flushed_zero _ _ S). apply zero_pattern.
  - intros N. replace (if fl_widen fl then flushed 24 (float_of_bits u) else float_of_bits u) with (float_of_bits u).
    + destruct (float_as_double _ V) as [V' S']. rewrite (sf_format_same fl _ _ NO V') by (right; exact S').
      rewrite float_bits. reflexivity.
    + destruct (fl_widen fl); [|reflexivity]. symmetry. apply flushed_not.
      destruct (sf_subnormal 24 (float_of_bits u)); [exfalso; apply N; split; reflexivity|reflexivity].
Qed.

(** ** Long doubles *)

Lemma narrow_path fl f x : SpecFloat.valid_binary (ld_prec f) (ld_emax f) x = true ->
  z_narrow fl (ld_prec f) 53 1024 x =
  if negb (ld_prec f =? 53) && fl_narrow fl then flushed 53 (convert 53 1024 x) else convert 53 1024 x.
Proof.
  intros V. unfold z_narrow. destruct (ld_cases f) as [->|[_ ->]].
  - symmetry. exact (convert_itself 53 1024 x double_good V).
  - reflexivity.
Qed.

Lemma narrowed_convert prec emax y z : good_format prec emax -> narrowed prec emax y z -> z = convert prec emax y.
Proof.
  intros G N. exact (proj1 (proj2 (reading_determined prec emax DNan y z (convert prec emax y) false 0%R)) N (convert_narrowed prec emax y G)).
Qed.

Theorem long_double_text fl e x z : nan_ok (e_float e) ->
  SpecFloat.valid_binary (ld_prec (fe_ld (e_float e))) (ld_emax (fe_ld (e_float e))) x = true -> narrowed 53 1024 x z ->
  let on := fl_compare fl = true \/ fe_ld (e_float e) <> LD64 /\ fl_narrow fl = true in
  (subnormal 1024 (SF2R radix2 z) -> on -> z_lexi fl e (VLongDouble x) = Ok (str "0.0")) /\
  (~ (subnormal 1024 (SF2R radix2 z) /\ on) -> z_lexi fl e (VLongDouble x) = lexi e (VLongDouble x)).
Proof.
  intros NO Vx Nz on. apply (narrowed_convert _ _ _ _ double_good) in Nz. subst z.
  pose proof (convert_valid_any 53 1024 x double_good) as V.
  rewrite <- (subnormal_iff 53 1024 _ double_good V).
  rewrite z_lexi_long_double, lexi_long_double. unfold z_FormatFloat_long_double, z_format, FormatFloat_long_double, format.
  rewrite narrow_path by exact Vx.
  assert (O : on <-> fl_compare fl = true \/ negb (ld_prec (fe_ld (e_float e)) =? 53) && fl_narrow fl = true).
  { unfold on. rewrite andb_true_iff.
    destruct (ld_cases (fe_ld (e_float e))) as [->|[X ->]]; cbn; intuition congruence. }
  clearbody on. set (z := convert 53 1024 x) in *. destruct (negb _ && _) eqn:Z.
  - split.
    + intros S _. rewrite (flushed_zero _ _ S). apply zero_pattern.
    + intros N. assert (S : sf_subnormal 53 z = false).
      { destruct (sf_subnormal 53 z); [|reflexivity]. exfalso. apply N. split; [reflexivity|]. apply O. right. reflexivity. }
      rewrite (flushed_not _ _ S). rewrite (sf_format_same fl _ _ NO V) by (right; exact S). reflexivity.
  - split.
    + intros S C. apply O in C as [C|C]; [|discriminate C]. apply sf_format_zero; assumption.
    + intros N. rewrite (sf_format_same fl _ _ NO V); [reflexivity|].
      destruct (fl_compare fl); [right|left; reflexivity]. destruct (sf_subnormal 53 z); [|reflexivity].
      exfalso. apply N. split; [reflexivity|]. apply O. left. reflexivity.
Qed.

Theorem other_text fl e v : (forall u, v <> VFloat u) -> (forall u, v <> VDouble u) -> (forall x, v <> VLongDouble x) ->
  z_lexi fl e v = lexi e v.
Proof. intros A B C. destruct v; try reflexivity; [exfalso; eapply A|exfalso; eapply B|exfalso; eapply C]; reflexivity. Qed.

(** ** Reading *)

Lemma strtold_valid e point s : point_ok point ->
  let f := fe_ld (e_float e) in SpecFloat.valid_binary (ld_prec f) (ld_emax f) (strtold (ld_prec f) (ld_emax f) point s) = true.
Proof.
  intros P f. destruct (texts_denote point s P) as (v & R & _).
  pose proof (strtold_reads (ld_prec f) (ld_emax f) point s v (ld_good f) P R) as X.
  destruct v; cbn [read_as] in X; try (rewrite X; reflexivity); exact (proj1 X).
Qed.

Theorem double_read fl e point s z : point_ok point -> extract e point TDouble s = Ok (XFloating z) ->
  let on := fe_ld (e_float e) <> LD64 /\ fl_narrow fl = true in
  (subnormal 1024 (SF2R radix2 z) -> on -> z_extract fl e point TDouble s = Ok (XFloating (S754_zero (sign_SF z)))) /\
  (~ (subnormal 1024 (SF2R radix2 z) /\ on) -> z_extract fl e point TDouble s = Ok (XFloating z)).
Proof.
  intros P E on. pose proof (strtold_valid e point s P) as Vx. cbv zeta in Vx.
  cbn [extract z_extract ExtractFloat bind] in *. injection E as <-. unfold ExtractFloat_double.
  set (x := strtold _ _ _ _) in *. rewrite narrow_path by exact Vx.
  pose proof (convert_valid_any 53 1024 x double_good) as V.
  rewrite <- (subnormal_iff 53 1024 _ double_good V).
  assert (O : on <-> negb (ld_prec (fe_ld (e_float e)) =? 53) && fl_narrow fl = true).
  { unfold on. rewrite andb_true_iff.
    destruct (ld_cases (fe_ld (e_float e))) as [->|[X ->]]; cbn; intuition congruence. }
  clearbody on. rewrite O. destruct (negb _ && _).
  - split.
    + intros S _. rewrite (flushed_zero _ _ S). reflexivity.
    + intros N. rewrite flushed_not; [reflexivity|]. destruct (sf_subnormal 53 _); [exfalso; tauto|reflexivity].
  - split; [intros _ C; discriminate C|reflexivity].
Qed.

Theorem float_read fl e point s z : point_ok point -> extract e point TFloat s = Ok (XFloating z) ->
  (subnormal 128 (SF2R radix2 z) -> fl_narrow fl = true -> z_extract fl e point TFloat s = Ok (XFloating (S754_zero (sign_SF z)))) /\
  (~ (subnormal 128 (SF2R radix2 z) /\ fl_narrow fl = true) -> z_extract fl e point TFloat s = Ok (XFloating z)).
Proof.
  intros P E. cbn [extract z_extract ExtractFloat bind] in *. injection E as <-. unfold ExtractFloat_float.
  set (x := strtold _ _ _ _) in *. unfold z_narrow. rewrite ld_float.
  pose proof (convert_valid_any 24 128 x float_good) as V.
  rewrite <- (subnormal_iff 24 128 _ float_good V). destruct (fl_narrow fl).
  - split.
    + intros S _. rewrite (flushed_zero _ _ S). reflexivity.
    + intros N. rewrite flushed_not; [reflexivity|]. destruct (sf_subnormal 24 _); [exfalso; tauto|reflexivity].
  - split; [intros _ C; discriminate C|reflexivity].
Qed.

Theorem other_read fl e point t s : t <> TFloat -> t <> TDouble -> z_extract fl e point t s = extract e point t s.
Proof. intros A B. destruct t; try reflexivity; contradiction. Qed.

(** ** Consequences *)

(** Finite doubles that are not subnormal are printed and read back as before. *)
Theorem normal_round_trip fl e u s : nan_ok (e_float e) -> bits64 u -> double_finite u -> double_value u <> 0%R ->
  ~ subnormal 1024 (double_value u) -> z_lexi fl e (VDouble u) = Ok s ->
  fe_ld (e_float e) <> LD80 \/ Z.even u = true ->
  exists z, z_extract fl e "."%char TDouble s = Ok (XFloating z) /\ same_double z u.
Proof.
  intros NO H F N S E L. rewrite (proj2 (double_text fl e u NO H)) in E by tauto.
  destruct (double_read_exact e u s H F N E L) as (z & X & Y). exists z. split; [|exact Y].
  apply (proj2 (double_read fl e "."%char s z dot_ok X)). destruct Y as (_ & _ & R & _). rewrite R. tauto.
Qed.

Theorem normal_float_round_trip fl e u s : nan_ok (e_float e) -> bits32 u -> float_finite u -> float_value u <> 0%R ->
  ~ subnormal 128 (float_value u) -> z_lexi fl e (VFloat u) = Ok s ->
  exists z, z_extract fl e "."%char TFloat s = Ok (XFloating z) /\ same_float z u.
Proof.
  intros NO H F N S E. rewrite (proj2 (float_text fl e u NO H)) in E by tauto.
  destruct (ProofRead3.float_read e u s NO H F N E) as (z & X & Y). exists z. split; [|exact Y].
  apply (proj2 (float_read fl e "."%char s z dot_ok X)). destruct Y as (_ & _ & R & _). rewrite R. tauto.
Qed.

Theorem flush_refuted : exists fl u v, let e := linux_aarch64 zero_memory in
  bits64 u /\ bits64 v /\ double_finite u /\ double_finite v /\ double_value u <> double_value v /\
  z_lexi fl e (VDouble u) = Ok (str "0.0") /\ z_lexi fl e (VDouble v) = Ok (str "0.0") /\
  lexi e (VDouble u) = Ok (str "5e-324") /\ lexi e (VDouble v) = Ok (str "-2.225073858507201e-308").
Proof.
  exists (Flush true false false), 1, 0x800FFFFFFFFFFFFF. cbv zeta.
  split; [split; cbn; lia|]. split; [split; cbn; lia|]. split; [vm_compute; reflexivity|]. split; [vm_compute; reflexivity|].
  split.
  { rewrite <- !double_of_bits_value.
    change (double_of_bits 1) with (S754_finite false 1 (-1074)).
    change (double_of_bits 0x800FFFFFFFFFFFFF) with (S754_finite true 0xFFFFFFFFFFFFF (-1074)).
    cbn [SF2R]. intros X. apply eq_F2R in X. discriminate X. }
  repeat (split; [vm_compute; reflexivity|]). vm_compute. reflexivity.
Qed.

Lemma bounds_case : subnormal 1024 (double_value 1) /\ subnormal 1024 (double_value 0x800FFFFFFFFFFFFF) /\
  ~ subnormal 1024 (double_value 0x0010000000000000) /\ ~ subnormal 1024 (double_value 0) /\
  subnormal 128 (float_value 0x807FFFFF) /\ ~ subnormal 128 (float_value 0x00800000).
Proof.
  rewrite <- !double_of_bits_value, <- !float_of_bits_value.
  repeat split; try (apply (subnormal_iff 53 1024); [exact double_good|vm_compute; reflexivity|vm_compute; reflexivity]);
    try (apply (subnormal_iff 24 128); [exact float_good|vm_compute; reflexivity|vm_compute; reflexivity]);
    try (apply (not_subnormal_iff 53 1024); [exact double_good|vm_compute; reflexivity|vm_compute; reflexivity]);
    apply (not_subnormal_iff 24 128); [exact float_good|vm_compute; reflexivity|vm_compute; reflexivity].
Qed.
