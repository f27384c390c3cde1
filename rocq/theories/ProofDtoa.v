(** dtoa (dtoa.cpp:375-394) and FormatFloat::format (float.cpp:31-50): the text produced,
    buffer safety, termination, independence from the compiler. *)
From Verif Require Import Machine LibMachine SpecApi SpecDecimal SpecIeee ModelIeee ModelDiyfp ModelDtoa
  ModelText ModelFloat ProofDiyfp ProofCached ProofDigits ProofGrisu ProofLayout ProofText ProofIeee.
Open Scope Z_scope.
Ltac Zify.zify_post_hook ::= idtac.

(** ** The exponent range *)

Lemma kappa_range M delta s C ds kap : digits_ok M delta s C ds kap -> (1 <= length ds <= 17)%nat ->
  1 <= C <= 10 -> -16 <= kap <= 9.
Proof. intros D L HC. pose proof (do_length _ _ _ _ _ _ D). lia. Qed.

Lemma decimalCount_range n : 1 <= decimalCount n <= 10.
Proof.
  unfold decimalCount. repeat match goal with |- context [if ?b then _ else _] => destruct b end; lia.
Qed.

Lemma int_count_range M s : 1 <= int_count M s <= 10.
Proof. apply decimalCount_range. Qed.

Lemma grisu_exponent u ds K F E k kap : grisu_ok u ds K F E k kap ->
  -1000 < Z.of_nat (length ds) + K - 1 < 1000.
Proof.
  intros [CK D EK L V]. pose proof (ck_k _ _ _ _ CK).
  pose proof (kappa_range _ _ _ _ _ _ D L (int_count_range _ _)). lia.
Qed.

(** ** The text *)

Definition sign_text (u : Z) : bytes := if sign_field u then ["-"%char] else [].

(** The text as a function of the bit pattern, without buffers. *)
Definition pure_text (tc : toolchain) (u : Z) : outcome bytes :=
  if u mod 2 ^ 63 =? 0 then Ok (str "0.0")
  else let* (ds, K) := pure_grisu tc (u mod 2 ^ 63) in Ok (sign_text u ++ layout ds K).

Lemma abs_finite u : bits64 u -> exp_field u <> 2047 -> u mod 2 ^ 63 <> 0 -> finite_pos (u mod 2 ^ 63).
Proof.
  intros H E N. pose proof (Z.mod_pos_bound u (2 ^ 63) ltac:(lia)).
  split; [lia|]. rewrite (proj1 (fields_mod u H)). exact E.
Qed.

Lemma negate_spec u : bits64 u -> 2 ^ 63 <= u -> double_negate u = u mod 2 ^ 63.
Proof.
  intros H L. unfold double_negate, SIGN_MASK. change 9223372036854775808 with (2 ^ 63).
  rewrite <- Z.land_ones by lia. apply Z.bits_inj'. intros i Hi.
  rewrite Z.lxor_spec, Z.land_spec, Z.pow2_bits_eqb by lia.
  destruct (Z.lt_trichotomy i 63) as [X|[X|X]].
  - rewrite Z.ones_spec_low by lia. replace (63 =? i) with false by lia.
    rewrite andb_true_r. apply xorb_false_r.
  - subst i. rewrite Z.ones_spec_high by lia. rewrite Z.eqb_refl, andb_false_r.
    rewrite xorb_true_r. replace (Z.testbit u 63) with true; [reflexivity|]. symmetry.
    assert (U : u = 2 ^ 63 + u mod 2 ^ 63).
    { pose proof (Z.div_mod u (2 ^ 63) ltac:(lia)).
      assert (u / 2 ^ 63 = 1) as X by (symmetry; apply (Z.div_unique u (2 ^ 63) 1 (u - 2 ^ 63)); unfold bits64 in H; lia).
      rewrite X in *. lia. }
    apply Z.testbit_true; [lia|].
    replace (u / 2 ^ 63) with 1; [reflexivity|]. apply (Z.div_unique u (2 ^ 63) 1 (u - 2 ^ 63)); unfold bits64 in H; lia.
  - rewrite Z.ones_spec_high by lia. replace (63 =? i) with false by lia. rewrite andb_false_r, xorb_false_r.
    apply (Z.bits_above_log2 u i); [unfold bits64 in H; lia|].
    destruct (Z.eq_dec u 0) as [->|]; [cbn; lia|].
    assert (Z.log2 u < 64) by (apply Z.log2_lt_pow2; unfold bits64 in H; lia). lia.
Qed.

Lemma negative_spec u : u mod 2 ^ 63 <> 0 -> double_is_negative u = sign_field u.
Proof.
  intros N. unfold double_is_negative, double_is_zero, sign_field.
  rewrite (proj2 (Z.eqb_neq _ _) N). apply andb_true_r.
Qed.

Lemma holds_new n : holds_digits (new_buf n) [] [] n.
Proof. exists (new_buf n). split; [reflexivity|apply repeat_length]. Qed.

Lemma holds_minus n : holds_digits (Some "-"%char :: new_buf n) ["-"%char] [] (S n).
Proof.
  exists (new_buf n). split; [reflexivity|]. cbn [length]. f_equal. apply repeat_length.
Qed.

(** dtoa on the FormatFloat buffer. *)
Theorem dtoa_ok tc u : lenient tc -> bits64 u -> exp_field u <> 2047 ->
  exists text b', pure_text tc u = Ok text /\
    dtoa tc u (Cursor (new_buf FLOAT_SIZE) 0) = Ok (Cursor b' (Z.of_nat (length text))) /\
    finished b' text FLOAT_SIZE.
Proof.
  intros Ht H E. unfold pure_text, dtoa. change (double_is_zero u) with (u mod 2 ^ 63 =? 0).
  destruct (Z.eqb_spec (u mod 2 ^ 63) 0) as [Z0|N].
  - exists (str "0.0"). eexists. split; [reflexivity|]. split; [reflexivity|].
    eexists. split; reflexivity.
  - destruct (grisu2_ok tc _ Ht (abs_finite u H E N)) as (ds & K & F & X & k & kap & P & G & _ & R).
    rewrite P. cbn [bind]. exists (sign_text u ++ layout ds K).
    pose proof (grisu_exponent _ _ _ _ _ _ _ G) as HK. pose proof (go_length _ _ _ _ _ _ _ G) as L.
    pose proof (layout_length ds K L HK) as LL.
    rewrite negative_spec by exact N. unfold sign_text. destruct (sign_field u) eqn:S.
    + rewrite negate_spec by (unfold sign_field in S; lia || exact H).
      destruct (R (Some "-"%char :: new_buf 29) ["-"%char] 30%nat (holds_minus 29)) as (b1 & E1 & H1);
        [cbn; lia|].
      destruct (prettify_ok b1 ["-"%char] ds K 30 H1) as (b2 & E2 & H2); [lia|exact HK|cbn [length]; lia|].
      exists b2. split; [reflexivity|]. split; [|exact H2].
      cbn [length] in E1, E2. change (Z.of_nat 1) with 1 in E1, E2.
      change (put (Cursor (new_buf FLOAT_SIZE) 0) "-"%char)
        with (Ok (Cursor (Some "-"%char :: new_buf 29) 1)). cbn [bind cbuf cpos].
      rewrite E1. cbn [bind]. exact E2.
    + replace (u mod 2 ^ 63) with u in *
        by (symmetry; apply Z.mod_small; unfold sign_field in S; unfold bits64 in H; lia).
      destruct (R (new_buf 30) [] 30%nat (holds_new 30)) as (b1 & E1 & H1); [cbn; lia|].
      destruct (prettify_ok b1 [] ds K 30 H1) as (b2 & E2 & H2); [lia|exact HK|cbn [length]; lia|].
      exists b2. split; [reflexivity|]. split; [|exact H2].
      cbn [bind cbuf cpos]. change (Z.of_nat (length [])) with 0 in E1, E2.
      change (new_buf FLOAT_SIZE) with (new_buf 30). rewrite E1. cbn [bind]. exact E2.
Qed.

(** ** FormatFloat *)

(** The object shows the text [s] through all its accessors. *)
Definition FormatFloat_holds (o : FormatFloat) (s : bytes) : Prop :=
  FormatFloat_string o = Ok s /\ FormatFloat_size o = Z.of_nat (length s) /\
  length (ff_buffer o) = FLOAT_SIZE /\
  (Forall (fun c => c <> NUL) s -> FormatFloat_c_str o = Ok s) /\
  buf_read (ff_buffer o) (Z.of_nat (length s)) = Ok NUL.

Lemma float_holds_intro b s : finished b s FLOAT_SIZE ->
  FormatFloat_holds (MkFormatFloat b 0 (Z.of_nat (length s))) s.
Proof.
  intros (t & -> & L).
  unfold FormatFloat_holds, FormatFloat_string, FormatFloat_size, FormatFloat_c_str; cbn [ff_buffer ff_first ff_last].
  rewrite Z.sub_0_r, Nat2Z.id. repeat split.
  - apply (buf_read_n_app []).
  - exact L.
  - intros H. apply (buf_c_string_app _ []); [exact H|].
    rewrite app_length, map_length. cbn [length]. lia.
  - rewrite <- (map_length (@Some ascii) s) at 1. apply buf_read_app.
Qed.

Lemma special_ok s : (length s < FLOAT_SIZE)%nat ->
  exists o, special s = Ok o /\ FormatFloat_holds o s.
Proof.
  intros H. unfold special. rewrite strncpy_literal by exact H. cbn [bind].
  eexists. split; [reflexivity|]. apply float_holds_intro.
  eexists. split; [reflexivity|].
  rewrite app_length, map_length. cbn [length]. unfold new_buf. rewrite repeat_length. lia.
Qed.

(** ** Classification *)

Lemma land_exp u : bits64 u -> Z.land u EXPONENT_MASK = exp_field u * 2 ^ 52.
Proof.
  intros H. unfold EXPONENT_MASK, exp_field. change 0x7FF0000000000000 with (Z.shiftl (Z.ones 11) 52).
  rewrite <- Z.land_ones, <- Z.shiftr_div_pow2, <- Z.shiftl_mul_pow2 by lia.
  rewrite Z.shiftl_land, <- Z.ldiff_ones_r by lia.
  apply Z.bits_inj'. intros i Hi. rewrite !Z.land_spec, Z.ldiff_spec.
  destruct (Z_lt_le_dec i 52) as [L|L].
  - rewrite (Z.shiftl_spec_low _ _ _ L). rewrite !andb_false_r. reflexivity.
  - rewrite (Z.ones_spec_high 52) by lia. rewrite andb_true_r. reflexivity.
Qed.

Lemma land_frac u : Z.land u SIGNIFICAND_MASK = frac_field u.
Proof.
  unfold SIGNIFICAND_MASK, frac_field. change 0x000FFFFFFFFFFFFF with (Z.ones 52).
  apply Z.land_ones. lia.
Qed.

Lemma isFinite_iff u : bits64 u -> isFinite u = true <-> exp_field u <> 2047.
Proof.
  intros H. unfold isFinite. rewrite land_exp by exact H. unfold EXPONENT_MASK. 
  change 0x7FF0000000000000 with (2047 * 2 ^ 52). lia.
Qed.

Lemma isNan_iff u : bits64 u -> isNan u = true <-> exp_field u = 2047 /\ frac_field u <> 0.
Proof.
  intros H. unfold isNan. pose proof (isFinite_iff u H) as F. rewrite land_frac.
  destruct (isFinite u); cbn [negb andb]; split.
  - discriminate.
  - intros [X _]. exfalso. apply F; [reflexivity|exact X].
  - intros X. split; [|lia]. destruct (Z.eq_dec (exp_field u) 2047) as [|Y]; [assumption|].
    apply F in Y. discriminate.
  - lia.
Qed.

Lemma isInf_iff u : bits64 u -> isInf u = true <-> exp_field u = 2047 /\ frac_field u = 0.
Proof.
  intros H. unfold isInf. pose proof (isFinite_iff u H) as F. rewrite land_frac.
  destruct (isFinite u); cbn [negb andb]; split.
  - discriminate.
  - intros [X _]. exfalso. apply F; [reflexivity|exact X].
  - intros X. split; [|lia]. destruct (Z.eq_dec (exp_field u) 2047) as [|Y]; [assumption|].
    apply F in Y. discriminate.
  - lia.
Qed.

(** A pattern is determined by its fields. *)
Lemma fields_eq u : bits64 u ->
  u = (if sign_field u then 2 ^ 63 else 0) + exp_field u * 2 ^ 52 + frac_field u.
Proof.
  intros H. unfold exp_field, frac_field, sign_field.
  pose proof (Z.div_mod u (2 ^ 52) ltac:(lia)) as D.
  pose proof (Z.mod_pos_bound u (2 ^ 52) ltac:(lia)) as R.
  set (q := u / 2 ^ 52) in *. set (r := u mod 2 ^ 52) in *.
  assert (Hq : 0 <= q < 2 ^ 12) by (unfold bits64 in H; lia).
  destruct (Z.leb_spec (2 ^ 63) u).
  - replace (q mod 2 ^ 11) with (q - 2 ^ 11) by (apply (Z.mod_unique q (2 ^ 11) 1); lia). lia.
  - rewrite Z.mod_small by lia. lia.
Qed.

Lemma isInfinity_iff u : bits64 u ->
  isInfinity u = true <-> exp_field u = 2047 /\ frac_field u = 0 /\ sign_field u = false.
Proof.
  intros H. unfold isInfinity, INFINITY. split.
  - intros E. apply Z.eqb_eq in E. subst u. repeat split; reflexivity.
  - intros (E & F & S). rewrite (fields_eq u H), E, F, S. reflexivity.
Qed.

Lemma isNegativeInfinity_iff u : bits64 u ->
  isNegativeInfinity u = true <-> exp_field u = 2047 /\ frac_field u = 0 /\ sign_field u = true.
Proof.
  intros H. unfold isNegativeInfinity, NEGATIVE_INFINITY. split.
  - intros E. apply Z.eqb_eq in E. subst u. repeat split; reflexivity.
  - intros (E & F & S). rewrite (fields_eq u H), E, F, S. reflexivity.
Qed.

Lemma mod63_fields u : bits64 u -> u mod 2 ^ 63 = exp_field u * 2 ^ 52 + frac_field u.
Proof.
  intros H. pose proof (fields_eq u H) as E.
  pose proof (exp_field_range u). pose proof (Z.mod_pos_bound u (2 ^ 52) ltac:(lia)) as F. fold (frac_field u) in F.
  destruct (sign_field u).
  - symmetry. apply (Z.mod_unique u (2 ^ 63) 1); lia.
  - rewrite Z.mod_small; lia.
Qed.

Lemma isZero_iff u : bits64 u -> isZero u = true <-> u mod 2 ^ 63 = 0.
Proof.
  intros H. unfold isZero. change (Z.lor EXPONENT_MASK SIGNIFICAND_MASK) with (Z.ones 63).
  rewrite Z.land_ones by lia. lia.
Qed.

Lemma isPositive_iff u : bits64 u -> isPositive u = true <-> sign_field u = false.
Proof.
  intros H. unfold isPositive, SIGN_MASK, sign_field. change 0x8000000000000000 with (2 ^ 63).
  assert (E : Z.land u (2 ^ 63) = if Z.testbit u 63 then 2 ^ 63 else 0).
  { apply Z.bits_inj'. intros i Hi. rewrite Z.land_spec, Z.pow2_bits_eqb by lia.
    destruct (Z.eqb_spec 63 i) as [<-|N].
    - destruct (Z.testbit u 63); reflexivity.
    - rewrite andb_false_r. destruct (Z.testbit u 63); [|symmetry; apply Z.bits_0].
      symmetry. apply Z.pow2_bits_false. lia. }
  rewrite E.
  assert (T : Z.testbit u 63 = (2 ^ 63 <=? u)).
  { destruct (Z.leb_spec (2 ^ 63) u).
    - apply Z.testbit_true; [lia|]. replace (u / 2 ^ 63) with 1; [reflexivity|].
      apply (Z.div_unique u (2 ^ 63) 1 (u - 2 ^ 63)); unfold bits64 in H; lia.
    - apply Z.testbit_false; [lia|]. rewrite Z.div_small by (unfold bits64 in H; lia). reflexivity. }
  rewrite T. destruct (2 ^ 63 <=? u); split; intros X; try reflexivity; discriminate.
Qed.

(** ** format *)

Definition float_text (env : float_env) (u : Z) : outcome bytes :=
  if isFinite u then pure_text (fe_tc env) u
  else if isNan u then Ok (lit_nan (fe_lit env))
  else if isInfinity u then Ok (lit_infinity (fe_lit env))
  else Ok (lit_negative_infinity (fe_lit env)).

Theorem format_bits_ok env u : lenient (fe_tc env) -> float_literals_ok (fe_lit env) -> bits64 u ->
  exists o text, format_bits env u = Ok o /\ float_text env u = Ok text /\ FormatFloat_holds o text.
Proof.
  intros Ht (L1 & L2 & L3) H. unfold format_bits, float_text. destruct (isFinite u) eqn:F; cbn [negb].
  - destruct (dtoa_ok (fe_tc env) u Ht H) as (text & b & P & D & FI); [apply isFinite_iff; assumption|].
    rewrite D. cbn [bind cbuf cpos]. eexists. exists text. split; [reflexivity|]. split; [exact P|].
    apply float_holds_intro. exact FI.
  - destruct (isNan u); [|destruct (isInfinity u)].
    + destruct (special_ok _ L1) as (o & E & R). exists o. eexists. eauto.
    + destruct (special_ok _ L2) as (o & E & R). exists o. eexists. eauto.
    + destruct (special_ok _ L3) as (o & E & R). exists o. eexists. eauto.
Qed.
