(** The standard library's executable rounding functions, which the model of conversions
    and of [strtold] uses, round correctly; conversions between formats; bit patterns. *)
From Coq Require Import Reals Lra Psatz.
From Flocq Require Import Core IEEE754.BinarySingleNaN IEEE754.Binary IEEE754.Bits.
From Verif Require Import Machine LibMachine SpecApi SpecDecimal SpecNumber SpecIeee SpecRead ModelIeee ModelDiyfp ModelDtoa ModelFloat
  ProofDiyfp ProofCached ProofDigits ProofGrisu ProofIeee.
Open Scope Z_scope.
Ltac Zify.zify_post_hook ::= idtac.

(** ** The standard library's functions are Flocq's, to nearest even *)

Lemma round_nearest_even_equiv s m l :
  SpecFloat.round_nearest_even m l = choice_mode mode_NE s m l.
Proof.
  destruct l as [|c]; [reflexivity|]. destruct c; [|reflexivity..].
  cbn. unfold Round.cond_incr. now destruct (Z.even m).
Qed.

Lemma binary_round_aux_equiv prec emax sx mx ex lx :
  SpecFloat.binary_round_aux prec emax sx mx ex lx =
  BinarySingleNaN.binary_round_aux prec emax mode_NE sx mx ex lx.
Proof.
  unfold SpecFloat.binary_round_aux, BinarySingleNaN.binary_round_aux.
  destruct (shr_fexp prec emax mx ex lx) as [mrs' e']. cbn.
  now rewrite (round_nearest_even_equiv sx).
Qed.

Lemma binary_round_equiv prec emax s m e :
  SpecFloat.binary_round prec emax s m e = BinarySingleNaN.binary_round prec emax mode_NE s m e.
Proof.
  unfold SpecFloat.binary_round, BinarySingleNaN.binary_round, BinarySingleNaN.shl_align_fexp.
  destruct (shl_align _ _ _) as [mz ez]. apply binary_round_aux_equiv.
Qed.

(** ** Correct rounding of a real *)

(** The formats in play. *)
Definition good_format (prec emax : Z) : Prop := 0 < prec /\ prec < emax.

Lemma ld_good f : good_format (ld_prec f) (ld_emax f).
Proof. destruct f; split; cbn; lia. Qed.
Lemma double_good : good_format 53 1024. Proof. split; lia. Qed.
Lemma float_good : good_format 24 128. Proof. split; lia. Qed.

Lemma binary_round_rounded prec emax s m e : good_format prec emax ->
  rounded prec emax (SpecFloat.binary_round prec emax s m e) s
    (F2R (Float radix2 (cond_Zopp s (Zpos m)) e)).
Proof.
  intros [Hp He]. rewrite binary_round_equiv.
  pose proof (@BinarySingleNaN.binary_round_correct prec emax Hp He mode_NE s m e) as H. cbv zeta in H.
  exact H.
Qed.

Lemma binary_normalize_rounded prec emax s m e : good_format prec emax ->
  rounded prec emax (SpecFloat.binary_normalize prec emax (cond_Zopp s (Zpos m)) e s) s
    (F2R (Float radix2 (cond_Zopp s (Zpos m)) e)).
Proof.
  intros G. destruct s;
    [exact (binary_round_rounded prec emax true m e G)|exact (binary_round_rounded prec emax false m e G)].
Qed.

Lemma div_rounded prec emax s d q : good_format prec emax ->
  rounded prec emax
    (let '(m, e, l) := SpecFloat.SFdiv_core_binary prec emax (Zpos d) 0 (Zpos q) 0 in
     SpecFloat.binary_round_aux prec emax s m e l) s
    (F2R (Float radix2 (cond_Zopp s (Zpos d)) 0) / IZR (Zpos q)).
Proof.
  intros [Hp He].
  pose proof (@BinarySingleNaN.Bdiv_correct_aux prec emax Hp He mode_NE s d 0 false q 0) as H. cbv zeta in H.
  destruct (SpecFloat.SFdiv_core_binary prec emax (Z.pos d) 0 (Z.pos q) 0) as [[m e] l].
  rewrite xorb_false_r in H. rewrite binary_round_aux_equiv.
  replace (F2R (Float radix2 (cond_Zopp false (Zpos q)) 0)) with (IZR (Zpos q)) in H
    by (unfold F2R; cbn [Fnum Fexp cond_Zopp bpow]; ring).
  exact H.
Qed.

(** The signed decimal [D * 10^K]. *)
Definition decimal_R (neg : bool) (D K : Z) : R :=
  IZR (cond_Zopp neg D) * bpow radix10 K.

Lemma round_decimal_rounded prec emax neg D K : good_format prec emax -> 0 < D ->
  rounded prec emax (round_decimal prec emax neg D K) neg (decimal_R neg D K).
Proof.
  intros G HD. destruct D as [|d|d]; [lia| |lia]. unfold round_decimal, decimal_R.
  destruct (Z.leb_spec 0 K) as [HK|HK].
  - assert (P : 0 < 10 ^ K) by (apply Z.pow_pos_nonneg; lia).
    destruct (Zpos d * 10 ^ K) as [|x|x] eqn:X; [lia| |lia].
    pose proof (binary_normalize_rounded prec emax neg x 0 G) as H.
    replace (F2R (Float radix2 (cond_Zopp neg (Zpos x)) 0))
      with (IZR (cond_Zopp neg (Zpos d)) * bpow radix10 K)%R in H; [exact H|].
    rewrite <- X. unfold F2R. cbn [Fnum Fexp bpow]. rewrite Rmult_1_r, <- pow10_bpow by lia.
    rewrite <- mult_IZR. f_equal. destruct neg; cbn [cond_Zopp]; lia.
  - assert (P : 0 < 10 ^ (- K)) by (apply Z.pow_pos_nonneg; lia).
    destruct (10 ^ (- K)) as [|q|q] eqn:Q; [lia| |lia].
    pose proof (div_rounded prec emax neg d q G) as H.
    replace (F2R (Float radix2 (cond_Zopp neg (Zpos d)) 0) / IZR (Zpos q))%R
      with (IZR (cond_Zopp neg (Zpos d)) * bpow radix10 K)%R in H; [exact H|].
    rewrite <- Q, pow10_bpow by lia. unfold F2R. cbn [Fnum Fexp]. rewrite bpow_opp.
    cbn [bpow]. unfold Rdiv. rewrite Rinv_inv. ring.
Qed.

(** ** Equality of floats *)

Lemma sf_inj prec emax a b :
  SpecFloat.valid_binary prec emax a = true -> SpecFloat.valid_binary prec emax b = true ->
  is_finite_SF a = true -> is_finite_SF b = true ->
  SF2R radix2 a = SF2R radix2 b -> sign_SF a = sign_SF b -> a = b.
Proof.
  intros Va Vb Fa Fb R S.
  rewrite <- (B2SF_SF2B prec emax a Va), <- (B2SF_SF2B prec emax b Vb).
  f_equal. apply BinarySingleNaN.B2R_Bsign_inj.
  - rewrite is_finite_SF2B. exact Fa.
  - rewrite is_finite_SF2B. exact Fb.
  - rewrite !B2R_SF2B. exact R.
  - rewrite !Bsign_SF2B. exact S.
Qed.

Lemma rounded_unique prec emax a b s x : rounded prec emax a s x -> rounded prec emax b s x -> a = b.
Proof.
  intros [Va Ha] [Vb Hb]. destruct (Rlt_bool _ _).
  - destruct Ha as (A1 & A2 & A3), Hb as (B1 & B2 & B3).
    eapply sf_inj; eauto; congruence.
  - congruence.
Qed.

(** A finite float is the rounding of any real that rounds to its value. *)
Lemma rounded_value prec emax z s x a :
  rounded prec emax z s x ->
  SpecFloat.valid_binary prec emax a = true -> is_finite_SF a = true -> sign_SF a = s ->
  nearest prec emax x = SF2R radix2 a -> z = a.
Proof.
  intros [Vz Hz] Va Fa Sa N. rewrite N in Hz.
  rewrite Rlt_bool_true in Hz.
  - destruct Hz as (Z1 & Z2 & Z3). eapply sf_inj; eauto; congruence.
  - rewrite <- (B2R_SF2B prec emax a Va). apply BinarySingleNaN.abs_B2R_lt_emax.
Qed.

(** ** Conversions *)

Lemma sf_format prec emax a : good_format prec emax ->
  SpecFloat.valid_binary prec emax a = true -> is_finite_SF a = true ->
  generic_format radix2 (binary_format prec emax) (SF2R radix2 a) /\
  (Rabs (SF2R radix2 a) < bpow radix2 emax)%R.
Proof.
  intros [Hp He] Va Fa. rewrite <- (B2R_SF2B prec emax a Va). split.
  - apply (BinarySingleNaN.generic_format_B2R prec emax).
  - apply BinarySingleNaN.abs_B2R_lt_emax.
Qed.

Lemma nearest_exact prec emax x : 0 < prec ->
  generic_format radix2 (binary_format prec emax) x -> nearest prec emax x = x.
Proof. intros Hp H. apply round_generic; [apply valid_rnd_N|exact H]. Qed.

Lemma SF2R_finite s m e : SF2R radix2 (S754_finite s m e) = F2R (Float radix2 (cond_Zopp s (Zpos m)) e).
Proof. reflexivity. Qed.

(** Converting a finite float rounds its value. *)
Lemma convert_rounded prec emax s m e : good_format prec emax ->
  rounded prec emax (convert prec emax (S754_finite s m e)) s (SF2R radix2 (S754_finite s m e)).
Proof. intros G. apply (binary_normalize_rounded _ _ _ _ _ G). Qed.

(** Converting to a format that contains the value changes nothing. *)
Lemma convert_exact prec emax a : good_format prec emax -> is_finite_SF a = true ->
  generic_format radix2 (binary_format prec emax) (SF2R radix2 a) ->
  (Rabs (SF2R radix2 a) < bpow radix2 emax)%R ->
  SpecFloat.valid_binary prec emax (convert prec emax a) = true /\
  is_finite_SF (convert prec emax a) = true /\
  sign_SF (convert prec emax a) = sign_SF a /\
  SF2R radix2 (convert prec emax a) = SF2R radix2 a.
Proof.
  intros G Fa GF B. destruct a as [s|s| |s m e]; try discriminate Fa; [cbn; auto|].
  destruct (convert_rounded prec emax s m e G) as [V H].
  rewrite (nearest_exact _ _ _ (proj1 G) GF) in H. rewrite Rlt_bool_true in H by exact B.
  destruct H as (H1 & H2 & H3). auto.
Qed.

(** Inclusion of formats. *)
Lemma format_incl p1 e1 p2 e2 x : p1 <= p2 -> e1 + p1 <= e2 + p2 ->
  generic_format radix2 (binary_format p1 e1) x -> generic_format radix2 (binary_format p2 e2) x.
Proof.
  intros Hp He. unfold binary_format.
  apply generic_inclusion_mag. intros _. unfold FLT_exp. lia.
Qed.

Lemma ld_incl_double f x : generic_format radix2 (binary_format 53 1024) x ->
  generic_format radix2 (binary_format (ld_prec f) (ld_emax f)) x.
Proof. apply format_incl; destruct f; cbn; lia. Qed.

Lemma emax_ld f : 1024 <= ld_emax f.
Proof. destruct f; cbn; lia. Qed.

(** Conversion to a wider format and back. *)
Lemma convert_back p1 e1 p2 e2 a : good_format p1 e1 -> good_format p2 e2 ->
  p1 <= p2 -> e1 <= e2 -> SpecFloat.valid_binary p1 e1 a = true ->
  convert p1 e1 (convert p2 e2 a) = a.
Proof.
  intros G1 G2 Hp He Va. destruct a as [s|s| |s m e]; [reflexivity..|].
  set (a := S754_finite s m e) in *.
  assert (Fa : is_finite_SF a = true) by reflexivity.
  destruct (sf_format p1 e1 a G1 Va Fa) as [GF B].
  assert (B2 : (Rabs (SF2R radix2 a) < bpow radix2 e2)%R).
  { eapply Rlt_le_trans; [exact B|]. apply bpow_le. exact He. }
  destruct (convert_exact p2 e2 a G2 Fa) as (V & F & S & R); [|exact B2|].
  { apply (format_incl p1 e1); [exact Hp|lia|exact GF]. }
  destruct (convert_exact p1 e1 (convert p2 e2 a) G1 F) as (V' & F' & S' & R').
  { rewrite R. exact GF. } { rewrite R. exact B. }
  eapply sf_inj; eauto; congruence.
Qed.

(** ** Bit patterns *)

Lemma sf_of_bits_FF mw ew u : 0 < mw -> 0 < ew ->
  sf_of_bits mw ew u =
  match binary_float_of_bits_aux mw ew u with
  | F754_zero s => S754_zero s
  | F754_infinity s => S754_infinity s
  | F754_nan _ _ => S754_nan
  | F754_finite s m e => S754_finite s m e
  end.
Proof.
  intros Hm He. unfold binary_float_of_bits_aux, split_bits, sf_of_bits. rewrite !Zeq_bool_eqb.
  change (Zle_bool (2 ^ mw * 2 ^ ew) u) with (2 ^ mw * 2 ^ ew <=? u).
  rewrite Z.pow_add_r by lia.
  assert (P : 0 < 2 ^ mw) by (apply Z.pow_pos_nonneg; lia).
  pose proof (Z.mod_pos_bound u (2 ^ mw) P) as M.
  set (s := 2 ^ mw * 2 ^ ew <=? u). set (e := (u / 2 ^ mw) mod 2 ^ ew).
  set (m := u mod 2 ^ mw) in *. clearbody s e m.
  replace (3 - 2 ^ (ew - 1) - (mw + 1)) with (SpecFloat.emin (mw + 1) (2 ^ (ew - 1)))
    by (unfold SpecFloat.emin; lia).
  destruct (e =? 0).
  - destruct m as [|p|p]; [reflexivity|reflexivity|lia].
  - destruct (e =? 2 ^ ew - 1).
    + destruct m as [|p|p]; [reflexivity|reflexivity|lia].
    + destruct (m + 2 ^ mw) as [|p|p] eqn:X; [lia| |lia].
      replace (SpecFloat.emin (mw + 1) (2 ^ (ew - 1)) + e - 1)
        with (e + SpecFloat.emin (mw + 1) (2 ^ (ew - 1)) - 1) by lia. reflexivity.
Qed.

Lemma double_of_bits_FF u :
  double_of_bits u =
  match binary_float_of_bits_aux 52 11 u with
  | F754_zero s => S754_zero s
  | F754_infinity s => S754_infinity s
  | F754_nan _ _ => S754_nan
  | F754_finite s m e => S754_finite s m e
  end.
Proof. apply sf_of_bits_FF; lia. Qed.
Lemma float_of_bits_FF u :
  float_of_bits u =
  match binary_float_of_bits_aux 23 8 u with
  | F754_zero s => S754_zero s
  | F754_infinity s => S754_infinity s
  | F754_nan _ _ => S754_nan
  | F754_finite s m e => S754_finite s m e
  end.
Proof. apply sf_of_bits_FF; lia. Qed.

Lemma valid_FF prec emax f : Binary.valid_binary prec emax f = true ->
  SpecFloat.valid_binary prec emax match f with
  | F754_zero s => S754_zero s
  | F754_infinity s => S754_infinity s
  | F754_nan _ _ => S754_nan
  | F754_finite s m e => S754_finite s m e
  end = true.
Proof. destruct f; auto. Qed.

Lemma double_of_bits_valid u : SpecFloat.valid_binary 53 1024 (double_of_bits u) = true.
Proof.
  rewrite double_of_bits_FF. apply valid_FF.
  pose proof (binary_float_of_bits_aux_correct 52 11 ltac:(lia) ltac:(lia) ltac:(cbn; lia) u) as H.
  exact H.
Qed.
Lemma float_of_bits_valid u : SpecFloat.valid_binary 24 128 (float_of_bits u) = true.
Proof.
  rewrite float_of_bits_FF. apply valid_FF.
  pose proof (binary_float_of_bits_aux_correct 23 8 ltac:(lia) ltac:(lia) ltac:(cbn; lia) u) as H.
  exact H.
Qed.

Lemma double_of_bits_value u : SF2R radix2 (double_of_bits u) = double_value u.
Proof.
  unfold double_value. rewrite b64_value, double_of_bits_FF.
  destruct (binary_float_of_bits_aux 52 11 u); reflexivity.
Qed.
Lemma double_of_bits_finite u : is_finite_SF (double_of_bits u) = true <-> double_finite u.
Proof.
  unfold double_finite. rewrite b64_finite, double_of_bits_FF.
  destruct (binary_float_of_bits_aux 52 11 u); reflexivity.
Qed.
Lemma double_of_bits_nan u : double_of_bits u = S754_nan <-> double_nan u.
Proof.
  unfold double_nan. rewrite b64_nan, double_of_bits_FF.
  destruct (binary_float_of_bits_aux 52 11 u); cbn; split; congruence.
Qed.
Lemma double_of_bits_sign u : ~ double_nan u -> sign_SF (double_of_bits u) = double_sign u.
Proof.
  unfold double_sign, double_nan. rewrite b64_nan, b64_sign, double_of_bits_FF.
  destruct (binary_float_of_bits_aux 52 11 u); try reflexivity. intros H. contradiction H. reflexivity.
Qed.
Lemma float_of_bits_value u : SF2R radix2 (float_of_bits u) = float_value u.
Proof.
  unfold float_value. rewrite b32_value, float_of_bits_FF.
  destruct (binary_float_of_bits_aux 23 8 u); reflexivity.
Qed.
Lemma float_of_bits_finite u : is_finite_SF (float_of_bits u) = true <-> float_finite u.
Proof.
  unfold float_finite. rewrite b32_finite, float_of_bits_FF.
  destruct (binary_float_of_bits_aux 23 8 u); reflexivity.
Qed.

(** The pattern of a double, and back. *)
Lemma fields_join s e m : 0 <= e < 2 ^ 11 -> 0 <= m < 2 ^ 52 ->
  let u := (if s : bool then 2 ^ 63 else 0) + e * 2 ^ 52 + m in
  bits64 u /\ sign_field u = s /\ exp_field u = e /\ frac_field u = m.
Proof.
  intros He Hm. cbv zeta. unfold bits64, sign_field, exp_field, frac_field.
  split; [destruct s; lia|]. split; [destruct s; destruct (Z.leb_spec (2 ^ 63)
    ((if true then 2 ^ 63 else 0) + e * 2 ^ 52 + m)); try (apply Z.leb_le; lia); try (apply Z.leb_gt; lia); lia|].
  set (q := (if s then 2 ^ 11 else 0) + e).
  assert (D : (if s then 2 ^ 63 else 0) + e * 2 ^ 52 + m = m + q * 2 ^ 52) by (unfold q; destruct s; lia).
  rewrite D. split.
  - rewrite Z.div_add by lia. rewrite (Z.div_small m) by lia. unfold q.
    destruct s.
    + replace (0 + (2 ^ 11 + e)) with (e + 1 * 2 ^ 11) by lia. rewrite Z.mod_add by lia. apply Z.mod_small. lia.
    + apply Z.mod_small. lia.
  - rewrite Z.mod_add by lia. apply Z.mod_small. lia.
Qed.

Lemma fields_split u : bits64 u ->
  u = (if sign_field u then 2 ^ 63 else 0) + exp_field u * 2 ^ 52 + frac_field u.
Proof.
  intros [H0 H1]. unfold sign_field, exp_field, frac_field.
  pose proof (Z.div_mod u (2 ^ 52) ltac:(lia)) as D.
  pose proof (Z.mod_pos_bound u (2 ^ 52) ltac:(lia)) as M.
  set (q := u / 2 ^ 52) in *. set (r := u mod 2 ^ 52) in *.
  assert (Q : 0 <= q < 2 ^ 12) by lia.
  destruct (Z.leb_spec (2 ^ 63) u) as [L|L].
  - replace (q mod 2 ^ 11) with (q - 2 ^ 11); [lia|].
    replace q with ((q - 2 ^ 11) + 1 * 2 ^ 11) at 2 by lia. rewrite Z.mod_add by lia.
    symmetry. apply Z.mod_small. lia.
  - rewrite (Z.mod_small q) by lia. lia.
Qed.

Lemma bits_of_double_of_bits nan u : bits64 u -> ~ double_nan u ->
  bits_of_double nan (double_of_bits u) = u.
Proof.
  intros H N. rewrite double_nan_iff in N by exact H.
  rewrite double_of_bits_FF, b64_aux by exact H.
  pose proof (exp_field_range u) as E.
  pose proof (Z.mod_pos_bound u (2 ^ 52) ltac:(lia)) as F. fold (frac_field u) in F.
  transitivity ((if sign_field u then 2 ^ 63 else 0) + exp_field u * 2 ^ 52 + frac_field u);
    [|symmetry; exact (fields_split u H)].
  destruct (Z.eqb_spec (exp_field u) 2047) as [E2|E2].
  - destruct (frac_field u) as [|p|p]; [|exfalso; apply N; split; [exact E2|discriminate]|lia].
    cbn [bits_of_double]. rewrite E2. lia.
  - unfold dbl_f, dbl_e. destruct (Z.eqb_spec (exp_field u) 0) as [E0|E0].
    + destruct (frac_field u) as [|p|p]; [| |lia]; cbn [bits_of_double].
      * rewrite E0. lia.
      * destruct (Z.ltb_spec (Zpos p) (2 ^ 52)); [|lia]. rewrite E0. lia.
    + destruct (frac_field u + 2 ^ 52) as [|p|p] eqn:X; [lia| |lia].
      cbn [bits_of_double]. destruct (Z.ltb_spec (Zpos p) (2 ^ 52)); [lia|]. lia.
Qed.

Lemma double_of_bits_of_double nan z : SpecFloat.valid_binary 53 1024 z = true -> z <> S754_nan ->
  bits64 (bits_of_double nan z) /\ double_of_bits (bits_of_double nan z) = z.
Proof.
  intros V N.
  assert (J : forall s e m, 0 <= e < 2 ^ 11 -> 0 <= m < 2 ^ 52 ->
    bits_of_double nan z = (if s : bool then 2 ^ 63 else 0) + e * 2 ^ 52 + m ->
    z = (if e =? 2047 then match m with Zpos p => S754_nan | _ => S754_infinity s end
         else match (if e =? 0 then m else m + 2 ^ 52) with
              | Zpos p => S754_finite s p (if e =? 0 then -1074 else e - 1075)
              | _ => S754_zero s end) ->
    bits64 (bits_of_double nan z) /\ double_of_bits (bits_of_double nan z) = z).
  { intros s e m He Hm Eq Ez. destruct (fields_join s e m He Hm) as (B & S & X & M).
    rewrite <- Eq in *. split; [exact B|]. rewrite double_of_bits_FF, b64_aux by exact B.
    unfold dbl_f, dbl_e. rewrite S, X, M, Ez.
    destruct (e =? 2047); [destruct m; reflexivity|]. destruct (if e =? 0 then m else m + 2 ^ 52); reflexivity. }
  destruct z as [s|s| |s m e].
  - apply (J s 0 0); try lia; try reflexivity. cbn [bits_of_double]. lia.
  - apply (J s 2047 0); try lia; try reflexivity. cbn [bits_of_double]. lia.
  - contradiction.
  - cbn [SpecFloat.valid_binary] in V. unfold SpecFloat.bounded in V.
    apply andb_prop in V as [C B]. apply Z.leb_le in B. unfold SpecFloat.canonical_mantissa in C.
    apply Zeq_bool_eq in C. unfold SpecFloat.fexp, SpecFloat.emin in C.
    rewrite Digits.Zpos_digits2_pos in C.
    pose proof (Digits.Zdigits_correct radix2 (Zpos m)) as D.
    set (d := Digits.Zdigits radix2 (Zpos m)) in *.
    assert (Dp : 0 < d) by (apply Digits.Zdigits_gt_0; discriminate).
    change (Z.abs (Zpos m)) with (Zpos m) in D. change (radix_val radix2) with 2 in D.
    destruct (Z.ltb_spec (Zpos m) (2 ^ 52)) as [L|L].
    + assert (Dd : d <= 52).
      { apply Z.nlt_ge. intros X. assert (2 ^ 52 <= 2 ^ (d - 1)) by (apply Z.pow_le_mono_r; lia). lia. }
      apply (J s 0 (Zpos m)); try lia.
      * cbn [bits_of_double]. rewrite (proj2 (Z.ltb_lt _ _) L). lia.
      * cbn. f_equal. lia.
    + assert (Dd : 53 <= d).
      { apply Z.nlt_ge. intros X. assert (2 ^ d <= 2 ^ 52) by (apply Z.pow_le_mono_r; lia). lia. }
      assert (De : d = 53) by lia. rewrite De in D.
      apply (J s (e + 1075) (Zpos m - 2 ^ 52)); try lia.
      * cbn [bits_of_double]. rewrite (proj2 (Z.ltb_ge _ _) L). lia.
      * destruct (Z.eqb_spec (e + 1075) 2047); [lia|]. destruct (Z.eqb_spec (e + 1075) 0); [lia|].
        replace (Zpos m - 2 ^ 52 + 2 ^ 52) with (Zpos m) by lia. f_equal. lia.
Qed.

(** ** What the constructors format *)

Lemma bits_of_nan nan : bits_of_double nan S754_nan = nan.
Proof. reflexivity. Qed.

Lemma double_bits env u : bits64 u ->
  FormatFloat_double env u = format_bits env (if (exp_field u =? 2047) && negb (frac_field u =? 0) then fe_nan env else u).
Proof.
  intros H. unfold FormatFloat_double, format.
  rewrite (convert_back 53 1024 _ _ _ double_good (ld_good (fe_ld env))).
  - pose proof (double_nan_iff u H) as N.
    destruct (Z.eqb_spec (exp_field u) 2047) as [E|E], (Z.eqb_spec (frac_field u) 0) as [F|F]; cbn [andb negb].
    2:{ assert (X : double_nan u) by tauto. apply double_of_bits_nan in X. rewrite X. reflexivity. }
    all: rewrite bits_of_double_of_bits; [reflexivity|exact H|]; rewrite N; tauto.
  - destruct (fe_ld env); cbn; lia.
  - apply emax_ld.
  - apply double_of_bits_valid.
Qed.

(** The pattern of the double with the value of a float. *)
Definition widen (nan : Z) (u : Z) : Z := bits_of_double nan (convert 53 1024 (float_of_bits u)).

Lemma convert_via p1 e1 p2 e2 p3 e3 a : good_format p1 e1 -> good_format p2 e2 -> good_format p3 e3 ->
  p1 <= p2 -> e1 <= e2 -> p1 <= p3 -> e1 <= e3 -> SpecFloat.valid_binary p1 e1 a = true ->
  convert p2 e2 (convert p3 e3 a) = convert p2 e2 a.
Proof.
  intros G1 G2 G3 Hp2 He2 Hp3 He3 Va. destruct a as [s|s| |s m e]; [reflexivity..|].
  set (a := S754_finite s m e) in *.
  assert (Fa : is_finite_SF a = true) by reflexivity.
  destruct (sf_format p1 e1 a G1 Va Fa) as [GF B].
  assert (W : forall p e, p1 <= p -> e1 <= e ->
    generic_format radix2 (binary_format p e) (SF2R radix2 a) /\ (Rabs (SF2R radix2 a) < bpow radix2 e)%R).
  { intros p q Hp Hq. split; [apply (format_incl p1 e1); [exact Hp|lia|exact GF]|].
    eapply Rlt_le_trans; [exact B|]. apply bpow_le. exact Hq. }
  destruct (W p2 e2 Hp2 He2) as [W1 W2]. destruct (W p3 e3 Hp3 He3) as [W3 W4].
  destruct (convert_exact p3 e3 a G3 Fa W3 W4) as (V & F & S & R).
  destruct (convert_exact p2 e2 (convert p3 e3 a) G2 F) as (V' & F' & S' & R').
  { rewrite R. exact W1. } { rewrite R. exact W2. }
  destruct (convert_exact p2 e2 a G2 Fa W1 W2) as (V2 & F2 & S2 & R2).
  eapply sf_inj; eauto; congruence.
Qed.

Lemma float_bits env u : FormatFloat_float env u = format_bits env (widen (fe_nan env) u).
Proof.
  unfold FormatFloat_float, format, widen.
  rewrite (convert_via 24 128 53 1024 _ _ _ float_good double_good (ld_good (fe_ld env)));
    [reflexivity|lia|lia|destruct (fe_ld env); cbn; lia| |apply float_of_bits_valid].
  pose proof (emax_ld (fe_ld env)). lia.
Qed.

Lemma widen_value nan u : float_finite u ->
  bits64 (widen nan u) /\ double_finite (widen nan u) /\ double_value (widen nan u) = float_value u.
Proof.
  intros H. apply float_of_bits_finite in H.
  destruct (sf_format 24 128 _ float_good (float_of_bits_valid u) H) as [GF B].
  destruct (convert_exact 53 1024 (float_of_bits u) double_good H) as (V & F & S & R).
  { apply (format_incl 24 128); [lia|lia|exact GF]. }
  { eapply Rlt_trans; [exact B|]. apply bpow_lt. lia. }
  destruct (double_of_bits_of_double nan _ V) as [B64 Eq].
  { intros X. rewrite X in F. discriminate F. }
  fold (widen nan u) in B64, Eq. split; [exact B64|]. split.
  - apply double_of_bits_finite. rewrite Eq. exact F.
  - rewrite <- double_of_bits_value, Eq, R. apply float_of_bits_value.
Qed.
