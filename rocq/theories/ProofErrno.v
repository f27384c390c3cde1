(** Extraction sets [errno] as C17 says; when a caller can rely on it. *)
From Coq Require Import Reals Lra Psatz Floats.SpecFloat.
From Flocq Require Import Core IEEE754.BinarySingleNaN.
From Verif Require Import Machine LibMachine SpecApi SpecDecimal SpecInt SpecNumber SpecIeee SpecRead SpecMore SpecErrno
  ModelItoa ModelInt ModelText ModelIeee ModelDiyfp ModelDtoa ModelFloat ModelLexi ModelPlatforms ModelErrno
  ProofInt ProofApi ProofDiyfp ProofIeee ProofDtoa ProofFloat ProofRound ProofFloat4 ProofRead ProofRead2 ProofRead3.
Open Scope Z_scope.
Ltac Zify.zify_post_hook ::= idtac.

Lemma value_same cl e point T s errno :
  (let* r := e_extract cl e point T s errno in Ok (fst r)) = extract e point T s.
Proof.
  assert (I : e_ExtractInt cl s errno = Ok (e_strtoull cl s errno) /\ fst (e_strtoull cl s errno) = strtoull s).
  { split; [reflexivity|]. unfold e_strtoull. destruct (take_sign _). reflexivity. }
  assert (F : forall p q, fst (e_strtold cl p q point s errno) = strtold p q point s).
  { intros p q. unfold e_strtold. destruct (take_sign _). reflexivity. }
  destruct I as [I1 I2]. destruct T; cbn [e_extract extract]; unfold e_ExtractFloat, ExtractFloat, ExtractEnum, ExtractInt; rewrite ?I1; cbn [bind fst];
    rewrite ?I2, ?F; try reflexivity.
  - destruct (ExtractNull (e_lit e) s); reflexivity.
  - destruct (ExtractBool (e_lit e) s); reflexivity.
  - destruct (ExtractChar s); reflexivity.
Qed.

Lemma others_untouched cl e point T s errno x errno' : ~ integer_target T -> target_format e T = None ->
  e_extract cl e point T s errno = Ok (x, errno') -> errno' = errno.
Proof.
  intros NI NF. destruct T; try discriminate NF; try (contradiction NI; exact I); cbn [e_extract]; intros H.
  - destruct (ExtractNull (e_lit e) s); try discriminate H. injection H as _ <-. reflexivity.
  - destruct (ExtractBool (e_lit e) s); try discriminate H. injection H as _ <-. reflexivity.
  - destruct (ExtractChar s); try discriminate H. injection H as _ <-. reflexivity.
Qed.

(** ** Integers *)

Lemma prefix_parts s neg ds : integer_prefix s neg ds ->
  exists rest, take_sign (skip_space (c_str_of s)) = (neg, ds ++ rest) /\ Forall is_digit ds /\ ~ starts_with is_digit rest.
Proof.
  intros (ws & sg & rest & E & Hws & Hns & Hsg & Hds & Hrest).
  exists (c_str_of rest). rewrite E.
  assert (Hd0 : Forall (fun c => code c <> 0) ds).
  { eapply Forall_impl; [|exact Hds]. unfold is_digit. intros; lia. }
  assert (Hw0 : Forall (fun c => code c <> 0) ws).
  { eapply Forall_impl; [|exact Hws]. unfold is_space. intros; lia. }
  assert (Hs0 : Forall (fun c => code c <> 0) sg).
  { destruct Hsg as [[_ ->]|[[_ ->]|[_ [-> _]]]]; repeat constructor; discriminate. }
  rewrite !c_str_of_app by assumption.
  assert (Hrest' : ~ starts_with is_digit (c_str_of rest)).
  { intros C. apply Hrest. apply starts_with_c_str. exact C. }
  split; [|split; [exact Hds|exact Hrest']].
  rewrite skip_space_spec; [|exact Hws|].
  2:{ intros C. apply Hns. rewrite !starts_with_app in *.
      destruct C as [C|[-> [C|[-> C]]]]; auto. right. split; auto. right. split; auto.
      apply starts_with_c_str. exact C. }
  destruct Hsg as [[-> ->]|[[-> ->]|[-> [-> Hns2]]]]; cbn [app take_sign]; [reflexivity..|].
  apply take_sign_none.
  intros C. apply Hns2. rewrite starts_with_app in *. destruct C as [C|[-> C]]; auto.
  right. split; auto. apply starts_with_c_str. exact C.
Qed.

Lemma strtoull_errno cl s neg ds errno : integer_prefix s neg ds -> after_integer cl ds errno (snd (e_strtoull cl s errno)).
Proof.
  intros H. destruct (prefix_parts s neg ds H) as (rest & E & D & R). unfold e_strtoull. rewrite E. cbn [snd].
  assert (X : ds = [] -> (match ds ++ rest with c :: _ => c_isdigit c | [] => false end) = false).
  { intros ->. cbn [app]. destruct rest as [|c r]; [reflexivity|]. destruct (c_isdigit c) eqn:C; [|reflexivity].
    contradiction R. cbn. apply c_isdigit_iff. exact C. }
  assert (SD : scan_digits (ds ++ rest) 0 = numeral_value ds) by (rewrite scan_digits_spec by assumption; reflexivity).
  destruct ds as [|d ds].
  - specialize (X eq_refl). cbn [app] in *. unfold after_integer. split; [|split].
    + intros L. exfalso. change (numeral_value []) with 0 in L. lia.
    + intros N. contradiction N. reflexivity.
    + intros _. destruct rest as [|c r]; [reflexivity|]. rewrite X. reflexivity.
  - cbn [app] in *. assert (C : c_isdigit d = true) by (apply c_isdigit_iff; inversion D; assumption). rewrite C, SD.
    unfold after_integer, ULLONG_MAX. split; [|split].
    + intros L. destruct (Z.ltb_spec (2 ^ 64 - 1) (numeral_value (d :: ds))); [reflexivity|lia].
    + intros _ L. destruct (Z.ltb_spec (2 ^ 64 - 1) (numeral_value (d :: ds))); [lia|reflexivity].
    + discriminate.
Qed.

Lemma integer_errno cl e point T s neg ds errno : integer_target T -> integer_prefix s neg ds ->
  exists x errno', e_extract cl e point T s errno = Ok (x, errno') /\ after_integer cl ds errno errno'.
Proof.
  intros IT H. pose proof (strtoull_errno cl s neg ds errno H) as A.
  destruct T; try contradiction IT; cbn [e_extract e_ExtractInt bind]; eauto.
Qed.

Lemma numeral_nonneg ds : Forall is_digit ds -> 0 <= numeral_value ds.
Proof.
  intros H. unfold numeral_value. assert (X : forall l a, Forall is_digit l -> 0 <= a -> 0 <= fold_left (fun a c => 10 * a + digit_value c) l a).
  { intros l. induction l as [|c l IH]; intros a F P; cbn [fold_left]; [exact P|]. inversion F as [|? ? C F']; subst. apply IH; [exact F'|].
    unfold is_digit in C. unfold digit_value. nia. }
  apply X; [exact H|lia].
Qed.

Lemma int_bits_le p t : platform_ok p -> 0 < int_bits p t <= 64.
Proof. intros [Hp _]. destruct t; unfold int_bits; lia. Qed.

Lemma int_type_below p t v : platform_ok p -> has_int_type p t v -> - 2 ^ 63 <= v < 2 ^ 64.
Proof.
  intros Hp H. pose proof (int_bits_le p t Hp) as B. unfold has_int_type in H.
  assert (P1 : 2 ^ (int_bits p t - 1) <= 2 ^ 63) by (apply Z.pow_le_mono_r; lia).
  assert (P2 : 2 ^ int_bits p t <= 2 ^ 64) by (apply Z.pow_le_mono_r; lia).
  destruct (int_signed t); lia.
Qed.

Lemma integer_alarm cl e point t s neg ds x : platform_ok (e_platform e) -> integer_prefix s neg ds ->
  e_extract cl e point (TInt t) s 0 = Ok (x, ERANGE) ->
  ~ has_int_type (e_platform e) t (if neg then - numeral_value ds else numeral_value ds).
Proof.
  intros Hp P E H. destruct (integer_errno cl e point (TInt t) s neg ds 0 I P) as (y & n & E' & A1 & A2 & A3).
  rewrite E in E'. injection E' as <- <-. apply (int_type_below _ _ _ Hp) in H.
  destruct ds as [|d ds].
  - specialize (A3 eq_refl). destruct (cl_einval cl); discriminate A3.
  - assert (L : ~ numeral_value (d :: ds) < 2 ^ 64) by (intros L; specialize (A2 ltac:(discriminate) L); discriminate A2).
    destruct neg; lia.
Qed.

Lemma unsigned_exact cl e point t s ds x errno' : platform_ok (e_platform e) -> int_bits (e_platform e) t = 64 -> int_signed t = false ->
  integer_prefix s false ds -> e_extract cl e point (TInt t) s 0 = Ok (x, errno') ->
  errno' = ERANGE <-> ~ has_int_type (e_platform e) t (numeral_value ds).
Proof.
  intros Hp B S P E. split.
  - intros ->. exact (integer_alarm cl e point t s false ds x Hp P E).
  - intros N. destruct (integer_errno cl e point (TInt t) s false ds 0 I P) as (y & n & E' & A1 & _).
    rewrite E in E'. injection E' as <- <-. apply A1.
    assert (D : 0 <= numeral_value ds) by (destruct P as (? & ? & ? & _ & _ & _ & _ & D & _); apply numeral_nonneg; exact D).
    unfold has_int_type in N. rewrite S, B in N. lia.
Qed.

Lemma untouched_int cl s v errno : canonical_integer s v -> - 2 ^ 64 < v < 2 ^ 64 -> snd (e_strtoull cl s errno) = errno.
Proof.
  intros C B. destruct (canonical_prefix s v C) as (ds & neg & P & V).
  destruct (strtoull_errno cl s neg ds errno P) as (_ & A & _). apply A.
  - intros ->. destruct P as (ws & sg & rest & E & HW & _ & HS & _ & HR).
    assert (HV : v = 0) by (destruct neg; exact V).
    destruct C as [[_ (NE & F & Val & _)]|[L _]]; [|lia].
    destruct ws as [|w ws]; [|rewrite E in F; inversion F as [|? ? D _]; inversion HW as [|? ? W _]; subst; unfold is_digit, is_space in *; lia].
    destruct HS as [[_ ->]|[[_ ->]|[_ [-> _]]]]; cbn [app] in E; subst s.
    + inversion F as [|? ? D _]. cbn in D. unfold is_digit in D. cbn in D. lia.
    + inversion F as [|? ? D _]. cbn in D. unfold is_digit in D. cbn in D. lia.
    + destruct rest as [|c r]; [congruence|]. apply HR. inversion F; assumption.
  - destruct neg; lia.
Qed.

Lemma integers_printed cl e point errno : platform_ok (e_platform e) ->
  (forall t v, has_int_type (e_platform e) t v ->
     (let* s := lexi e (VInt t v) in e_extract cl e point (TInt t) s errno) = Ok (XInt v, errno)) /\
  (forall u v, underlying_has (e_platform e) u v ->
     (let* s := lexi e (VEnum u v) in e_extract cl e point (TEnum u) s errno) = Ok (XEnum v, errno)) /\
  (forall off, - 2 ^ 63 <= off < 2 ^ 63 ->
     (let* s := lexi e (VFpos off) in e_extract cl e point TFpos s errno) = Ok (XFpos off, errno)).
Proof.
  intros Hp.
  assert (G : forall T s v y, integer_target T -> canonical_integer s v -> - 2 ^ 64 < v < 2 ^ 64 -> extract e point T s = Ok y ->
    e_extract cl e point T s errno = Ok (y, errno)).
  { intros T s v y IT C B X. pose proof (value_same cl e point T s errno) as VS. rewrite X in VS.
    pose proof (untouched_int cl s v errno C B) as U.
    destruct T; try contradiction IT; cbn [e_extract e_ExtractInt bind fst] in *; injection VS as <-; rewrite U; reflexivity. }
  split; [|split].
  - intros t v H. pose proof (proj1 (integer_round_trip e point t v Hp H)) as R.
    destruct (integer_formats e t v Hp H) as (s & E & _ & _ & _ & C). rewrite E in *. cbn [bind] in *.
    apply (G _ _ v); [exact I|exact C| |exact R]. apply (int_type_below _ _ _ Hp) in H. lia.
  - intros u v H. pose proof (enum_round_trip e point u v Hp H) as R.
    destruct (enum_formats e u v Hp H) as (s & E & _ & _ & _ & C). rewrite E in *. cbn [bind] in *.
    apply (G _ _ v); [exact I|exact C| |exact R]. destruct u; cbn [underlying_has] in H.
    + apply (int_type_below _ _ _ Hp) in H. lia.
    + lia.
    + destruct (char_signed _); lia.
    + assert (W : 0 < wchar_bits (e_platform e) <= 32) by (destruct Hp as (_ & [W|W]); lia).
      assert (P1 : 2 ^ (wchar_bits (e_platform e) - 1) <= 2 ^ 31) by (apply Z.pow_le_mono_r; lia).
      assert (P2 : 2 ^ wchar_bits (e_platform e) <= 2 ^ 32) by (apply Z.pow_le_mono_r; lia).
      destruct (wchar_signed _); lia.
    + lia.
    + lia.
  - intros off H. pose proof (fpos_round_trip e point off Hp H) as R.
    destruct (fpos_formats e off Hp H) as (s & E & _ & _ & _ & C). rewrite E in *. cbn [bind] in *.
    apply (G _ _ off); [exact I|exact C|lia|exact R].
Qed.

(** ** Floating point types *)

Lemma strtold_errno cl p q point s errno :
  let y := strtold p q point s in
  snd (e_strtold cl p q point s errno) =
  match denote point s with
  | DInfinity _ | DNan => errno
  | DNothing => if cl_einval cl then EINVAL else errno
  | DDecimal _ D _ | DHex _ D _ =>
      match y with
      | S754_infinity _ => ERANGE
      | _ => if negb (D =? 0) && no_greater_than_min p q y && cl_underflow cl s then ERANGE else errno
      end
  end.
Proof.
  cbv zeta. unfold e_strtold, denote. destruct (take_sign _) as [neg r]. cbn [snd]. unfold subject_of, significand_digits.
  destruct (starts_ci (str "inf") r); [reflexivity|]. destruct (starts_ci (str "nan") r); [reflexivity|]. cbn [orb].
  destruct (scan_mantissa c_isdigit point r) as [[ip fp] r1].
  destruct (starts_ci (str "0x") r).
  - destruct (scan_mantissa c_isxdigit point (skipn 2 r)) as [[ip' fp'] r1'].
    destruct (length (ip' ++ fp') =? 0)%nat; [|reflexivity].
    destruct (length (ip ++ fp) =? 0)%nat; [reflexivity|]. rewrite digits_value_10. reflexivity.
  - destruct (length (ip ++ fp) =? 0)%nat; [reflexivity|]. rewrite digits_value_10. reflexivity.
Qed.

(** The test for underflow. *)
Lemma min_iff p q y : good_format p q -> SpecFloat.valid_binary p q y = true -> is_finite_SF y = true ->
  no_greater_than_min p q y = true <-> (Rabs (SF2R radix2 y) <= bpow radix2 (2 - q))%R.
Proof.
  intros [Hp Hq] V F. destruct y as [s|s| |s m e]; try discriminate F; cbn [no_greater_than_min].
  - cbn [SF2R]. rewrite Rabs_R0. split; [intros _; apply bpow_ge_0|reflexivity].
  - assert (A : Rabs (SF2R radix2 (S754_finite s m e)) = (IZR (Zpos m) * bpow radix2 e)%R).
    { cbn [SF2R]. rewrite <- F2R_Zabs. destruct s; reflexivity. }
    rewrite A. cbn [SpecFloat.valid_binary] in V. unfold SpecFloat.bounded in V. apply andb_prop in V. destruct V as [C _].
    unfold SpecFloat.canonical_mantissa in C. apply Zeq_bool_eq in C. rewrite Digits.Zpos_digits2_pos in C.
    unfold SpecFloat.fexp, SpecFloat.emin in C.
    pose proof (Zdigits_correct radix2 (Zpos m)) as D. rewrite Z.abs_eq in D by lia. change (radix2 : Z) with 2 in D.
    set (d := Zdigits radix2 (Zpos m)) in *. assert (Hd : 0 < d) by (apply Zdigits_gt_0; lia).
    rewrite andb_true_iff, Z.leb_le, Z.eqb_eq. split.
    + intros [L ->]. replace (2 - q) with (p - 1 + (3 - q - p)) by lia. rewrite bpow_plus.
      apply Rmult_le_compat_r; [apply bpow_ge_0|]. rewrite <- IZR_Zpower by lia. apply IZR_le. exact L.
    + intros L. destruct (Z.eq_dec e (3 - q - p)) as [->|N].
      * split; [|reflexivity]. replace (2 - q) with (p - 1 + (3 - q - p)) in L by lia. rewrite bpow_plus in L.
        apply Rmult_le_reg_r in L; [|apply bpow_gt_0]. rewrite <- IZR_Zpower in L by lia. apply le_IZR in L. exact L.
      * exfalso. assert (e = d + e - p) by lia. assert (d = p) by lia.
        assert (B : (bpow radix2 (p - 1) <= IZR (Zpos m))%R).
        { rewrite <- IZR_Zpower by lia. apply IZR_le. change (radix2 : Z) with 2. rewrite <- H0. lia. }
        assert (B2 : (bpow radix2 (p - 1) * bpow radix2 e <= bpow radix2 (2 - q))%R).
        { eapply Rle_trans; [|exact L]. apply Rmult_le_compat_r; [apply bpow_ge_0|exact B]. }
        rewrite <- bpow_plus in B2. apply le_bpow in B2. lia.
Qed.

Lemma signed_zero neg x : signed neg x = 0%R <-> x = 0%R.
Proof. destruct neg; cbn [signed]; lra. Qed.

Lemma denotes_zero v x D : denotes v x -> (exists neg K, v = DDecimal neg D K \/ v = DHex neg D K) -> x = 0%R <-> D = 0.
Proof.
  intros H (neg & K & [->| ->]); cbn [denotes] in H; subst x; rewrite signed_zero.
  - pose proof (bpow_gt_0 radix10 K). split; [intros E; apply Rmult_integral in E; destruct E as [E|E]; [apply eq_IZR; exact E|lra]|intros ->; ring].
  - pose proof (bpow_gt_0 radix2 K). split; [intros E; apply Rmult_integral in E; destruct E as [E|E]; [apply eq_IZR; exact E|lra]|intros ->; ring].
Qed.

Lemma strtold_after cl p q point s v errno : good_format p q -> point_ok point -> reads point s v ->
  after_floating cl p q v errno (snd (e_strtold cl p q point s errno)).
Proof.
  intros G PO R. pose proof (strtold_reads p q point s v G PO R) as RA.
  pose proof (strtold_errno cl p q point s errno) as SE. cbv zeta in SE.
  set (n := snd (e_strtold cl p q point s errno)) in *. clearbody n. apply reads_denote in R; [|exact PO]. rewrite <- R in SE.
  set (y := strtold p q point s) in *. clearbody y.
  assert (K : forall x D neg, denotes v x -> (exists neg K, v = DDecimal neg D K \/ v = DHex neg D K) -> rounded p q y neg x ->
    n = match y with
        | S754_infinity _ => ERANGE
        | _ => if negb (D =? 0) && no_greater_than_min p q y && cl_underflow cl s then ERANGE else errno
        end -> after_number p q x errno n).
  { intros x D neg HX HD [V RR] E. pose proof (denotes_zero v x D HX HD) as Z0. unfold after_number, overflows, underflows.
    destruct (Rlt_bool_spec (Rabs (nearest p q x)) (bpow radix2 q)) as [L|L].
    - destruct RR as (RV & F & _). pose proof (min_iff p q y G V F) as M. rewrite RV in M.
      assert (E' : n = if negb (D =? 0) && no_greater_than_min p q y && cl_underflow cl s then ERANGE else errno)
        by (destruct y; try discriminate F; exact E).
      split; [intros O; lra|]. split.
      + intros _. rewrite E'. destruct (_ && _ && _); auto.
      + intros _ N. rewrite E'. destruct (Z.eqb_spec D 0) as [->|ND]; [reflexivity|]. cbn [negb andb].
        destruct (no_greater_than_min p q y); [|reflexivity]. contradiction N. split; [intros X; apply ND, Z0, X|]. apply M. reflexivity.
    - rewrite RR in E. cbn in E. split; [intros _; exact E|]. split; [intros _; right; exact E|]. intros O. contradiction O. }
  destruct v as [neg D K0|neg D K0|neg| |]; cbn [after_floating]; try exact SE.
  - intros x X. cbn [denotes] in X. apply (K x D neg); [exact X|eauto| |exact SE]. subst x. exact RA.
  - intros x X. cbn [denotes] in X. apply (K x D neg); [exact X|eauto| |exact SE]. subst x. exact RA.
Qed.

Lemma floating_errno cl e point T s v errno p q : target_format e T = Some (p, q) -> point_ok point -> reads point s v ->
  exists z errno', e_extract cl e point T s errno = Ok (XFloating z, errno') /\
    after_floating cl (ld_prec (fe_ld (e_float e))) (ld_emax (fe_ld (e_float e))) v errno errno'.
Proof.
  intros HT PO R. pose proof (strtold_after cl _ _ point s v errno (ld_good (fe_ld (e_float e))) PO R) as A.
  destruct T; try discriminate HT; cbn [e_extract]; unfold e_ExtractFloat; cbn [bind]; eauto.
Qed.

Lemma floating_parts cl e point T s errno z errno' p q : target_format e T = Some (p, q) ->
  e_extract cl e point T s errno = Ok (XFloating z, errno') ->
  let f := fe_ld (e_float e) in let y := strtold (ld_prec f) (ld_emax f) point s in
  errno' = snd (e_strtold cl (ld_prec f) (ld_emax f) point s errno) /\ extract e point TLongDouble s = Ok (XFloating y) /\
  z = match T with TFloat => convert 24 128 y | TDouble => convert 53 1024 y | _ => y end.
Proof.
  intros HT E. cbv zeta. set (f := fe_ld (e_float e)) in *.
  assert (F : fst (e_strtold cl (ld_prec f) (ld_emax f) point s errno) = strtold (ld_prec f) (ld_emax f) point s).
  { unfold e_strtold. destruct (take_sign _). reflexivity. }
  destruct T; try discriminate HT; cbn [e_extract] in E; unfold e_ExtractFloat in E; cbn [bind] in E; fold f in E; rewrite F in E;
    injection E as <- <-; repeat split; reflexivity.
Qed.

Lemma rounded_overflow p q y neg x : rounded p q y neg x -> overflows p q x -> y = S754_infinity neg.
Proof. intros [_ R] O. unfold overflows in O. rewrite Rlt_bool_false in R by exact O. exact R. Qed.

Lemma denotes_rounded p q v x y : denotes v x -> read_as p q v y -> exists neg, rounded p q y neg x.
Proof. destruct v; cbn [denotes read_as]; try contradiction; intros -> R; eauto. Qed.

Lemma floating_alarm cl e point T s v x errno z errno' p q : target_format e T = Some (p, q) -> point_ok point -> reads point s v ->
  denotes v x -> e_extract cl e point T s errno = Ok (XFloating z, errno') -> errno' <> errno ->
  (exists neg, z = S754_infinity neg) \/ underflows (ld_prec (fe_ld (e_float e))) (ld_emax (fe_ld (e_float e))) x.
Proof.
  intros HT PO R D E N. pose proof (floating_parts cl e point T s errno z errno' p q HT E) as X. cbv zeta in X.
  set (f := fe_ld (e_float e)) in *. destruct X as (EE & _ & Z).
  pose proof (strtold_after cl _ _ point s v errno (ld_good f) PO R) as A. rewrite <- EE in A.
  assert (AN : after_number (ld_prec f) (ld_emax f) x errno errno') by (destruct v; try contradiction D; exact (A x D)).
  pose proof (strtold_reads _ _ point s v (ld_good f) PO R) as RA. destruct (denotes_rounded _ _ v x _ D RA) as [neg RR].
  destruct AN as (_ & _ & A3).
  assert (DO : overflows (ld_prec f) (ld_emax f) x \/ ~ overflows (ld_prec f) (ld_emax f) x)
    by (unfold overflows; destruct (Rle_or_lt (bpow radix2 (ld_emax f)) (Rabs (nearest (ld_prec f) (ld_emax f) x))); [left|right]; lra).
  destruct DO as [O|NO].
  - left. exists neg. rewrite Z, (rounded_overflow _ _ _ _ _ RR O). destruct T; reflexivity.
  - right. assert (DU : underflows (ld_prec f) (ld_emax f) x \/ ~ underflows (ld_prec f) (ld_emax f) x).
    { unfold underflows. destruct (Req_dec x 0) as [X0|X0]; [right; tauto|].
      destruct (Rle_or_lt (Rabs (nearest (ld_prec f) (ld_emax f) x)) (bpow radix2 (2 - ld_emax f))); [left; tauto|right; lra]. }
    destruct DU as [U|NU]; [exact U|]. contradiction (N (A3 NO NU)).
Qed.

Lemma overflow_reported cl e point T s v x errno neg errno' :
  target_format e T = Some (ld_prec (fe_ld (e_float e)), ld_emax (fe_ld (e_float e))) -> point_ok point -> reads point s v ->
  denotes v x -> e_extract cl e point T s errno = Ok (XFloating (S754_infinity neg), errno') -> errno' = ERANGE.
Proof.
  intros HT PO R D E. pose proof (floating_parts cl e point T s errno _ errno' _ _ HT E) as X. cbv zeta in X.
  set (f := fe_ld (e_float e)) in *. destruct X as (EE & _ & Z). set (y := strtold (ld_prec f) (ld_emax f) point s) in *.
  pose proof (strtold_after cl _ _ point s v errno (ld_good f) PO R) as A. rewrite <- EE in A.
  assert (AN : after_number (ld_prec f) (ld_emax f) x errno errno') by (destruct v; try contradiction D; exact (A x D)).
  pose proof (strtold_reads _ _ point s v (ld_good f) PO R) as RA. destruct (denotes_rounded _ _ v x _ D RA) as [sg RR]. fold y in RR.
  assert (Y : is_finite_SF y = false).
  { destruct (is_finite_SF y) eqn:F; [|reflexivity]. exfalso.
    assert (C : forall a b, ld_prec f = a -> ld_emax f = b -> is_finite_SF (convert a b y) = true).
    { intros a b <- <-. pose proof (ld_good f) as G. destruct RR as [V _].
      apply (convert_exact _ _ y G F); apply (sf_format _ _ y G V F). }
    destruct T; try discriminate HT.
    - injection HT as H1 H2. specialize (C 24 128 (eq_sym H1) (eq_sym H2)). rewrite <- Z in C. discriminate C.
    - injection HT as H1 H2. specialize (C 53 1024 (eq_sym H1) (eq_sym H2)). rewrite <- Z in C. discriminate C.
    - rewrite <- Z in F. discriminate F. }
  apply AN. unfold overflows. destruct RR as [_ RR].
  destruct (Rlt_bool_spec (Rabs (nearest (ld_prec f) (ld_emax f) x)) (bpow radix2 (ld_emax f))) as [L|L]; [|exact L].
  destruct RR as (_ & F & _). congruence.
Qed.

Lemma doubles_printed cl e u s T errno p q : bits64 u -> double_finite u -> double_value u <> 0%R -> lexi e (VDouble u) = Ok s ->
  target_format e T = Some (p, q) ->
  fe_ld (e_float e) <> LD64 \/ (bpow radix2 (-1022) < Rabs (double_value u))%R ->
  exists z, e_extract cl e "."%char T s errno = Ok (XFloating z, errno).
Proof.
  intros B F N L HT C. destruct (reads_total "." s dot_ok) as (v & R & _).
  destruct (floating_errno cl e "." T s v errno p q HT dot_ok R) as (z & n & E & _). exists z. rewrite E.
  pose proof (floating_parts cl e _ T s errno z n _ _ HT E) as X. cbv zeta in X. set (f := fe_ld (e_float e)) in *.
  destruct X as (EE & EY & _). set (y := strtold (ld_prec f) (ld_emax f) "." s) in *.
  destruct (read_between e u s B F N L) as (y' & ds & K & F0 & E0 & k & kap & X). cbv zeta in X.
  destruct X as (FP & _ & DV & _ & EY' & _ & Fy & BY & (w & Ew & Rw) & _). rewrite EY in EY'. injection EY' as <-.
  pose proof (long_double_valid e s y EY) as V. fold f in V.
  assert (NM : no_greater_than_min (ld_prec f) (ld_emax f) y = false).
  { destruct (no_greater_than_min _ _ y) eqn:M; [exfalso|reflexivity]. apply (min_iff _ _ y (ld_good f) V Fy) in M.
    pose proof (lower_positive _ FP) as LP. destruct f eqn:EF; cbn [ld_emax] in M.
    - destruct C as [C|C]; [congruence|].
      destruct (double_read_exact e u s B F N L) as (w' & Ew' & S); [left; fold f; rewrite EF; discriminate|].
      rewrite Ew in Ew'. injection Ew' as <-. destruct S as (_ & _ & SV & _).
      assert (W : SF2R radix2 w = SF2R radix2 y).
      { destruct Rw as [_ Rw]. rewrite (nearest_exact 53 1024) in Rw; [|lia|apply (sf_format 53 1024 y double_good V Fy)].
        rewrite Rlt_bool_true in Rw; [apply Rw|]. apply (sf_format 53 1024 y double_good V Fy). }
      rewrite <- W, SV in M. change (2 - 1024) with (-1022) in M. lra.
    - assert (bpow radix2 (2 - 16384) < bpow radix2 (-1076))%R by (apply bpow_lt; lia). lra.
    - assert (bpow radix2 (2 - 16384) < bpow radix2 (-1076))%R by (apply bpow_lt; lia). lra. }
  pose proof (strtold_errno cl (ld_prec f) (ld_emax f) "." s errno) as SE. cbv zeta in SE. rewrite <- EE in SE. fold y in SE. rewrite NM in SE.
  destruct (finite_number e u s B F N L) as (ds1 & K1 & F1 & E1 & k1 & kap1 & _ & _ & _ & _ & _ & J & _).
  pose proof (json_reads s _ J) as R'. apply reads_denote in R'; [|exact dot_ok]. rewrite <- R' in SE. unfold whole_number in SE.
  replace n with errno; [reflexivity|]. rewrite SE. destruct y; try discriminate Fy; rewrite andb_false_r; reflexivity.
Qed.

Lemma floats_printed cl e u s T errno p q : nan_ok (e_float e) -> bits32 u -> float_finite u -> float_value u <> 0%R -> lexi e (VFloat u) = Ok s ->
  target_format e T = Some (p, q) -> exists z, e_extract cl e "."%char T s errno = Ok (XFloating z, errno).
Proof.
  intros NO B F N L HT. destruct (float_printed e u NO B) as (w & Bw & _ & E & _ & _ & FW).
  destruct (FW F) as (Fw & Vw & _). rewrite E in L. rewrite <- Vw in N.
  apply (doubles_printed cl e w s T errno p q Bw Fw N L HT). right. rewrite Vw in *.
  destruct (float_value_facts u) as [FF _]. apply generic_abs in FF. apply Rabs_pos_lt in N.
  pose proof (generic_format_ge_bpow radix2 (binary_format 24 128) (-149)) as X.
  eapply Rlt_le_trans; [apply (bpow_lt radix2 _ (-149)); lia|]. apply X; [|exact N|exact FF].
  intros e0. unfold binary_format, FLT_exp. lia.
Qed.

(** ** Witnesses *)

Lemma int_unreported cl : e_extract cl (linux_x86_64 Strict) "."%char (TInt Int) (str "4294967296") 0 = Ok (XInt 0, 0) /\
  e_extract cl (linux_x86_64 Strict) "."%char (TInt ULLong) (str "-1") 0 = Ok (XInt (2 ^ 64 - 1), 0) /\
  e_extract cl (linux_x86_64 Strict) "."%char TDouble (str "1e400") 0 = Ok (XFloating (S754_infinity false), 0).
Proof. split; [vm_compute; reflexivity|]. split; vm_compute; reflexivity. Qed.

Lemma reported_refuted : exists e t s neg ds x, platform_ok (e_platform e) /\ integer_prefix s neg ds /\
  ~ has_int_type (e_platform e) t (if neg then - numeral_value ds else numeral_value ds) /\
  forall cl errno, e_extract cl e "."%char (TInt t) s errno = Ok (XInt x, errno).
Proof.
  exists (linux_x86_64 Strict), Int, (str "4294967296"), false, (str "4294967296"), 0.
  split; [vm_compute; auto|]. split.
  - exists [], [], []. split; [reflexivity|]. split; [constructor|]. split; [cbn; unfold is_space; cbn; lia|].
    split; [right; right; split; [reflexivity|]; split; [reflexivity|]; intros [H|H]; discriminate H|].
    split; [|intros []]. repeat constructor; discriminate.
  - split; [intros [_ H]; discriminate H|]. intros cl errno. vm_compute. reflexivity.
Qed.

Lemma tiny_reported : exists cl u s z, bits64 u /\ double_finite u /\ double_value u <> 0%R /\ lexi (windows_x64 Strict) (VDouble u) = Ok s /\
  s = str "5e-324" /\ e_extract cl (windows_x64 Strict) "."%char TDouble s 0 = Ok (XFloating z, ERANGE).
Proof.
  exists (CLibrary false (fun _ => true)), 1, (str "5e-324"), (S754_finite false 1 (-1074)).
  destruct (sample 1 eq_refl) as (B & F & N).
  split; [exact B|]. split; [exact F|]. split; [exact N|]. split; [vm_compute; reflexivity|]. split; [reflexivity|]. vm_compute. reflexivity.
Qed.
