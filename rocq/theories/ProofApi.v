(** API-level results for integers, enumerations, stream positions, booleans, null,
    characters and strings. *)
From Verif Require Import Machine LibMachine SpecApi SpecDecimal SpecInt SpecString ModelItoa ModelInt ModelString
  ModelText ModelIeee ModelDiyfp ModelDtoa ModelFloat ModelLexi ProofItoa ProofInt ProofString ProofText.
Ltac Zify.zify_post_hook ::= idtac.

(** ** The canonical numeral is unique *)

Lemma numeral_value_cons c l : numeral_value (c :: l) = digit_value c * 10 ^ Z.of_nat (length l) + numeral_value l.
Proof. change (c :: l) with ([c] ++ l). rewrite numeral_value_app. reflexivity. Qed.

Lemma same_length_inj l1 l2 : length l1 = length l2 -> Forall is_digit l1 -> Forall is_digit l2 ->
  numeral_value l1 = numeral_value l2 -> l1 = l2.
Proof.
  revert l2. induction l1 as [|a l1 IH]; intros [|b l2] L H1 H2 E; try discriminate L; [reflexivity|].
  inversion H1 as [|? ? Ha H1']; subst. inversion H2 as [|? ? Hb H2']; subst.
  injection L as L. rewrite !numeral_value_cons, L in E.
  pose proof (numeral_value_bounds _ H1') as B1. pose proof (numeral_value_bounds _ H2') as B2.
  rewrite L in B1. set (m := 10 ^ Z.of_nat (length l2)) in *.
  assert (D : digit_value a = digit_value b) by nia.
  f_equal; [apply code_inj; unfold digit_value in D; lia|]. apply IH; auto. rewrite D in E. lia.
Qed.

Lemma canonical_natural_lower l n : canonical_natural l n -> l <> ["0"%char] ->
  10 ^ (Z.of_nat (length l) - 1) <= n < 10 ^ Z.of_nat (length l).
Proof.
  intros (Hne & HF & <- & H0) N. pose proof (numeral_value_bounds _ HF) as B. split; [|lia].
  destruct l as [|c l]; [congruence|]. inversion HF as [|? ? Hc HF']; subst.
  rewrite numeral_value_cons. pose proof (numeral_value_bounds _ HF') as B'.
  cbn [length]. replace (Z.of_nat (S (length l)) - 1) with (Z.of_nat (length l)) by lia.
  assert (1 <= digit_value c).
  { unfold is_digit, digit_value in *. destruct (Z.eq_dec (code c) 48) as [E|E]; [exfalso|lia].
    assert (c = "0"%char) by (apply code_inj; exact E). subst c.
    specialize (H0 l eq_refl). subst l. congruence. }
  assert (0 < 10 ^ Z.of_nat (length l)) by (apply Z.pow_pos_nonneg; lia). nia.
Qed.

Lemma canonical_natural_unique l1 l2 n : canonical_natural l1 n -> canonical_natural l2 n -> l1 = l2.
Proof.
  assert (Z1 : forall l, canonical_natural l 0 -> l = ["0"%char]).
  { intros l H. destruct (list_eq_dec ascii_dec l ["0"%char]) as [|N]; [assumption|exfalso].
    pose proof (canonical_natural_lower l 0 H N) as B.
    assert (L : (0 < length l)%nat) by (destruct H as [X _]; destruct l; [congruence|cbn; lia]).
    assert (0 < 10 ^ (Z.of_nat (length l) - 1)) by (apply Z.pow_pos_nonneg; lia). lia. }
  intros H1 H2. destruct (Z.eq_dec n 0) as [->|N0].
  - rewrite (Z1 _ H1), (Z1 _ H2). reflexivity.
  - assert (P : forall l, canonical_natural l n -> l <> ["0"%char]).
    { intros l (_ & _ & V & _) ->. apply N0. symmetry. exact V. }
    pose proof (canonical_natural_lower _ _ H1 (P _ H1)) as B1.
    pose proof (canonical_natural_lower _ _ H2 (P _ H2)) as B2.
    destruct H1 as (X1 & F1 & V1 & _), H2 as (X2 & F2 & V2 & _).
    apply same_length_inj; auto; [|congruence].
    assert (L1 : (0 < length l1)%nat) by (destruct l1; [congruence|cbn; lia]).
    assert (L2 : (0 < length l2)%nat) by (destruct l2; [congruence|cbn; lia]).
    destruct (lt_eq_lt_dec (length l1) (length l2)) as [[L|L]|L]; [|exact L|]; exfalso.
    + assert (10 ^ Z.of_nat (length l1) <= 10 ^ (Z.of_nat (length l2) - 1)) by (apply Z.pow_le_mono_r; lia). lia.
    + assert (10 ^ Z.of_nat (length l2) <= 10 ^ (Z.of_nat (length l1) - 1)) by (apply Z.pow_le_mono_r; lia). lia.
Qed.

Lemma canonical_integer_unique l1 l2 v : canonical_integer l1 v -> canonical_integer l2 v -> l1 = l2.
Proof.
  intros [[H1 C1]|[H1 (r1 & -> & C1)]] [[H2 C2]|[H2 (r2 & -> & C2)]]; try lia.
  - eapply canonical_natural_unique; eassumption.
  - f_equal. eapply canonical_natural_unique; eassumption.
Qed.

(** ** Integers *)

Lemma integer_formats e t v : platform_ok (e_platform e) -> has_int_type (e_platform e) t v ->
  exists s, lexi e (VInt t v) = Ok s /\ string_of e (VInt t v) = Ok s /\
            escape_of e (VInt t v) = Ok s /\ jsonify_of e (VInt t v) = Ok s /\ canonical_integer s v.
Proof.
  intros Hp Hv. destruct (FormatInt_new_holds _ t v Hp Hv) as (o & s & E & C & (S & _)).
  exists s. unfold lexi, string_of, escape_of, jsonify_of, Format. rewrite E. cbn. repeat split; assumption.
Qed.

Lemma buf_read_in_range b i c : buf_read b i = Ok c -> 0 <= i < Z.of_nat (length b).
Proof. unfold buf_read, in_range. destruct (_ && _) eqn:E; [lia|discriminate]. Qed.

Lemma c_string_end fuel b i s : buf_c_string fuel b i = Ok s -> buf_read b (i + Z.of_nat (length s)) = Ok NUL.
Proof.
  revert i s. induction fuel as [|fuel IH]; intros i s H; cbn [buf_c_string] in H; [discriminate|].
  destruct (buf_read b i) as [c| | |] eqn:E; cbn [bind] in H; try discriminate.
  destruct (Z.eqb_spec (code c) 0) as [C|C].
  - injection H as <-. cbn [length]. change (Z.of_nat 0) with 0. rewrite Z.add_0_r, E.
    f_equal. apply code_inj. exact C.
  - destruct (buf_c_string fuel b (i + 1)) as [r| | |] eqn:R; cbn [bind] in H; try discriminate.
    injection H as <-. apply IH in R. cbn [length].
    replace (i + Z.of_nat (S (length r))) with (i + 1 + Z.of_nat (length r)) by lia. exact R.
Qed.

Lemma FormatInt_first p t v o : FormatInt_new p t v = Ok o -> fi_first o = 0.
Proof.
  unfold FormatInt_new, FormatInt_body.
  destruct t; try destruct (sys64 p); intros H;
    repeat match type of H with bind ?m _ = _ => destruct m; cbn [bind] in H; try discriminate end;
    injection H as <-; reflexivity.
Qed.

Lemma FormatInt_shows p t v : platform_ok p -> has_int_type p t v ->
  exists o s, FormatInt_new p t v = Ok o /\ canonical_integer s v /\
    shows (FInt o) INTEGER_SIZE s /\ shows (FEnum o) INTEGER_SIZE s.
Proof.
  intros Hp Hv. destruct (FormatInt_new_holds p t v Hp Hv) as (o & s & E & C & (S & K & Z0 & L)).
  pose proof (FormatInt_first _ _ _ _ E) as F0.
  assert (R : buf_read (fi_buffer o) (FormatInt_size o) = Ok NUL).
  { rewrite Z0. unfold FormatInt_c_str in K. apply c_string_end in K. rewrite F0 in K. exact K. }
  pose proof (buf_read_in_range _ _ _ R) as B. rewrite Z0, L in B.
  exists o, s. split; [exact E|]. split; [exact C|].
  split; unfold shows; cbn [f_string f_to_string f_size f_length f_buffer f_c_str];
    unfold FormatInt_length, FormatInt_to_string; repeat split; auto; lia.
Qed.

Lemma integer_object e t v : platform_ok (e_platform e) -> has_int_type (e_platform e) t v ->
  exists f s, Format e (VInt t v) = Ok f /\ canonical_integer s v /\ shows f INTEGER_SIZE s /\
    f_c_str f = Ok s /\ Forall (fun c => c <> NUL) s.
Proof.
  intros Hp Hv. destruct (FormatInt_shows _ t v Hp Hv) as (o & s & E & C & S & _).
  exists (FInt o), s. cbn [Format]. rewrite E. split; [reflexivity|]. split; [exact C|]. split; [exact S|].
  pose proof (canonical_integer_not_NUL _ _ C) as N. split; [apply S; exact N|exact N].
Qed.

Lemma integer_round_trip e point t v : platform_ok (e_platform e) -> has_int_type (e_platform e) t v ->
  (let* s := lexi e (VInt t v) in extract e point (TInt t) s) = Ok (XInt v) /\
  (let* s := lexi e (VInt t v) in extract_cstr e point (TInt t) s) = Ok (XInt v).
Proof.
  intros Hp Hv. destruct (integer_formats e t v Hp Hv) as (s & -> & _ & _ & _ & C). cbn [bind].
  assert (N : c_str_of s = s).
  { pose proof (canonical_integer_not_NUL _ _ C) as N.
    rewrite <- (app_nil_r s) at 1. rewrite c_str_of_app; [apply app_nil_r|].
    eapply Forall_impl; [|exact N]. intros c Hc X. apply Hc, code_inj. rewrite X. reflexivity. }
  unfold extract_cstr. rewrite N.
  cbn [extract ExtractInt bind]. rewrite (ExtractInt_canonical _ t s v Hp Hv C). auto.
Qed.

(** ** Reading integers *)

(** The number that the text denotes for a reader that saturates at [2^64-1]. *)
Lemma integer_extract e point t s neg ds : platform_ok (e_platform e) -> integer_prefix s neg ds ->
  exists r, extract e point (TInt t) s = Ok (XInt r) /\ has_int_type (e_platform e) t r /\
    congruent (int_bits (e_platform e) t) r
      (if 2 ^ 64 - 1 <? numeral_value ds then 2 ^ 64 - 1
       else if neg then - numeral_value ds else numeral_value ds).
Proof.
  intros Hp P. exists (ExtractInt_to (e_platform e) t (strtoull s)).
  destruct (ExtractInt_to_spec (e_platform e) t (strtoull s) Hp) as [T G].
  split; [reflexivity|]. split; [exact T|].
  eapply congruent_trans; [exact G|]. rewrite (strtoull_prefix s neg ds P). unfold ULLONG_MAX.
  destruct (_ <? _); [apply congruent_refl|]. destruct neg; [|apply congruent_refl].
  apply (congruent_weaken 64); [pose proof (int_bits_range (e_platform e) t Hp); lia|].
  apply (uwrap_spec 64). lia.
Qed.

Lemma span_unique (P : ascii -> Prop) a1 b1 a2 b2 :
  a1 ++ b1 = a2 ++ b2 -> Forall P a1 -> Forall P a2 -> ~ starts_with P b1 -> ~ starts_with P b2 ->
  a1 = a2 /\ b1 = b2.
Proof.
  revert a2. induction a1 as [|c a1 IH]; intros a2 E H1 H2 N1 N2.
  - destruct a2 as [|d a2]; [auto|]. exfalso. cbn [app] in E. subst b1. apply N1. inversion H2. assumption.
  - destruct a2 as [|d a2].
    + exfalso. cbn [app] in E. subst b2. apply N2. inversion H1. assumption.
    + injection E as <- E. inversion H1; subst. inversion H2; subst.
      destruct (IH a2 E) as [-> ->]; auto.
Qed.

Lemma integer_prefix_unique s n1 d1 n2 d2 :
  integer_prefix s n1 d1 -> integer_prefix s n2 d2 -> n1 = n2 /\ d1 = d2.
Proof.
  intros (w1 & g1 & r1 & E1 & W1 & S1 & G1 & D1 & R1) (w2 & g2 & r2 & E2 & W2 & S2 & G2 & D2 & R2).
  rewrite E1 in E2. destruct (span_unique is_space _ _ _ _ E2 W1 W2 S1 S2) as [_ E].
  assert (M : forall c, is_sign c -> ~ is_digit c).
  { intros c [-> | ->]; unfold is_digit; cbn; lia. }
  assert (G : g1 = g2 /\ n1 = n2).
  { destruct G1 as [[-> ->]|[[-> ->]|(-> & -> & N1)]], G2 as [[-> ->]|[[-> ->]|(-> & -> & N2)]];
      cbn [app] in E; try (split; congruence); exfalso.
    - apply N2. rewrite <- E. cbn. right. reflexivity.
    - apply N2. rewrite <- E. cbn. left. reflexivity.
    - apply N1. rewrite E. cbn. right. reflexivity.
    - apply N1. rewrite E. cbn. left. reflexivity. }
  destruct G as [-> ->]. split; [reflexivity|]. apply app_inv_head in E.
  apply (span_unique is_digit _ _ _ _ E D1 D2 R1 R2).
Qed.

Lemma integer_in_range e point t s neg ds : platform_ok (e_platform e) -> integer_prefix s neg ds ->
  has_int_type (e_platform e) t (if neg then - numeral_value ds else numeral_value ds) ->
  extract e point (TInt t) s = Ok (XInt (if neg then - numeral_value ds else numeral_value ds)).
Proof.
  intros Hp P T. destruct (integer_extract e point t s neg ds Hp P) as (r & E & T' & G).
  rewrite E. f_equal. f_equal. apply (has_int_type_unique (e_platform e) t); auto.
  pose proof (has_int_type_range _ _ _ Hp T) as B.
  assert (0 <= numeral_value ds).
  { destruct P as (? & ? & ? & _ & _ & _ & _ & HF & _). apply numeral_value_bounds. exact HF. }
  destruct (Z.ltb_spec (2 ^ 64 - 1) (numeral_value ds)); [destruct neg; lia|exact G].
Qed.

(** It is read exactly only then: what is read is a value of the type. *)
Lemma integer_exact_iff e point t s neg ds : platform_ok (e_platform e) -> integer_prefix s neg ds ->
  let z := if neg then - numeral_value ds else numeral_value ds in
  extract e point (TInt t) s = Ok (XInt z) <-> has_int_type (e_platform e) t z.
Proof.
  intros Hp P z. split; [|apply integer_in_range; assumption].
  destruct (integer_extract e point t s neg ds Hp P) as (r & E & T' & _). intros X. rewrite E in X.
  injection X as <-. exact T'.
Qed.

(** ** Enumerations and stream positions *)

Lemma enum_formats e u v : platform_ok (e_platform e) -> underlying_has (e_platform e) u v ->
  exists s, lexi e (VEnum u v) = Ok s /\ string_of e (VEnum u v) = Ok s /\
            escape_of e (VEnum u v) = Ok s /\ jsonify_of e (VEnum u v) = Ok s /\
            canonical_integer s v.
Proof.
  intros Hp Hv. pose proof (promoted_has _ u v Hp Hv) as T.
  destruct (FormatInt_new_holds _ _ v Hp T) as (o & s & E & C & (S & _)).
  exists s. unfold lexi, string_of, escape_of, jsonify_of, Format, FormatEnum_new. rewrite E. cbn.
  repeat split; assumption.
Qed.

Lemma enum_round_trip e point u v : platform_ok (e_platform e) -> underlying_has (e_platform e) u v ->
  (let* s := lexi e (VEnum u v) in extract e point (TEnum u) s) = Ok (XEnum v).
Proof.
  intros Hp Hv. destruct (enum_formats e u v Hp Hv) as (s & -> & _ & _ & _ & C). cbn [bind].
  cbn [extract ExtractEnum ExtractInt bind]. unfold ExtractEnum_to.
  rewrite (underlying_read _ u s v Hp Hv C). reflexivity.
Qed.

Lemma streamoff_range p off : platform_ok p -> - 2 ^ 63 <= off < 2 ^ 63 ->
  has_int_type p (streamoff_type p) off.
Proof.
  intros [Hp _] H. unfold streamoff_type, has_int_type, int_bits.
  destruct (Z.eqb_spec (long_bits p) 64) as [E|E]; cbn [int_signed]; [rewrite E|]; exact H.
Qed.

Lemma fpos_formats e off : platform_ok (e_platform e) -> - 2 ^ 63 <= off < 2 ^ 63 ->
  exists s, lexi e (VFpos off) = Ok s /\ string_of e (VFpos off) = Ok s /\
            escape_of e (VFpos off) = Ok s /\ jsonify_of e (VFpos off) = Ok s /\ canonical_integer s off.
Proof.
  intros Hp Hv. pose proof (streamoff_range _ off Hp Hv) as T.
  destruct (FormatInt_new_holds _ _ off Hp T) as (o & s & E & C & (S & _)).
  exists s. unfold lexi, string_of, escape_of, jsonify_of, Format. rewrite E. cbn. repeat split; assumption.
Qed.

Lemma fpos_round_trip e point off : platform_ok (e_platform e) -> - 2 ^ 63 <= off < 2 ^ 63 ->
  (let* s := lexi e (VFpos off) in extract e point TFpos s) = Ok (XFpos off).
Proof.
  intros Hp Hv. destruct (fpos_formats e off Hp Hv) as (s & -> & _ & _ & _ & C). cbn [bind].
  cbn [extract ExtractInt bind].
  rewrite (ExtractInt_canonical _ _ s off Hp (streamoff_range _ _ Hp Hv) C). reflexivity.
Qed.

(** ** Booleans and null *)

Lemma text_shows (k : FormatText -> formatter) o n s :
  (forall o, f_string (k o) = FormatText_string o) -> (forall o, f_to_string (k o) = FormatText_string o) ->
  (forall o, f_size (k o) = ft_size o) -> (forall o, f_length (k o) = ft_size o) ->
  (forall o, f_buffer (k o) = ft_buffer o) -> (forall o, f_c_str (k o) = FormatText_c_str o) ->
  FormatText_holds n o s -> shows (k o) n s.
Proof.
  intros A1 A2 A3 A4 A5 A6 (S & Z0 & L & K & R). unfold FormatText_size in Z0.
  pose proof (buf_read_in_range _ _ _ R) as B.
  unfold shows. rewrite A1, A2, A3, A4, A5, A6, Z0. repeat split; auto; lia.
Qed.

Lemma bool_formats e (b : bool) : length (lit_true (e_lit e)) = 4%nat -> length (lit_false (e_lit e)) = 5%nat ->
  let s := if b then lit_true (e_lit e) else lit_false (e_lit e) in
  lexi e (VBool b) = Ok s /\ string_of e (VBool b) = Ok s /\
  escape_of e (VBool b) = Ok s /\ jsonify_of e (VBool b) = Ok s.
Proof.
  intros Ht Hf. destruct (FormatBool_holds _ b Ht Hf) as (o & E & (S & _)).
  unfold lexi, string_of, escape_of, jsonify_of, Format. rewrite E. cbn. auto.
Qed.

Lemma bool_extracts e point s : lit_true (e_lit e) <> lit_false (e_lit e) ->
  extract e point TBool s =
    if list_eq_dec ascii_dec s (lit_true (e_lit e)) then Ok (XBool true)
    else if list_eq_dec ascii_dec s (lit_false (e_lit e)) then Ok (XBool false)
    else Throw "String is not boolean.".
Proof.
  intros N. cbn [extract]. unfold ExtractBool, string_eqb.
  destruct (list_eq_dec _ s (lit_true _)); [reflexivity|].
  destruct (list_eq_dec _ s (lit_false _)); reflexivity.
Qed.

Lemma bool_extract_iff e point s (b : bool) : e_lit e = default_literals ->
  (extract e point TBool s = Ok (XBool b) <-> s = if b then str "true" else str "false").
Proof.
  intros Hl. rewrite bool_extracts by (rewrite Hl; discriminate). rewrite Hl.
  cbn [lit_true lit_false default_literals].
  destruct (list_eq_dec _ s (str "true")) as [->|N1]; [|destruct (list_eq_dec _ s (str "false")) as [->|N2]];
    destruct b; split; try congruence; discriminate.
Qed.

Lemma bool_extract_throws e point s : e_lit e = default_literals ->
  s <> str "true" -> s <> str "false" -> exists what, extract e point TBool s = Throw what.
Proof.
  intros Hl N1 N2. rewrite bool_extracts by (rewrite Hl; discriminate). rewrite Hl.
  cbn [lit_true lit_false default_literals].
  destruct (list_eq_dec _ s (str "true")); [contradiction|].
  destruct (list_eq_dec _ s (str "false")); [contradiction|]. eauto.
Qed.

Lemma null_formats e : length (lit_null (e_lit e)) = 4%nat ->
  lexi e VNull = Ok (lit_null (e_lit e)) /\ string_of e VNull = Ok (lit_null (e_lit e)) /\
  escape_of e VNull = Ok (lit_null (e_lit e)) /\ jsonify_of e VNull = Ok (lit_null (e_lit e)).
Proof.
  intros Hn. destruct (FormatNull_holds _ Hn) as (o & E & (S & _)).
  unfold lexi, string_of, escape_of, jsonify_of, Format. rewrite E. cbn. auto.
Qed.

Lemma null_extracts e point s :
  (s = lit_null (e_lit e) -> extract e point TNull s = Ok XNull) /\
  (s <> lit_null (e_lit e) -> exists what, extract e point TNull s = Throw what).
Proof.
  cbn [extract]. unfold ExtractNull, string_eqb. destruct (list_eq_dec _ s _) as [E|E]; split; intros H;
    try contradiction; cbn [bind]; eauto.
Qed.

(** ** Characters *)

Lemma char_formats e c : lexi e (VChar c) = Ok [c] /\ string_of e (VChar c) = Ok [c].
Proof. split; reflexivity. Qed.

Lemma char_views e c :
  exists f, Format e (VChar c) = Ok f /\ shows f 2 [c] /\
            escape_of e (VChar c) = escape_of e (VString [c]) /\
            jsonify_of e (VChar c) = jsonify_of e (VString [c]).
Proof.
  destruct (FormatChar_holds c) as (o & E & R). exists (FChar o). cbn [Format]. rewrite E.
  split; [reflexivity|]. split.
  - apply (text_shows FChar); auto.
  - unfold escape_of, jsonify_of, Format. rewrite E. cbn [bind f_escape f_jsonify].
    unfold FormatChar_escape, FormatChar_jsonify. destruct R as [S _]. rewrite S. split; reflexivity.
Qed.

Lemma char_extracts e point s :
  extract e point TChar s = match s with [] => Throw """Cannot extract character from empty string.""" | c :: _ => Ok (XChar c) end.
Proof. destruct s; reflexivity. Qed.

(** ** Strings *)

Lemma c_str_of_spec s : exists r, s = c_str_of s ++ r /\ Forall (fun c => c <> NUL) (c_str_of s) /\
  (r = [] \/ exists r', r = NUL :: r').
Proof.
  induction s as [|c s (r & E & N & R)].
  - exists []. repeat split; auto. constructor.
  - cbn [c_str_of]. destruct (Z.eqb_spec (code c) 0) as [Z0|Z0].
    + exists (c :: s). split; [reflexivity|]. split; [constructor|]. right. exists s. f_equal.
      apply code_inj. exact Z0.
    + exists r. split; [cbn [app]; f_equal; exact E|]. split; [|exact R].
      constructor; [|exact N]. intros ->. apply Z0. reflexivity.
Qed.

Lemma escape_string e s : exists t, escape_of e (VString s) = Ok t /\ inserted escaped_class s t.
Proof. eexists. split; [reflexivity|]. apply escape_inserted. Qed.

Lemma jsonify_string e s : exists t, jsonify_of e (VString s) = Ok t /\
  json_string_decode t = Some s /\ (utf8 t <-> utf8 s).
Proof.
  cbn [jsonify_of]. rewrite quoted_jsonify_eq. eexists. split; [reflexivity|].
  split; [apply quoted_decodes|apply quoted_utf8].
Qed.

(** ** Configured literals *)

Lemma bool_literal_iff e (b : bool) : let lit := if b then lit_true (e_lit e) else lit_false (e_lit e) in
  lexi e (VBool b) = Ok lit <-> length lit = if b then 4%nat else 5%nat.
Proof.
  cbn zeta. unfold lexi, Format. split.
  - destruct (FormatBool_new (e_lit e) b) as [o| | |] eqn:E; cbn [bind]; try discriminate.
    cbn [f_string]. intros S. exact (FormatBool_size_fixed _ _ _ _ E S).
  - intros L. unfold FormatBool_new. destruct b; rewrite strncpy_literal by lia; cbn [bind f_string].
    + apply (holds_intro 6 (lit_true (e_lit e)) (new_buf (6 - length (lit_true (e_lit e)) - 1)) 4);
        [unfold new_buf; rewrite repeat_length|]; lia.
    + apply (holds_intro 6 (lit_false (e_lit e)) (new_buf (6 - length (lit_false (e_lit e)) - 1)) 5);
        [unfold new_buf; rewrite repeat_length|]; lia.
Qed.

Lemma null_literal_iff e :
  lexi e VNull = Ok (lit_null (e_lit e)) <-> length (lit_null (e_lit e)) = 4%nat.
Proof.
  split.
  - unfold lexi, Format. destruct (FormatNull_new (e_lit e)) as [o| | |] eqn:E; cbn [bind]; try discriminate.
    cbn [f_string]. intros S. exact (FormatNull_size_fixed _ _ _ E S).
  - intros L. apply (null_formats e L).
Qed.

(** ** Characters of the escaping class *)

Lemma escape_char_ascii e c : is_ascii c -> ~ is_alphanumeric c -> code c <> 127 ->
  escape_of e (VString [c]) = Ok [BACKSLASH; c].
Proof.
  intros H1 H2 H3. destruct (escape_string e [c]) as (t & E & I). rewrite E. f_equal.
  inversion I as [|c' s' t' Hc I'|c' s' t' Hc I']; subst; inversion I'; subst; [reflexivity|].
  exfalso. apply Hc. unfold escaped_class, is_ascii, is_alphanumeric in *. pose proof (code_range c). lia.
Qed.

Lemma jsonify_char_ascii e c : is_ascii c ->
  exists t, jsonify_of e (VChar c) = Ok t /\ json_string_text t /\ json_string_decode t = Some [c].
Proof.
  intros H. destruct (char_views e c) as (f & _ & _ & _ & ->).
  destruct (jsonify_string e [c]) as (t & E & D & U). exists t. split; [exact E|]. split; [|exact D].
  split; [|eauto]. apply U. unfold utf8, utf8_run, utf8_start. unfold is_ascii in H.
  rewrite (proj2 (Z.ltb_lt _ _) H). reflexivity.
Qed.

Lemma jsonify_char_iff e c t : jsonify_of e (VChar c) = Ok t -> (json_string_text t <-> is_ascii c).
Proof.
  intros J. split; intros H.
  - destruct (char_views e c) as (f & _ & _ & _ & X). rewrite X in J.
    destruct (jsonify_string e [c]) as (t' & E & _ & U). rewrite E in J. injection J as <-.
    destruct H as [H _]. apply U in H. unfold is_ascii. unfold utf8, utf8_run, utf8_start in H.
    destruct (Z.ltb_spec (code c) 128) as [L|L]; [exact L|]. exfalso.
    repeat match type of H with match (if ?b then _ else _) with _ => _ end = _ => destruct b end; discriminate H.
  - destruct (jsonify_char_ascii e c H) as (t' & E & S & _). rewrite E in J. injection J as <-. exact S.
Qed.

(** ** Statements in terms of the default literals *)

Lemma bool_formats_default e b : e_lit e = default_literals ->
  let s := if b : bool then str "true" else str "false" in
  lexi e (VBool b) = Ok s /\ string_of e (VBool b) = Ok s /\
  escape_of e (VBool b) = Ok s /\ jsonify_of e (VBool b) = Ok s.
Proof.
  intros Hl. pose proof (bool_formats e b) as H. rewrite Hl in H. apply H; reflexivity.
Qed.

Lemma null_default e point s : e_lit e = default_literals ->
  lexi e VNull = Ok (str "null") /\ string_of e VNull = Ok (str "null") /\
  escape_of e VNull = Ok (str "null") /\ jsonify_of e VNull = Ok (str "null") /\
  (s = str "null" -> extract e point TNull s = Ok XNull) /\
  (s <> str "null" -> exists what, extract e point TNull s = Throw what).
Proof.
  intros Hl. pose proof (null_formats e) as H. pose proof (null_extracts e point s) as X.
  rewrite Hl in *. destruct (H eq_refl) as (A & B & C & D). auto 7.
Qed.

Lemma char_round_trip e point c :
  lexi e (VChar c) = Ok [c] /\ string_of e (VChar c) = Ok [c] /\
  (let* s := lexi e (VChar c) in extract e point TChar s) = Ok (XChar c) /\
  exists f, Format e (VChar c) = Ok f /\ shows f 2 [c].
Proof.
  destruct (char_views e c) as (f & F & S & _).
  split; [reflexivity|]. split; [reflexivity|]. split; [reflexivity|]. eauto.
Qed.

Lemma char_extract_cases e point s :
  match s with
  | [] => exists what, extract e point TChar s = Throw what
  | c :: _ => extract e point TChar s = Ok (XChar c)
  end.
Proof. rewrite char_extracts. destruct s; eauto. Qed.

(** ** Strings: the statements of the properties *)

Lemma escape_spec e s : exists t, escape_of e (VString s) = Ok t /\ inserted escaped_class s t /\
  unescape t = Some s /\ (length s <= length t <= 2 * length s)%nat.
Proof.
  destruct (escape_string e s) as (t & E & I). exists t. split; [exact E|]. split; [exact I|].
  split; [apply inserted_unescape; exact I|eapply inserted_length; exact I].
Qed.

Lemma escape_any_env e1 e2 s : escape_of e1 (VString s) = escape_of e2 (VString s).
Proof.
  destruct (escape_string e1 s) as (t1 & E1 & I1), (escape_string e2 s) as (t2 & E2 & I2).
  rewrite E1, E2. f_equal. eapply inserted_fun; eassumption.
Qed.

Lemma jsonify_any_env e1 e2 s : jsonify_of e1 (VString s) = jsonify_of e2 (VString s).
Proof. cbn [jsonify_of]. rewrite !quoted_jsonify_eq. reflexivity. Qed.

Lemma jsonify_decodes e s : exists t, jsonify_of e (VString s) = Ok t /\ json_string_decode t = Some s.
Proof. destruct (jsonify_string e s) as (t & E & D & _). eauto. Qed.

Lemma jsonify_utf8 e s : exists t, jsonify_of e (VString s) = Ok t /\ (utf8 t <-> utf8 s).
Proof. destruct (jsonify_string e s) as (t & E & _ & U). eauto. Qed.

Lemma strings_pass e s : lexi e (VString s) = Ok s /\ string_of e (VString s) = Ok s /\
  exists t r, lexi e (VCString s) = Ok t /\ string_of e (VCString s) = Ok t /\
    s = t ++ r /\ Forall (fun c => c <> NUL) t /\ (r = [] \/ exists r', r = NUL :: r').
Proof.
  split; [reflexivity|]. split; [reflexivity|]. destruct (c_str_of_spec s) as (r & E & N & R).
  exists (c_str_of s), r. split; [reflexivity|]. split; [reflexivity|]. auto.
Qed.
Lemma cstring_as_string e s t : lexi e (VCString s) = Ok t ->
  escape_of e (VCString s) = escape_of e (VString t) /\ jsonify_of e (VCString s) = jsonify_of e (VString t).
Proof. intros H. injection H as <-. split; reflexivity. Qed.
