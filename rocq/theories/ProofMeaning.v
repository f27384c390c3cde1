(** Proofs about the meaning of texts: jsonify is injective on meanings. *)
From Coq Require Import Reals Floats.SpecFloat.
From Flocq Require Import Core IEEE754.BinarySingleNaN.
From Verif Require Import Machine LibMachine SpecApi SpecDecimal SpecInt SpecNumber SpecIeee SpecString SpecLayout SpecJson SpecRead SpecMore
  SpecMeaning ModelItoa ModelInt ModelText ModelString ModelIeee ModelDiyfp ModelDtoa ModelFloat ModelLexi ModelPlatforms
  ProofApi ProofFloat ProofFloat2 ProofFloat3 ProofFloat4 ProofMore ProofMore2 ProofMore3.
Open Scope Z_scope.

(** Every argument means one thing. *)
Lemma meaning_exists e v : argument_ok e v -> exists m, means v m.
Proof.
  intros H. destruct v; cbn [means]; eauto.
  - assert (C : float_nan u \/ (exists b, float_infinity u b) \/ float_finite u).
    { unfold float_nan, float_infinity, float_finite. destruct (Bits.b32_of_bits u); cbn; eauto. }
    destruct C as [C|[[b C]|C]]; eauto 7.
  - assert (C : double_nan u \/ (exists b, double_infinity u b) \/ double_finite u).
    { unfold double_nan, double_infinity, double_finite. destruct (Bits.b64_of_bits u); cbn; eauto. }
    destruct C as [C|[[b C]|C]]; eauto 7.
  - destruct x as [s|s| |s m x]; eauto.
    + destruct (Rlt_or_le (Rabs (nearest 53 1024 (SF2R radix2 (S754_zero s)))) (bpow radix2 1024)); eauto.
    + destruct (Rlt_or_le (Rabs (nearest 53 1024 (SF2R radix2 (S754_finite s m x)))) (bpow radix2 1024)); eauto.
  - destruct (strings_pass e s) as (_ & _ & t & r & _ & _ & A & B & C). eauto 8.
Qed.

Lemma cut_unique (t1 : bytes) : forall r1 t2 r2, t1 ++ r1 = t2 ++ r2 -> Forall (fun c => c <> NUL) t1 -> Forall (fun c => c <> NUL) t2 ->
  (r1 = [] \/ exists r', r1 = NUL :: r') -> (r2 = [] \/ exists r', r2 = NUL :: r') -> t1 = t2.
Proof.
  induction t1 as [|a t1 IH]; intros r1 [|b t2] r2 E F1 F2 R1 R2; [reflexivity| | |].
  - exfalso. cbn in E. subst r1. destruct R1 as [R1|[r R1]]; [discriminate R1|]. injection R1 as -> _. now inversion F2.
  - exfalso. cbn in E. subst r2. destruct R2 as [R2|[r R2]]; [discriminate R2|]. injection R2 as -> _. now inversion F1.
  - injection E as -> E. f_equal. inversion F1; inversion F2; subst. eauto.
Qed.

Lemma meaning_unique v m1 m2 : means v m1 -> means v m2 -> m1 = m2.
Proof.
  destruct v; cbn [means]; try congruence.
  - unfold float_nan, float_infinity, float_finite. destruct (Bits.b32_of_bits u); cbn;
      intros [[A ->]|[[b [A ->]]|[A ->]]] [[B ->]|[[c [B ->]]|[B ->]]]; try reflexivity; try discriminate;
      injection A as <-; injection B as <-; reflexivity.
  - unfold double_nan, double_infinity, double_finite. destruct (Bits.b64_of_bits u); cbn;
      intros [[A ->]|[[b [A ->]]|[A ->]]] [[B ->]|[[c [B ->]]|[B ->]]]; try reflexivity; try discriminate;
      injection A as <-; injection B as <-; reflexivity.
  - destruct x as [s|s| |s m x]; try congruence; intros [[A ->]|[A ->]] [[B ->]|[B ->]]; try reflexivity;
      exfalso; eapply Rlt_irrefl, Rlt_le_trans; eassumption.
  - intros (t1 & r1 & E1 & F1 & R1 & ->) (t2 & r2 & E2 & F2 & R2 & ->). f_equal.
    rewrite E1 in E2. exact (cut_unique _ _ _ _ E2 F1 F2 R1 R2).
Qed.

(** The text of a meaning. *)
Definition json_of (e : env) (m : meaning) (s : bytes) : Prop :=
  match m with
  | MNull => s = str "null"
  | MBool b => s = if b then str "true" else str "false"
  | MText t => jsonify_of e (VString t) = Ok s
  | MInteger n => canonical_integer s n
  | MNumber x => exists u, bits64 u /\ double_finite u /\ double_value u = x /\ lexi e (VDouble u) = Ok s
  | MInfinity b => s = if b then str "-Infinity" else str "Infinity"
  | MNaN => s = str "NaN"
  end.

Lemma double_json e u m s : nan_ok (e_float e) -> e_lit e = default_literals -> bits64 u -> means (VDouble u) m ->
  lexi e (VDouble u) = Ok s -> json_of e m s.
Proof.
  intros HN HL H M L. destruct (special_values e u HN HL H) as (TN & TI & TM & _).
  destruct M as [[A ->]|[[b [A ->]]|[A ->]]]; cbn [json_of].
  - apply TN in A. congruence.
  - destruct b; [apply TM in A|apply TI in A]; congruence.
  - eauto.
Qed.

Lemma json_meaning e v m s : platform_ok (e_platform e) -> nan_ok (e_float e) -> e_lit e = default_literals ->
  argument_ok e v -> means v m -> jsonify_of e v = Ok s -> json_of e m s.
Proof.
  intros HP HN HL HV M J. destruct v as [|b|c|t n|u|u|x|u n|off|s0|s0]; cbn [argument_ok value_ok floating_ok] in HV.
  - cbn in M. subst m. destruct (null_default e "."%char [] HL) as (_ & _ & _ & E & _). cbn [json_of]. congruence.
  - cbn in M. subst m. destruct (bool_formats_default e b HL) as (_ & _ & _ & E). cbn [json_of]. congruence.
  - cbn in M. subst m. cbn [json_of]. destruct (jsonify_char_exact e c) as (t & E & T). destruct (jsonify_exact e [c]) as (ts & -> & F).
    inversion F as [|? t' ? ? A B]; subst. inversion B; subst. cbn [List.concat]. rewrite app_nil_r, (json_char_fun _ _ _ A T). congruence.
  - cbn in M. subst m. destruct (integer_formats e t n HP HV) as (x & _ & _ & _ & E & C). cbn [json_of]. congruence.
  - destruct (float_printed e u HN HV) as (w & HW & EF & EL & A & B & C).
    assert (L : lexi e (VDouble w) = Ok s).
    { rewrite <- EL. cbn [jsonify_of lexi] in *. destruct (Format e (VFloat u)) as [f| | |] eqn:E; try discriminate J. cbn [bind] in *.
      cbn [Format] in E. destruct (FormatFloat_float _ _) ; try discriminate E. injection E as <-. exact J. }
    refine (double_json e w m s HN HL HW _ L). destruct M as [[M ->]|[[b [M ->]]|[M ->]]]; cbn [means].
    + auto.
    + right. left. eauto.
    + right. right. destruct (C M) as (C1 & <- & _). auto.
  - refine (double_json e u m s HN HL HV M _). cbn [jsonify_of lexi] in *. destruct (Format e (VDouble u)) as [f| | |] eqn:E; try discriminate J.
    cbn [Format] in E. destruct (FormatFloat_double _ _) ; try discriminate E. injection E as <-. exact J.
  - destruct (long_double_printed e x HN HV) as (w & HW & EF & EL & A).
    assert (L : lexi e (VDouble w) = Ok s).
    { rewrite <- EL. cbn [jsonify_of lexi] in *. destruct (Format e (VLongDouble x)) as [f| | |] eqn:E; try discriminate J. cbn [bind] in *.
      cbn [Format] in E. destruct (FormatFloat_long_double _ _) ; try discriminate E. injection E as <-. exact J. }
    refine (double_json e w m s HN HL HW _ L). cbn [means] in M |- *.
    assert (K : forall b y, (if Rlt_bool (Rabs y) (bpow radix2 1024)
        then double_finite w /\ double_value w = y /\ double_sign w = b else double_infinity w b) ->
        (Rabs y < bpow radix2 1024)%R /\ m = MNumber y \/ (bpow radix2 1024 <= Rabs y)%R /\ m = MInfinity b ->
        double_nan w /\ m = MNaN \/ (exists s0, double_infinity w s0 /\ m = MInfinity s0) \/ double_finite w /\ m = MNumber (double_value w)).
    { intros b y P [[Q ->]|[Q ->]].
      - rewrite Rlt_bool_true in P by exact Q. destruct P as (P & <- & _). auto.
      - rewrite Rlt_bool_false in P by exact Q. eauto. }
    destruct x as [b|b| |b k x]; [eapply K; eauto|subst; eauto|subst; auto|eapply K; eauto].
  - cbn in M. subst m. destruct (enum_formats e u n HP HV) as (x & _ & _ & _ & E & C). cbn [json_of]. congruence.
  - cbn in M. subst m. destruct (fpos_formats e off HP HV) as (x & _ & _ & _ & E & C). cbn [json_of]. congruence.
  - cbn in M. subst m. exact J.
  - destruct M as (t & r & E & F & R & ->). cbn [json_of].
    destruct (strings_pass e s0) as (_ & _ & t' & r' & L & _ & E' & F' & R').
    assert (t = t') as -> by (rewrite E in E'; exact (cut_unique _ _ _ _ E' F F' R R')).
    destruct (cstring_as_string e s0 t' L) as [_ Q]. congruence.
Qed.

(** ** Telling the texts apart *)

Inductive shape := SNull | SBool | SText | SNum | SInf | SNegInf | SNaN | SOther.
Definition shape_of (s : bytes) : shape :=
  match s with
  | "n"%char :: _ => SNull
  | "t"%char :: _ | "f"%char :: _ => SBool
  | "I"%char :: _ => SInf
  | "N"%char :: _ => SNaN
  | "-"%char :: "I"%char :: _ => SNegInf
  | "-"%char :: _ => SNum
  | c :: _ => if Ascii.eqb c QUOTE then SText else if (48 <=? code c) && (code c <=? 57) then SNum else SOther
  | [] => SOther
  end.

Lemma digit_shape c r : is_digit c -> shape_of (c :: r) = SNum /\ shape_of ("-"%char :: c :: r) = SNum.
Proof.
  intros H. rewrite <- (chr_code c) in *. unfold is_digit in H. rewrite chr_code in H.
  assert (K : In (code c) [48; 49; 50; 51; 52; 53; 54; 55; 56; 57]) by (cbn [In]; lia).
  cbn [In] in K. decompose [or] K; try contradiction;
    match goal with E : _ = code c |- _ => rewrite <- E end; split; reflexivity.
Qed.
Lemma natural_shape s n : canonical_natural s n -> shape_of s = SNum /\ shape_of ("-"%char :: s) = SNum.
Proof. intros (N & F & _). destruct s as [|c r]; [congruence|]. inversion F; subst. now apply digit_shape. Qed.
Lemma integer_shape s n : canonical_integer s n -> shape_of s = SNum.
Proof. intros [[_ C]|[_ (r & -> & C)]]; apply natural_shape in C; apply C. Qed.
Lemma number_shape s n : json_number s n -> shape_of s = SNum.
Proof.
  intros ((x & _ & ->) & N & F & _). destruct (n_integer n) as [|c r]; [congruence|]. inversion F; subst.
  destruct (n_negative n); now apply digit_shape.
Qed.

Lemma integer_chars s n : canonical_integer s n -> ~ In "."%char s /\ ~ In "e"%char s.
Proof.
  assert (K : forall l k, canonical_natural l k -> ~ In "."%char l /\ ~ In "e"%char l).
  { intros l k (_ & F & _). rewrite Forall_forall in F. split; intros I; apply F in I; unfold is_digit in I;
      [change (code "."%char) with 46 in I|change (code "e"%char) with 101 in I]; lia. }
  intros [[_ C]|[_ (r & -> & C)]]; [eauto|]. apply K in C. cbn [In]. intuition discriminate.
Qed.
Lemma written_chars D n t : written D n t -> In "."%char t \/ In "e"%char t.
Proof.
  intros W. destruct W.
  - left. rewrite !in_app_iff. right. right. now left.
  - left. rewrite in_app_iff. right. now left.
  - left. rewrite in_app_iff. left. right. now left.
  - right. right. now left.
  - left. right. now left.
Qed.
Lemma double_chars e u s : nan_ok (e_float e) -> e_lit e = default_literals -> bits64 u -> double_finite u -> lexi e (VDouble u) = Ok s ->
  In "."%char s \/ In "e"%char s.
Proof.
  intros HN HL H F L. destruct (Req_dec (double_value u) 0) as [Z|N].
  - destruct (special_values e u HN HL H) as (_ & _ & _ & TZ). rewrite (proj2 TZ (conj F Z)) in L. injection L as <-. cbn. auto.
  - destruct (float_written e u s H F N L) as (D & n & t & _ & _ & _ & -> & W & _). rewrite !in_app_iff. apply written_chars in W. tauto.
Qed.

Lemma json_shape e m s : nan_ok (e_float e) -> e_lit e = default_literals -> json_of e m s ->
  shape_of s = match m with MNull => SNull | MBool _ => SBool | MText _ => SText | MInteger _ | MNumber _ => SNum
               | MInfinity b => if b then SNegInf else SInf | MNaN => SNaN end.
Proof.
  intros HN HL. destruct m as [|b|t|n|x|b|]; cbn [json_of].
  - now intros ->.
  - intros ->. now destruct b.
  - intros J. destruct (jsonify_exact e t) as (ts & E & _). rewrite E in J. injection J as <-. reflexivity.
  - apply integer_shape.
  - intros (u & H & F & _ & L). destruct (finite_json e u s H F) as [[n J] _].
    { destruct (floating_functions e (VDouble u) H) as (_ & _ & X). now rewrite X. }
    eapply number_shape; eauto.
  - intros ->. now destruct b.
  - now intros ->.
Qed.

Lemma integer_text_unique s n1 n2 : canonical_integer s n1 -> canonical_integer s n2 -> n1 = n2.
Proof.
  assert (D : forall r n, ~ canonical_natural ("-"%char :: r) n).
  { intros r n (_ & F & _). inversion F as [|? ? X]; subst. unfold is_digit in X. change (code "-"%char) with 45 in X. lia. }
  intros [[H1 C1]|[H1 (r1 & -> & C1)]] [[H2 C2]|[H2 (r2 & E & C2)]].
  - destruct C1 as (_ & _ & <- & _), C2 as (_ & _ & <- & _). reflexivity.
  - subst s. now apply D in C1.
  - now apply D in C2.
  - injection E as <-. destruct C1 as (_ & _ & E1 & _), C2 as (_ & _ & E2 & _). lia.
Qed.

Lemma json_iff e v w m m' s s' : platform_ok (e_platform e) -> nan_ok (e_float e) -> e_lit e = default_literals ->
  argument_ok e v -> argument_ok e w -> means v m -> means w m' ->
  jsonify_of e v = Ok s -> jsonify_of e w = Ok s' -> (s = s' <-> m = m').
Proof.
  intros HP HN HL Hv Hw Mv Mw Jv Jw.
  pose proof (json_meaning e v m s HP HN HL Hv Mv Jv) as A. pose proof (json_meaning e w m' s' HP HN HL Hw Mw Jw) as B. split.
  - intros <-. pose proof (json_shape e m s HN HL A) as P. rewrite (json_shape e m' s HN HL B) in P.
    destruct m as [|b|t|n|x|b|], m' as [|b'|t'|n'|x'|b'|]; try discriminate P; try (now destruct b); try (now destruct b'); cbn [json_of] in A, B.
    + reflexivity.
    + destruct b, b'; try reflexivity; subst s; discriminate B.
    + destruct (jsonify_decodes e t) as (y & E & D). destruct (jsonify_decodes e t') as (y' & E' & D'). congruence.
    + f_equal. eapply integer_text_unique; eauto.
    + destruct B as (u & H & F & _ & L). exfalso. pose proof (double_chars e u s HN HL H F L). apply integer_chars in A. tauto.
    + destruct A as (u & H & F & _ & L). exfalso. pose proof (double_chars e u s HN HL H F L). apply integer_chars in B. tauto.
    + destruct A as (u & H & F & <- & L), B as (u' & H' & F' & <- & L').
      assert (N : forall x, double_finite x -> ~ double_nan x).
      { intros x. unfold double_finite, double_nan. destruct (Bits.b64_of_bits x); cbn; discriminate. }
      destruct (double_injective e e u u' s HL HL H H' (N u F) (N u' F') L L') as [->|(_ & Z & _ & Z')]; congruence.
    + destruct b, b'; try reflexivity; subst s; discriminate B.
    + reflexivity.
  - intros <-. destruct m as [|b|t|n|x|b|]; cbn [json_of] in A, B; try congruence.
    + eapply canonical_integer_unique; eauto.
    + destruct A as (u & H & F & E & L), B as (u' & H' & F' & E' & L').
      assert (X : lexi e (VDouble u) = lexi e (VDouble u')).
      { apply double_is_unique; auto using default_fits. right. right. split; [exact F|]. split; [exact F'|]. congruence. }
      congruence.
Qed.
