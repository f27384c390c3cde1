(** Reading floating point texts: strtold of ModelFloat.v meets SpecRead.v. *)
From Coq Require Import Reals Lra Psatz Floats.SpecFloat.
From Flocq Require Import Core.
From Flocq Require Import IEEE754.BinarySingleNaN.
From Verif Require Import Machine LibMachine SpecDecimal SpecInt SpecNumber SpecIeee SpecRead
  ModelInt ModelFloat ProofInt ProofRound.
Open Scope Z_scope.
Ltac Zify.zify_post_hook ::= idtac.

(** ** Characters and words *)

Lemma tolower_letter l c : 97 <= code l <= 122 -> c_tolower c = l <-> letter l c.
Proof.
  intros Hl. unfold letter, c_tolower. pose proof (code_range c).
  destruct ((65 <=? code c) && (code c <=? 90)) eqn:B.
  - assert (X : 65 <= code c <= 90) by lia. split.
    + intros <-. right. rewrite code_chr by lia. reflexivity.
    + intros [->|E]; [lia|]. rewrite E. apply chr_code.
  - split; [auto|]. intros [E|E]; [exact E|]. lia.
Qed.

Lemma not_letter_tolower l c : code l < 65 -> c_tolower c = l <-> c = l.
Proof.
  intros Hl. unfold c_tolower. pose proof (code_range c). destruct ((65 <=? code c) && (code c <=? 90)) eqn:B; [|tauto].
  split; intros E.
  - rewrite <- E in Hl. rewrite code_chr in Hl by lia. lia.
  - subst. lia.
Qed.

Lemma starts_ci_iff w r : Forall (fun l => 97 <= code l <= 122) w -> starts_ci w r = true <-> begins_word w r.
Proof.
  intros H. revert r. induction H as [|l w Hl _ IH]; intros r; cbn [starts_ci].
  - split; [|auto]. intros _. exists [], r. split; [reflexivity|constructor].
  - destruct r as [|c r].
    + split; [discriminate|]. intros (a & b & E & F). inversion F; subst. discriminate E.
    + rewrite andb_true_iff, Ascii.eqb_eq, IH. split.
      * intros [E (a & b & -> & F)]. exists (c :: a), b. split; [reflexivity|]. constructor; [|exact F].
        apply tolower_letter; [exact Hl|symmetry; exact E].
      * intros (a & b & E & F). inversion F as [|? c' ? a' F1 F2]; subst. injection E as -> ->. split.
        -- symmetry. apply tolower_letter; assumption.
        -- exists a', b. auto.
Qed.

Lemma starts_hex_iff r : starts_ci (str "0x") r = true <-> exists c q, r = "0"%char :: c :: q /\ letter "x" c.
Proof.
  change (str "0x") with ["0"; "x"]%char. destruct r as [|a [|b r]]; cbn [starts_ci].
  - split; [discriminate|]. intros (c & q & E & _). discriminate E.
  - rewrite andb_false_r. split; [discriminate|]. intros (c & q & E & _). discriminate E.
  - rewrite !andb_true_iff, !Ascii.eqb_eq. split.
    + intros (E1 & E2 & _). symmetry in E1. apply (proj1 (not_letter_tolower "0" a ltac:(cbn; lia))) in E1. subst a.
      exists b, r. split; [reflexivity|]. apply tolower_letter; [cbn; lia|symmetry; exact E2].
    + intros (c & q & E & L). injection E as -> -> ->. split; [reflexivity|]. split; [|reflexivity].
      symmetry. apply tolower_letter; [cbn; lia|exact L].
Qed.

Lemma c_isxdigit_iff c : c_isxdigit c = true <-> is_hex_digit c.
Proof.
  unfold c_isxdigit, is_hex_digit. rewrite orb_true_iff, c_isdigit_iff. unfold is_digit. pose proof (code_range c).
  unfold c_tolower. destruct ((65 <=? code c) && (code c <=? 90)) eqn:B; [rewrite code_chr by lia|]; lia.
Qed.

Lemma xdigit_value_eq c : is_hex_digit c -> xdigit_value c = hex_digit_value c.
Proof.
  intros H. unfold xdigit_value, hex_digit_value, is_hex_digit, is_digit in *. pose proof (code_range c).
  unfold c_isdigit, c_tolower.
  destruct (Z.leb_spec (code c) 57); destruct (Z.leb_spec 48 (code c)); cbn [andb]; [reflexivity|lia| |lia].
  destruct (Z.leb_spec (code c) 70).
  - destruct (Z.leb_spec 65 (code c)); [|lia]. destruct (Z.leb_spec (code c) 90); [|lia]. cbn [andb]. rewrite code_chr by lia. lia.
  - destruct (Z.leb_spec 65 (code c)); [|lia]. destruct (Z.leb_spec (code c) 90); [lia|]. reflexivity.
Qed.

(** ** Runs of digits *)

Lemma span_spec (p : ascii -> bool) (P : ascii -> Prop) s : (forall c, p c = true <-> P c) ->
  let '(a, b) := span p s in s = a ++ b /\ Forall P a /\ ~ starts_with P b.
Proof.
  intros H. induction s as [|c s IH]; cbn [span]; [auto|].
  destruct (p c) eqn:E.
  - destruct (span p s) as [a b]. destruct IH as (-> & F & N). split; [reflexivity|]. split; [|exact N].
    constructor; [apply H; exact E|exact F].
  - split; [reflexivity|]. split; [constructor|]. cbn. rewrite <- H, E. discriminate.
Qed.

Lemma span_eq (p : ascii -> bool) (P : ascii -> Prop) a b : (forall c, p c = true <-> P c) ->
  Forall P a -> ~ starts_with P b -> span p (a ++ b) = (a, b).
Proof.
  intros H F N. induction F as [|c a Hc _ IH]; cbn [app span].
  - destruct b as [|c b]; [reflexivity|]. cbn [span]. destruct (p c) eqn:E; [|reflexivity].
    contradiction N. cbn. apply H. exact E.
  - rewrite (proj2 (H c) Hc), IH. reflexivity.
Qed.

Lemma mantissa_scan (p : ascii -> bool) (P : ascii -> Prop) point r ip fp rest : (forall c, p c = true <-> P c) -> ~ P point ->
  scan_mantissa p point r = (ip, fp, rest) <-> mantissa P point r ip fp rest.
Proof.
  intros H NP. unfold mantissa. split.
  - unfold scan_mantissa. pose proof (span_spec p P r H) as S. destruct (span p r) as [a b]. destruct S as (-> & F & N).
    destruct b as [|c b].
    + intros E. injection E as <- <- <-. split; [exact F|]. split; [constructor|]. split; [exact N|]. left. auto.
    + destruct (Ascii.eqb_spec c point) as [->|Nc].
      * pose proof (span_spec p P b H) as S. destruct (span p b) as [a2 b2]. destruct S as (-> & F2 & N2).
        intros E. injection E as <- <- <-. auto 6.
      * intros E. injection E as <- <- <-. split; [exact F|]. split; [constructor|]. split; [exact N|]. left. auto.
  - intros (F1 & F2 & N & [(-> & -> & NP2)| ->]); unfold scan_mantissa.
    + rewrite (span_eq p P ip rest H F1 N). destruct rest as [|c rest]; [reflexivity|].
      destruct (Ascii.eqb_spec c point) as [->|_]; [|reflexivity]. contradiction NP2. reflexivity.
    + rewrite (span_eq p P ip (point :: fp ++ rest) H F1 NP). rewrite Ascii.eqb_refl.
      rewrite (span_eq p P fp rest H F2 N). reflexivity.
Qed.

Lemma mantissa_begins (P : ascii -> Prop) point r ip fp rest : mantissa P point r ip fp rest ->
  ~ P point -> begins_mantissa P point r <-> (length (ip ++ fp) =? 0)%nat = false.
Proof.
  intros (F1 & F2 & N & D) NP. unfold begins_mantissa. rewrite Nat.eqb_neq, app_length.
  destruct ip as [|c ip]; [destruct fp as [|c fp]|].
  - cbn [length Nat.add]. split; [|lia]. intros B. exfalso. destruct D as [(-> & _ & NP2)| ->]; cbn [app] in *.
    + destruct B as [B|(q & -> & B)]; [auto|]. apply NP2. reflexivity.
    + destruct B as [B|(q & E & B)]; [apply NP; exact B|]. injection E as <-. auto.
  - split; [cbn; lia|]. intros _. right. destruct D as [(_ & X & _)| ->]; [discriminate X|].
    eexists. split; [reflexivity|]. inversion F2; subst. assumption.
  - split; [cbn; lia|]. intros _. left. inversion F1; subst. destruct D as [(-> & _)| ->]; assumption.
Qed.

Lemma a_sign_take sg q : a_sign sg -> ~ starts_with is_sign q ->
  take_sign (sg ++ q) = ((if list_eq_dec ascii_dec sg ["-"%char] then true else false), q).
Proof.
  intros [->|[->| ->]] N; [|reflexivity|reflexivity]. cbn [app].
  rewrite take_sign_none by exact N. destruct (list_eq_dec ascii_dec [] ["-"%char]) as [X|_]; [discriminate X|reflexivity].
Qed.

Lemma take_sign_spec s : exists sg q, s = sg ++ q /\ a_sign sg /\
  take_sign s = ((if list_eq_dec ascii_dec sg ["-"%char] then true else false), q) /\ (sg = [] -> ~ starts_with is_sign q).
Proof.
  destruct s as [|c s].
  - exists [], []. split; [reflexivity|]. split; [left; reflexivity|]. split; [reflexivity|auto].
  - destruct (ascii_dec c "+"%char) as [->|Np].
    { exists ["+"%char], s. split; [reflexivity|]. split; [right; left; reflexivity|]. split; [reflexivity|discriminate]. }
    destruct (ascii_dec c "-"%char) as [->|Nm].
    { exists ["-"%char], s. split; [reflexivity|]. split; [right; right; reflexivity|]. split; [reflexivity|discriminate]. }
    exists [], (c :: s). split; [reflexivity|]. split; [left; reflexivity|].
    assert (N : ~ starts_with is_sign (c :: s)) by (intros [X|X]; contradiction).
    split; [|auto]. rewrite take_sign_none by exact N. reflexivity.
Qed.

Lemma digit_not_sign c : is_digit c -> ~ is_sign c.
Proof. intros D [->| ->]; unfold is_digit in D; cbn in D; lia. Qed.

Lemma digits_value_10 l : digits_value 10 (fun c => code c - 48) l = numeral_value l.
Proof. reflexivity. Qed.

Lemma digits_value_16 l : Forall is_hex_digit l -> digits_value 16 xdigit_value l = hex_value l.
Proof.
  unfold digits_value, hex_value. generalize 0. intros a H. revert a. induction H as [|c l Hc _ IH]; intros a; [reflexivity|].
  cbn [fold_left]. rewrite xdigit_value_eq by exact Hc. apply IH.
Qed.

Lemma exponent_scan mark r x : 97 <= code mark <= 122 -> exponent_part mark r x <-> scan_exponent mark r = x.
Proof.
  intros Hm. unfold exponent_part. split.
  - intros [(m & sg & ds & rest & -> & L & S & Nd & F & N & ->)|(-> & N)].
    + cbn [scan_exponent]. rewrite (proj2 (tolower_letter mark m Hm) L), Ascii.eqb_refl.
      rewrite a_sign_take; [|exact S|].
      * rewrite (span_eq c_isdigit is_digit ds rest c_isdigit_iff F N). rewrite digits_value_10.
        destruct (list_eq_dec _ _ _); reflexivity.
      * destruct ds as [|d ds]; [contradiction|]. inversion F; subst. cbn. apply digit_not_sign. assumption.
    + destruct r as [|m r]; [reflexivity|]. cbn [scan_exponent].
      destruct (Ascii.eqb_spec (c_tolower m) mark) as [L|_]; [|reflexivity].
      apply tolower_letter in L; [|exact Hm].
      destruct (take_sign_spec r) as (sg & q & -> & S & T & _). rewrite T.
      pose proof (span_spec c_isdigit is_digit q c_isdigit_iff) as X. destruct (span c_isdigit q) as [ds rest].
      destruct X as (-> & F & Nr). destruct ds as [|d ds].
      * cbn. destruct (list_eq_dec _ _ _); reflexivity.
      * exfalso. apply N. exists m, sg, ((d :: ds) ++ rest). split; [reflexivity|]. split; [exact L|]. split; [exact S|].
        inversion F; subst. assumption.
  - intros <-. destruct r as [|m r].
    + right. split; [reflexivity|]. intros (m & sg & q & E & _). discriminate E.
    + cbn [scan_exponent]. destruct (Ascii.eqb_spec (c_tolower m) mark) as [L|Nl].
      * apply tolower_letter in L; [|exact Hm].
        destruct (take_sign_spec r) as (sg & q & -> & S & T & NS). rewrite T.
        pose proof (span_spec c_isdigit is_digit q c_isdigit_iff) as X. destruct (span c_isdigit q) as [ds rest].
        destruct X as (-> & F & Nr). destruct ds as [|d ds].
        -- right. split; [cbn; destruct (list_eq_dec _ _ _); reflexivity|].
           intros (m' & sg' & q' & E & L' & S' & D'). injection E as <- E. cbn [app] in *.
           assert (X : take_sign (sg' ++ q') = take_sign (sg ++ rest)) by congruence.
           rewrite T in X. rewrite a_sign_take in X; [|exact S'|].
           ++ injection X as _ X. subst q'. contradiction.
           ++ destruct q' as [|d q']; [contradiction D'|]. apply digit_not_sign. exact D'.
        -- left. exists m, sg, (d :: ds), rest. split; [reflexivity|]. split; [exact L|]. split; [exact S|].
           split; [discriminate|]. split; [exact F|]. split; [exact Nr|]. rewrite digits_value_10.
           destruct (list_eq_dec _ _ _); reflexivity.
      * right. split; [reflexivity|]. intros (m' & sg & q & E & L & _). injection E as <- _.
        apply Nl. apply tolower_letter; assumption.
Qed.

(** ** What strtold reads *)

Definition subject_of (point : ascii) (neg : bool) (r : bytes) : denoted :=
  if starts_ci (str "inf") r then DInfinity neg
  else if starts_ci (str "nan") r then DNan
  else
    let decimal :=
      let '(ip, fp, r1) := scan_mantissa c_isdigit point r in
      if (length (ip ++ fp) =? 0)%nat then DNothing
      else DDecimal neg (numeral_value (ip ++ fp)) (scan_exponent "e"%char r1 - Z.of_nat (length fp)) in
    if starts_ci (str "0x") r then
      let '(ip, fp, r1) := scan_mantissa c_isxdigit point (skipn 2 r) in
      if (length (ip ++ fp) =? 0)%nat then decimal
      else DHex neg (digits_value 16 xdigit_value (ip ++ fp)) (scan_exponent "p"%char r1 - 4 * Z.of_nat (length fp))
    else decimal.

Definition denote (point : ascii) (s : bytes) : denoted :=
  let '(neg, r) := take_sign (skip_space (c_str_of s)) in subject_of point neg r.

Definition float_of (prec emax : Z) (v : denoted) : spec_float :=
  match v with
  | DDecimal neg D K => round_decimal prec emax neg D K
  | DHex neg M E => SpecFloat.binary_normalize prec emax (cond_Zopp neg M) E neg
  | DInfinity neg => S754_infinity neg
  | DNan => S754_nan
  | DNothing => S754_zero false
  end.

Lemma strtold_denote prec emax point s : strtold prec emax point s = float_of prec emax (denote point s).
Proof.
  unfold strtold, denote. destruct (take_sign _) as [neg r]. unfold subject_of.
  destruct (starts_ci (str "inf") r); [reflexivity|]. destruct (starts_ci (str "nan") r); [reflexivity|].
  destruct (scan_mantissa c_isdigit point r) as [[ip fp] r1].
  destruct (starts_ci (str "0x") r).
  - destruct (scan_mantissa c_isxdigit point (skipn 2 r)) as [[ip' fp'] r1'].
    destruct (length (ip' ++ fp') =? 0)%nat; [|reflexivity].
    destruct (length (ip ++ fp) =? 0)%nat; reflexivity.
  - destruct (length (ip ++ fp) =? 0)%nat; reflexivity.
Qed.

Lemma word_head l w r : begins_word (l :: w) r -> starts_with (letter l) r.
Proof. intros (a & b & -> & F). inversion F; subst. assumption. Qed.

Lemma subject_iff point neg r v : point_ok point -> subject point neg r v <-> v = subject_of point neg r.
Proof.
  intros (P1 & P2 & P3 & P4 & P5).
  assert (P2' : ~ is_digit point) by (unfold is_hex_digit in P2; tauto).
  pose proof (starts_ci_iff (str "inf") r ltac:(repeat constructor; cbn; lia)) as SI.
  pose proof (starts_ci_iff (str "nan") r ltac:(repeat constructor; cbn; lia)) as SN.
  pose proof (starts_hex_iff r) as SX. unfold subject_of.
  assert (HI : begins_word (str "inf") r -> starts_with (letter "i") r) by apply word_head.
  assert (HNn : begins_word (str "nan") r -> starts_with (letter "n") r) by apply word_head.
  assert (HM : begins_mantissa is_digit point r -> starts_with (fun c => is_digit c \/ c = point) r).
  { intros [B|(q & -> & B)]; [|right; reflexivity]. destruct r; [exact B|left; exact B]. }
  assert (Ci : forall c, letter "i" c -> 65 <= code c) by (intros c [->|E]; cbn in *; lia).
  assert (Cn : forall c, letter "n" c -> 65 <= code c) by (intros c [->|E]; cbn in *; lia).
  assert (IN : forall c, letter "i" c -> letter "n" c -> False) by (intros c [E|E] [E'|E']; subst; try discriminate; cbn in *; lia).
  destruct (starts_ci (str "inf") r) eqn:B1.
  { assert (W : begins_word (str "inf") r) by (apply SI; reflexivity). pose proof (HI W) as W0.
    destruct r as [|c r]; [contradiction W0|]. cbn in W0.
    destruct v as [s D0 K0|s M0 E0|s| |]; cbn [subject].
    - split; [|discriminate]. intros (_ & _ & B & _). apply HM in B. destruct B as [B|B].
      + unfold is_digit in B. specialize (Ci c W0). lia.
      + subst. contradiction.
    - split; [|discriminate]. intros (_ & c' & q & _ & _ & _ & _ & E & _). injection E as -> ->.
      specialize (Ci _ W0). cbn in Ci. lia.
    - split; [intros [-> _]; reflexivity|]. intros E. injection E as ->. auto.
    - split; [|discriminate]. intros X. apply HNn in X. exfalso. exact (IN c W0 X).
    - split; [tauto|discriminate]. }
  assert (NI : ~ begins_word (str "inf") r) by (rewrite <- SI; discriminate).
  destruct (starts_ci (str "nan") r) eqn:B2.
  { assert (W : begins_word (str "nan") r) by (apply SN; reflexivity). pose proof (HNn W) as W0.
    destruct r as [|c r]; [contradiction W0|]. cbn in W0.
    destruct v as [s D0 K0|s M0 E0|s| |]; cbn [subject].
    - split; [|discriminate]. intros (_ & _ & B & _). apply HM in B. destruct B as [B|B].
      + unfold is_digit in B. specialize (Cn c W0). lia.
      + subst. contradiction.
    - split; [|discriminate]. intros (_ & c' & q & _ & _ & _ & _ & E & _). injection E as -> ->.
      specialize (Cn _ W0). cbn in Cn. lia.
    - split; [tauto|discriminate].
    - tauto.
    - split; [tauto|discriminate]. }
  assert (NN : ~ begins_word (str "nan") r) by (rewrite <- SN; discriminate).
  destruct (scan_mantissa c_isdigit point r) as [[ip fp] r1] eqn:SM.
  pose proof (proj1 (mantissa_scan c_isdigit is_digit point r ip fp r1 c_isdigit_iff P2') SM) as M.
  pose proof (mantissa_begins _ _ _ _ _ _ M P2') as MB.
  assert (DEC : ~ begins_hex point r ->
    subject point neg r v <-> v = if (length (ip ++ fp) =? 0)%nat then DNothing
      else DDecimal neg (numeral_value (ip ++ fp)) (scan_exponent "e"%char r1 - Z.of_nat (length fp))).
  { intros NH. destruct v as [s D0 K0|s M0 E0|s| |]; cbn [subject].
    - split.
      + intros (-> & _ & B & ip' & fp' & rest' & x & M' & -> & X & ->). rewrite (proj1 MB B).
        apply (mantissa_scan c_isdigit is_digit) in M'; [|exact c_isdigit_iff|exact P2']. rewrite SM in M'.
        injection M' as <- <- <-. apply exponent_scan in X; [|cbn; lia]. rewrite X. reflexivity.
      + destruct (length (ip ++ fp) =? 0)%nat eqn:L; [discriminate|]. intros E. injection E as -> -> ->.
        split; [reflexivity|]. split; [exact NH|]. split; [apply MB; reflexivity|].
        exists ip, fp, r1, (scan_exponent "e" r1). split; [exact M|]. split; [reflexivity|]. split; [|reflexivity].
        apply exponent_scan; [cbn; lia|reflexivity].
    - split; [|destruct (length (ip ++ fp) =? 0)%nat; discriminate].
      intros (_ & c & q & _ & _ & _ & _ & E & L & B & _). exfalso. apply NH. exists c, q. auto.
    - split; [tauto|destruct (length (ip ++ fp) =? 0)%nat; discriminate].
    - split; [tauto|destruct (length (ip ++ fp) =? 0)%nat; discriminate].
    - split.
      + intros (_ & _ & B). destruct (length (ip ++ fp) =? 0)%nat; [reflexivity|]. exfalso. apply B, MB. reflexivity.
      + destruct (length (ip ++ fp) =? 0)%nat eqn:L; [|discriminate]. intros _. split; [exact NI|]. split; [exact NN|].
        rewrite MB. discriminate. }
  destruct (starts_ci (str "0x") r) eqn:B3.
  - destruct (proj1 SX eq_refl) as (c & q & -> & LX). cbn [skipn].
    destruct (scan_mantissa c_isxdigit point q) as [[ip' fp'] r1'] eqn:SM'.
    pose proof (proj1 (mantissa_scan c_isxdigit is_hex_digit point q ip' fp' r1' c_isxdigit_iff P2) SM') as M'.
    pose proof (mantissa_begins _ _ _ _ _ _ M' P2) as MB'.
    destruct (length (ip' ++ fp') =? 0)%nat eqn:L'.
    + apply DEC. intros (c' & q' & E & _ & B). injection E as <- <-. apply MB' in B. discriminate B.
    + assert (BM : begins_mantissa is_hex_digit point q) by (apply MB'; reflexivity).
      assert (HX : begins_hex point ("0"%char :: c :: q)) by (exists c, q; auto).
      assert (FH : Forall is_hex_digit (ip' ++ fp')) by (apply Forall_app; split; apply M').
      rewrite digits_value_16 by exact FH.
      destruct v as [s D0 K0|s M0 E0|s| |]; cbn [subject].
      * split; [tauto|discriminate].
      * split.
        -- intros (-> & c2 & q2 & ip2 & fp2 & rest2 & x & E & _ & _ & M2 & -> & X & ->). injection E as <- <-.
           apply (mantissa_scan c_isxdigit is_hex_digit) in M2; [|exact c_isxdigit_iff|exact P2]. rewrite SM' in M2.
           injection M2 as <- <- <-. apply exponent_scan in X; [|cbn; lia]. rewrite X. reflexivity.
        -- intros E. injection E as -> -> ->. split; [reflexivity|].
           exists c, q, ip', fp', r1', (scan_exponent "p" r1'). split; [reflexivity|]. split; [exact LX|].
           split; [exact BM|]. split; [exact M'|]. split; [reflexivity|]. split; [|reflexivity].
           apply exponent_scan; [cbn; lia|reflexivity].
      * split; [tauto|discriminate].
      * split; [tauto|discriminate].
      * split; [|discriminate]. intros (_ & _ & B). exfalso. apply B. left. cbn. unfold is_digit. cbn. lia.
  - apply DEC. intros (c & q & -> & LX & _). assert (X : false = true) by (apply SX; exists c, q; auto). discriminate X.
Qed.

Lemma c_str_of_cut t u : Forall (fun c => c <> NUL) t -> (u = [] \/ starts_with (fun c => c = NUL) u) -> c_str_of (t ++ u) = t.
Proof.
  intros F U. rewrite c_str_of_app.
  - replace (c_str_of u) with (@nil ascii); [apply app_nil_r|]. destruct U as [->|U]; [reflexivity|].
    destruct u as [|c u]; [contradiction U|]. cbn in U. subst c. reflexivity.
  - eapply Forall_impl; [|exact F]. cbn. intros c N E. apply N. apply code_inj. exact E.
Qed.

Lemma c_str_of_parts s : exists u, s = c_str_of s ++ u /\ Forall (fun c => c <> NUL) (c_str_of s) /\
  (u = [] \/ starts_with (fun c => c = NUL) u).
Proof.
  induction s as [|c s (u & E & F & U)]; cbn [c_str_of].
  - exists []. repeat split; auto.
  - destruct (Z.eqb_spec (code c) 0) as [C|C].
    + exists (c :: s). split; [reflexivity|]. split; [constructor|]. right. cbn. apply code_inj. exact C.
    + exists u. split; [cbn [app]; f_equal; exact E|]. split; [|exact U]. constructor; [|exact F]. intros ->. apply C. reflexivity.
Qed.

Lemma skip_space_parts s : exists ws, s = ws ++ skip_space s /\ Forall is_space ws /\ ~ starts_with is_space (skip_space s).
Proof.
  induction s as [|c s (ws & E & F & N)]; cbn [skip_space].
  - exists []. auto.
  - destruct (c_isspace c) eqn:C.
    + exists (c :: ws). split; [cbn [app]; f_equal; exact E|]. split; [|exact N]. constructor; [apply c_isspace_iff; exact C|exact F].
    + exists []. split; [reflexivity|]. split; [constructor|]. cbn. rewrite <- c_isspace_iff, C. discriminate.
Qed.

(** Every text denotes exactly one thing, and strtold finds it. *)
Lemma reads_denote point s v : point_ok point -> reads point s v <-> v = denote point s.
Proof.
  intros PO. split.
  - intros (t & u & ws & sg & r & -> & F & U & -> & FW & NW & S & NS & X).
    unfold denote. rewrite c_str_of_cut by assumption. rewrite skip_space_spec by assumption.
    assert (T : take_sign (sg ++ r) = ((if list_eq_dec ascii_dec sg ["-"%char] then true else false), r)).
    { destruct S as [->|[->| ->]]; [|reflexivity|reflexivity]. cbn [app]. rewrite take_sign_none by (apply NS; reflexivity).
      reflexivity. }
    rewrite T. apply subject_iff in X; [exact X|exact PO].
  - intros ->. destruct (c_str_of_parts s) as (u & E & F & U). destruct (skip_space_parts (c_str_of s)) as (ws & E2 & FW & NW).
    destruct (take_sign_spec (skip_space (c_str_of s))) as (sg & r & E3 & S & T & NS).
    exists (c_str_of s), u, ws, sg, r. rewrite <- E3.
    split; [exact E|]. split; [exact F|]. split; [exact U|]. split; [exact E2|]. split; [exact FW|]. split; [exact NW|].
    split; [exact S|]. split; [exact NS|]. apply subject_iff; [exact PO|]. unfold denote. rewrite T. reflexivity.
Qed.

(** ** The value *)

Lemma nearest_zero prec emax : 0 < prec -> nearest prec emax 0 = 0%R.
Proof. intros _. unfold nearest. apply round_0. apply valid_rnd_N. Qed.

Lemma zero_rounded prec emax neg : good_format prec emax -> rounded prec emax (S754_zero neg) neg 0.
Proof.
  intros [G _]. split; [reflexivity|]. rewrite nearest_zero by exact G. rewrite Rabs_R0, Rlt_bool_true by apply bpow_gt_0.
  auto.
Qed.

Lemma signed_opp neg x : signed neg x = (IZR (cond_Zopp neg 1) * x)%R.
Proof. destruct neg; cbn; ring. Qed.
Lemma signed_IZR neg D x : (signed neg (IZR D * x) = IZR (cond_Zopp neg D) * x)%R.
Proof. destruct neg; cbn [signed cond_Zopp]; rewrite ?opp_IZR; ring. Qed.
Lemma signed_0 neg x : signed neg (0 * x) = 0%R.
Proof. destruct neg; cbn [signed]; ring. Qed.

Lemma float_of_read prec emax v : good_format prec emax ->
  (forall neg D K, v = DDecimal neg D K -> 0 <= D) -> (forall neg M E, v = DHex neg M E -> 0 <= M) ->
  read_as prec emax v (float_of prec emax v).
Proof.
  intros G HD HM. destruct v as [neg D K|neg M E|neg| |]; cbn [read_as float_of]; [| |reflexivity..].
  - specialize (HD neg D K eq_refl). destruct (Z.eq_dec D 0) as [->|N].
    + rewrite signed_0. apply zero_rounded. exact G.
    + rewrite signed_IZR. apply (round_decimal_rounded prec emax neg D K G). lia.
  - specialize (HM neg M E eq_refl). destruct M as [|m|m]; [| |lia].
    + rewrite signed_0. change (cond_Zopp neg 0) with (if neg then 0 else 0).
      replace (SpecFloat.binary_normalize prec emax (if neg then 0 else 0) E neg) with (S754_zero neg) by (destruct neg; reflexivity).
      apply zero_rounded. exact G.
    + rewrite signed_IZR. apply (binary_normalize_rounded prec emax neg m E G).
Qed.

Lemma denote_nonneg point s :
  (forall neg D K, denote point s = DDecimal neg D K -> 0 <= D) /\ (forall neg M E, denote point s = DHex neg M E -> 0 <= M).
Proof.
  unfold denote. destruct (take_sign _) as [sg r]. unfold subject_of.
  assert (DEC : forall (ip fp r1 : bytes), scan_mantissa c_isdigit point r = (ip, fp, r1) -> 0 <= numeral_value (ip ++ fp)).
  { intros ip fp r1 E. unfold scan_mantissa in E.
    pose proof (span_spec c_isdigit is_digit r c_isdigit_iff) as S. destruct (span c_isdigit r) as [a b]. destruct S as (_ & F & _).
    assert (FF : Forall is_digit (ip ++ fp)).
    { destruct b as [|c b]; [injection E as <- <- <-; rewrite app_nil_r; exact F|].
      destruct (Ascii.eqb c point).
      - pose proof (span_spec c_isdigit is_digit b c_isdigit_iff) as S. destruct (span c_isdigit b) as [a2 b2]. destruct S as (_ & F2 & _).
        injection E as <- <- <-. apply Forall_app. auto.
      - injection E as <- <- <-. rewrite app_nil_r. exact F. }
    apply numeral_value_bounds. exact FF. }
  assert (HEX : forall l, 0 <= digits_value 16 xdigit_value l \/ ~ Forall is_hex_digit l).
  { intros l. destruct (Forall_dec is_hex_digit) with (l := l) as [F|F]; [|left|right; exact F].
    - intros c. destruct (c_isxdigit c) eqn:E; [left; apply c_isxdigit_iff; exact E|right; rewrite <- c_isxdigit_iff, E; discriminate].
    - rewrite digits_value_16 by exact F. unfold hex_value.
      assert (X : forall a, 0 <= a -> 0 <= fold_left (fun a c => 16 * a + hex_digit_value c) l a); [|apply X; lia].
      induction F as [|c l Hc _ IH]; intros a Ha; [exact Ha|]. cbn [fold_left]. apply IH.
      unfold hex_digit_value, is_hex_digit, is_digit in *. destruct (Z.leb_spec (code c) 57); [lia|]. destruct (Z.leb_spec (code c) 70); lia. }
  destruct (starts_ci (str "inf") r); [split; discriminate|]. destruct (starts_ci (str "nan") r); [split; discriminate|].
  destruct (scan_mantissa c_isdigit point r) as [[ip fp] r1] eqn:SM. specialize (DEC _ _ _ eq_refl).
  destruct (starts_ci (str "0x") r).
  - destruct (scan_mantissa c_isxdigit point (skipn 2 r)) as [[ip' fp'] r1'] eqn:SM'.
    destruct (length (ip' ++ fp') =? 0)%nat.
    + destruct (length (ip ++ fp) =? 0)%nat; split; intros s2 a b E; try discriminate E. injection E as <- <- <-. exact DEC.
    + split; intros s2 a b E; try discriminate E. injection E as <- <- <-. destruct (HEX (ip' ++ fp')) as [X|X]; [exact X|].
      exfalso. apply X. clear -SM'. unfold scan_mantissa in SM'.
      pose proof (span_spec c_isxdigit is_hex_digit (skipn 2 r) c_isxdigit_iff) as S. destruct (span c_isxdigit (skipn 2 r)) as [a b].
      destruct S as (_ & F & _). destruct b as [|c b]; [injection SM' as <- <- <-; rewrite app_nil_r; exact F|].
      destruct (Ascii.eqb c point).
      * pose proof (span_spec c_isxdigit is_hex_digit b c_isxdigit_iff) as S. destruct (span c_isxdigit b) as [a2 b2]. destruct S as (_ & F2 & _).
        injection SM' as <- <- <-. apply Forall_app. auto.
      * injection SM' as <- <- <-. rewrite app_nil_r. exact F.
  - destruct (length (ip ++ fp) =? 0)%nat; split; intros s2 a b E; try discriminate E. injection E as <- <- <-. exact DEC.
Qed.

Lemma strtold_reads prec emax point s v : good_format prec emax -> point_ok point -> reads point s v ->
  read_as prec emax v (strtold prec emax point s).
Proof.
  intros G PO R. apply reads_denote in R; [|exact PO]. rewrite strtold_denote, <- R.
  destruct (denote_nonneg point s) as [A B]. rewrite <- R in A, B. apply float_of_read; assumption.
Qed.

Lemma reads_total point s : point_ok point -> exists v, reads point s v /\ forall w, reads point s w -> w = v.
Proof.
  intros PO. exists (denote point s). split; [apply reads_denote; auto|]. intros w R. apply reads_denote in R; auto.
Qed.

Lemma convert_narrowed prec emax y : good_format prec emax -> narrowed prec emax y (convert prec emax y).
Proof.
  intros G. destruct y as [s|s| |s m e]; try reflexivity. apply (convert_rounded prec emax s m e G).
Qed.
