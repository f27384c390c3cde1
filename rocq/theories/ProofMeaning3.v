(** Proofs about numbers inside of a text. *)
From Coq Require Import Reals Floats.SpecFloat.
From Flocq Require Import Core IEEE754.BinarySingleNaN.
From Verif Require Import Machine LibMachine SpecApi SpecDecimal SpecInt SpecNumber SpecIeee SpecString SpecLayout SpecJson SpecRead SpecMore
  SpecMeaning ModelItoa ModelInt ModelText ModelString ModelIeee ModelDiyfp ModelDtoa ModelFloat ModelLexi ModelPlatforms
  ProofInt ProofApi ProofFloat ProofFloat2 ProofFloat3 ProofFloat4 ProofRead ProofRead2 ProofRead3 ProofMore ProofMore2 ProofMore3 ProofMore4
  ProofMeaning.
Open Scope Z_scope.

(** Texts that denote the same are read as the same. *)
Lemma same_reads e point s1 s2 v T : point_ok point -> reads point s1 v -> reads point s2 v -> T = TFloat \/ T = TDouble \/ T = TLongDouble ->
  extract e point T s1 = extract e point T s2.
Proof.
  intros PO R1 R2 HT.
  destruct (float_extracts e point s1 v PO R1) as (y1 & A1 & L1 & (d1 & D1 & N1) & (f1 & F1 & M1)).
  destruct (float_extracts e point s2 v PO R2) as (y2 & A2 & L2 & (d2 & D2 & N2) & (f2 & F2 & M2)).
  assert (y1 = y2) as <-.
  { destruct (reading_determined (ld_prec (fe_ld (e_float e))) (ld_emax (fe_ld (e_float e))) v y1 y2 y2 false 0) as (X & _ & _). auto. }
  assert (d1 = d2) as <- by (destruct (reading_determined 53 1024 v y1 d1 d2 false 0) as (_ & X & _); auto).
  assert (f1 = f2) as <- by (destruct (reading_determined 24 128 v y1 f1 f2 false 0) as (_ & X & _); auto).
  destruct HT as [->|[->| ->]]; congruence.
Qed.
Lemma same_prefix e point s1 s2 neg ds T : integer_prefix s1 neg ds -> integer_prefix s2 neg ds ->
  (exists t, T = TInt t) \/ (exists u, T = TEnum u) \/ T = TFpos -> extract e point T s1 = extract e point T s2.
Proof.
  intros P1 P2 HT. assert (X : strtoull s1 = strtoull s2) by (rewrite (strtoull_prefix _ _ _ P1), (strtoull_prefix _ _ _ P2); reflexivity).
  destruct HT as [[t ->]|[[u ->]| ->]]; cbn [extract ExtractEnum ExtractInt bind]; unfold ExtractEnum, ExtractInt; cbn [bind]; rewrite X; reflexivity.
Qed.
Lemma number_types T : number_type T -> ((exists t, T = TInt t) \/ (exists u, T = TEnum u) \/ T = TFpos) \/
  (T = TFloat \/ T = TDouble \/ T = TLongDouble).
Proof. destruct T; cbn; intuition eauto. Qed.

(** ** White space before *)

Lemma space_not_nul ws : Forall is_space ws -> Forall (fun c => c <> NUL) ws.
Proof. apply Forall_impl. intros c H ->. unfold is_space in H. cbn in H. lia. Qed.
Lemma reads_after_space point ws s v : Forall is_space ws -> reads point s v -> reads point (ws ++ s) v.
Proof.
  intros W (t & u & ws0 & sg & r & -> & F & U & -> & W0 & H). exists (ws ++ ws0 ++ sg ++ r), u, (ws ++ ws0), sg, r.
  split; [now rewrite app_assoc|]. split; [apply Forall_app; split; [now apply space_not_nul|exact F]|]. split; [exact U|].
  split; [now rewrite <- app_assoc|]. split; [now apply Forall_app|exact H].
Qed.
Lemma prefix_after_space ws s neg ds : Forall is_space ws -> integer_prefix s neg ds -> integer_prefix (ws ++ s) neg ds.
Proof.
  intros W (ws0 & sg & rest & -> & W0 & H). exists (ws ++ ws0), sg, rest. split; [now rewrite <- app_assoc|]. split; [now apply Forall_app|exact H].
Qed.
Lemma leading_space e point T ws s : point_ok point -> number_type T -> Forall is_space ws ->
  extract e point T (ws ++ s) = extract e point T s.
Proof.
  intros PO HT W. destruct (number_types T HT) as [I|I].
  - destruct (ProofInt.integer_prefix_exists s) as (neg & ds & P). eapply same_prefix; eauto using prefix_after_space.
  - destruct (texts_denote point s PO) as (v & R & _). eapply same_reads; eauto using reads_after_space.
Qed.

(** ** Other text behind *)

Lemma starts_app P (a b : bytes) : a <> [] -> (starts_with P (a ++ b) <-> starts_with P a).
Proof. destruct a; [congruence|]. intros _. reflexivity. Qed.
Lemma prefix_before s rest neg ds : s <> [] -> ~ starts_with is_space s -> ~ starts_with is_digit rest ->
  integer_prefix s neg ds -> integer_prefix (s ++ rest) neg ds.
Proof.
  intros N S R (ws & sg & q & E & W & NS & SG & D & ND).
  assert (ws = []) as ->.
  { destruct ws as [|c ws]; [reflexivity|]. exfalso. apply S. rewrite E. cbn. now inversion W. }
  cbn [app] in E. assert (N' : sg ++ ds ++ q <> []) by congruence.
  exists [], sg, (q ++ rest). split; [rewrite E; cbn [app]; now rewrite <- !app_assoc|]. split; [constructor|].
  replace (sg ++ ds ++ q ++ rest) with ((sg ++ ds ++ q) ++ rest) by now rewrite <- !app_assoc.
  split; [now rewrite starts_app|]. split.
  - destruct SG as [SG|[SG|(-> & -> & SG)]]; [auto|auto|]. right. right. split; [reflexivity|]. split; [reflexivity|].
    cbn [app] in N'. rewrite app_assoc, starts_app by exact N'. exact SG.
  - split; [exact D|]. destruct q as [|c q]; [exact R|exact ND].
Qed.

Lemma starts_impl (P Q : ascii -> Prop) r : (forall c, P c -> Q c) -> starts_with P r -> starts_with Q r.
Proof. destruct r; cbn; auto. Qed.
Lemma ends_digit point rest : ends_number point rest -> ~ starts_with is_digit rest.
Proof. intros H X. apply H. revert X. apply starts_impl. auto. Qed.
Lemma ends_cut point t u : ends_number point (t ++ u) -> ends_number point t.
Proof. intros H X. apply H. destruct t as [|c t]; [contradiction|exact X]. Qed.

Lemma json_reads_before point s n rest : point_ok point -> json_number s n -> ends_number point rest ->
  reads point (s ++ rest) (match n_fraction n with
                 | Some _ => if ascii_dec point "."%char then whole_number n else integer_part n
                 | None => whole_number n
                 end).
Proof.
  intros PO J EN. pose proof (json_number_not_nul s n J) as NN.
  destruct (c_str_of_parts rest) as (u0 & Er0 & F0 & U0). set (k := c_str_of rest) in *. clearbody k.
  assert (EK : ends_number point k) by (apply (ends_cut point k u0); rewrite <- Er0; exact EN).
  destruct J as ((ec & Ee & E) & NI & DI & LZ & DF & DX).
  set (x := optional (fun x => ec :: fst x ++ snd x) (n_exponent n)) in *.
  set (r := n_integer n ++ optional (fun f => "."%char :: f) (n_fraction n) ++ x ++ k).
  set (sg := if n_negative n then ["-"%char] else []) in *.
  assert (R0 : exists d q, r = d :: q /\ is_digit d).
  { unfold r. destruct (n_integer n) as [|d q]; [contradiction NI; reflexivity|]. inversion DI; subst. cbn [app]. eauto. }
  destruct R0 as (d & q & Er & Dd).
  assert (NX : ~ starts_with is_digit (x ++ k)).
  { unfold x. destruct (n_exponent n) as [[a b]|]; [|exact (ends_digit point k EK)].
    cbn. unfold is_digit. destruct Ee as [->| ->]; cbn; lia. }
  assert (PE : ec <> point).
  { intros ->. destruct PO as (_ & PH & _). apply PH. right. destruct Ee as [->| ->]; cbn; lia. }
  exists (s ++ k), u0, [], sg, r. split; [rewrite <- app_assoc, <- Er0; reflexivity|]. split; [apply Forall_app; auto|]. split; [auto|].
  split; [rewrite E; unfold r; cbn [app]; now rewrite <- !app_assoc|]. split; [constructor|]. split.
  { unfold sg. rewrite Er. destruct (n_negative n); cbn; unfold is_space, is_digit in *; cbn; lia. }
  split; [unfold sg, a_sign; destruct (n_negative n); auto|]. split.
  { intros _. rewrite Er. cbn. apply digit_not_sign. exact Dd. }
  assert (SG : (if list_eq_dec ascii_dec sg ["-"%char] then true else false) = n_negative n).
  { unfold sg. destruct (n_negative n); reflexivity. }
  rewrite SG.
  assert (NH : ~ begins_hex point r).
  { intros (c & q2 & E2 & LX & _). unfold r in E2.
    destruct (n_integer n) as [|a i] eqn:EI; [contradiction NI; reflexivity|]. cbn [app] in E2. injection E2 as -> E2.
    specialize (LZ i eq_refl). subst i. cbn [app] in E2.
    assert (NC : forall b l, c :: q2 = b :: l -> b <> "."%char /\ b <> "e"%char /\ b <> "E"%char).
    { intros b l X. injection X as <- _. destruct LX as [->|LX]; [repeat split; discriminate|].
      repeat split; intros ->; cbn in LX; lia. }
    destruct (n_fraction n) as [f|].
    + cbn [optional app] in E2. symmetry in E2. apply NC in E2. tauto.
    + cbn [optional app] in E2. unfold x in E2. destruct (n_exponent n) as [[a b]|].
      * cbn [optional app] in E2. symmetry in E2. apply NC in E2. destruct Ee; tauto.
      * cbn [optional app] in E2. apply EK. rewrite E2. cbn. auto. }
  assert (BM : begins_mantissa is_digit point r) by (left; rewrite Er; exact Dd).
  assert (EX : exponent_part "e" (x ++ k) (n_exponent_value n)).
  { unfold n_exponent_value, x. destruct (n_exponent n) as [[a b]|] eqn:EX; cbn [optional fst snd].
    + destruct (DX a b eq_refl) as (S & Nb & Db). left. exists ec, a, b, k. cbn [app]. rewrite <- app_assoc.
      split; [reflexivity|]. split; [unfold letter; destruct Ee as [->| ->]; [left; reflexivity|right; reflexivity]|].
      split; [exact S|]. split; [exact Nb|]. split; [exact Db|]. split; [exact (ends_digit point k EK)|]. reflexivity.
    + right. split; [reflexivity|]. intros (m & a & b & X & LM & _). cbn [app] in X. apply EK. rewrite X. cbn. auto 6. }
  assert (WH : n_fraction n = None \/ point = "."%char -> subject point (n_negative n) r (whole_number n)).
  { intros C. split; [reflexivity|]. split; [exact NH|]. split; [exact BM|].
    exists (n_integer n), (optional (fun f => f) (n_fraction n)), (x ++ k), (n_exponent_value n).
    split; [|split; [reflexivity|split; [exact EX|reflexivity]]].
    split; [exact DI|]. split; [destruct (n_fraction n) as [f|]; [apply (DF f); reflexivity|constructor]|].
    split; [exact NX|]. unfold r. destruct (n_fraction n) as [f|]; cbn [optional].
    * right. destruct C as [C| ->]; [discriminate C|]. reflexivity.
    * left. split; [reflexivity|]. split; [reflexivity|]. unfold x. destruct (n_exponent n) as [[a b]|].
      -- exact PE.
      -- cbn [optional app]. intros X. apply EK. revert X. apply starts_impl. auto. }
  destruct (n_fraction n) as [f|] eqn:NF; [|apply WH; auto].
  destruct (ascii_dec point "."%char) as [C|C]; [apply WH; auto|].
  split; [reflexivity|]. split; [exact NH|]. split; [exact BM|].
  exists (n_integer n), [], ("."%char :: f ++ x ++ k), 0. split; [|split; [rewrite app_nil_r; reflexivity|split; [|reflexivity]]].
  - split; [exact DI|]. split; [constructor|]. split; [cbn; unfold is_digit; cbn; lia|]. left.
    split; [reflexivity|]. split; [reflexivity|]. cbn. congruence.
  - right. split; [reflexivity|]. intros (m & a & b & X & LM & _). injection X as <- _.
    destruct LM as [LM|LM]; [discriminate LM|cbn in LM; lia].
Qed.

Lemma number_before e point T s n rest : point_ok point -> number_type T -> json_number s n -> ends_number point rest ->
  extract e point T (s ++ rest) = extract e point T s.
Proof.
  intros PO HT J EN. destruct (number_types T HT) as [I|I].
  - destruct (ProofInt.integer_prefix_exists s) as (neg & ds & P). eapply same_prefix; [|exact P|exact I].
    pose proof (ends_digit point rest EN) as ED. destruct J as ((ec & _ & E) & NI & DI & _).
    assert (K : exists c q, s = c :: q /\ (is_digit c \/ c = "-"%char)).
    { rewrite E. destruct (n_integer n) as [|c q]; [congruence|]. inversion DI; subst. destruct (n_negative n); cbn [app]; eauto. }
    destruct K as (c & q & -> & C). apply prefix_before; [discriminate| |exact ED|exact P].
    cbn. destruct C as [C| ->]; unfold is_space, is_digit in *; [lia|]. change (code "-"%char) with 45. lia.
  - eapply same_reads; [exact PO|exact (json_reads_before point s n rest PO J EN)|exact (json_reads_at point s n PO J)|exact I].
Qed.

Lemma word_before e point T (sg : bytes) w s rest : point_ok point -> number_type T -> ends_number point rest ->
  sg = [] \/ sg = ["-"%char] -> w = str "inf" \/ w = str "nan" -> s <> [] ->
  begins_word w s -> Forall (fun c => 64 < code c) s ->
  extract e point T ((sg ++ s) ++ rest) = extract e point T (sg ++ s).
Proof.
  intros PO HT EN SG W N (a & b & E & FA) UP.
  assert (ST : forall P : ascii -> Prop, (forall c, P c -> code c <= 64) -> forall q, ~ starts_with P (s ++ q)).
  { intros P HP q X. destruct s as [|c s]; [congruence|]. cbn in X. inversion UP; subst. apply HP in X. lia. }
  assert (SP : forall c, is_space c -> code c <= 64) by (unfold is_space; intros; lia).
  assert (SI : forall c, is_sign c -> code c <= 64) by (intros c [->| ->]; vm_compute; discriminate).
  assert (DI : forall c, is_digit c -> code c <= 64) by (unfold is_digit; intros; lia).
  destruct (number_types T HT) as [I|I].
  - assert (P : forall q, integer_prefix (sg ++ s ++ q) (if list_eq_dec ascii_dec sg ["-"%char] then true else false) []).
    { intros q. exists [], sg, (s ++ q). split; [reflexivity|]. split; [constructor|]. split.
      - destruct SG as [->| ->]; cbn [app]; [apply ST, SP|]. cbn. unfold is_space. change (code "-"%char) with 45. lia.
      - split; [|split; [constructor|apply ST, DI]]. destruct SG as [->| ->]; cbn [app list_eq_dec]; [|left; split; reflexivity].
        right. right. split; [reflexivity|]. split; [reflexivity|]. apply ST, SI. }
    eapply same_prefix; [|rewrite <- (app_nil_r s); exact (P [])|exact I]. rewrite <- app_assoc. apply P.
  - destruct (c_str_of_parts rest) as (u0 & Er0 & F0 & U0). set (k := c_str_of rest) in *. clearbody k.
    assert (NN : Forall (fun c => c <> NUL) s) by (revert UP; apply Forall_impl; intros c X ->; vm_compute in X; discriminate X).
    set (neg := if list_eq_dec ascii_dec sg ["-"%char] then true else false).
    set (v := if list_eq_dec ascii_dec w (str "inf") then DInfinity neg else DNan).
    assert (P : forall q u, Forall (fun c => c <> NUL) q -> u = [] \/ starts_with (fun c => c = NUL) u -> reads point ((sg ++ s ++ q) ++ u) v).
    { intros q u FQ U. exists (sg ++ s ++ q), u, [], sg, (s ++ q). split; [reflexivity|]. split.
      { apply Forall_app. split; [destruct SG as [->| ->]; repeat constructor; discriminate|]. now apply Forall_app. }
      split; [exact U|]. split; [reflexivity|]. split; [constructor|]. split.
      { destruct SG as [->| ->]; cbn [app]; [apply ST, SP|]. cbn. unfold is_space. change (code "-"%char) with 45. lia. }
      split; [unfold a_sign; tauto|]. split; [intros _; apply ST, SI|].
      assert (BW : begins_word w (s ++ q)) by (exists a, (b ++ q); rewrite E, <- app_assoc; auto).
      unfold v. destruct W as [->| ->]; cbn; auto. }
    eapply same_reads; [exact PO| | |exact I].
    + rewrite Er0. replace ((sg ++ s) ++ k ++ u0) with ((sg ++ s ++ k) ++ u0) by now rewrite <- !app_assoc. apply P; auto.
    + replace (sg ++ s) with ((sg ++ s ++ []) ++ []) by now rewrite !app_nil_r. apply P; auto.
Qed.

Lemma number_text e v s : platform_ok (e_platform e) -> nan_ok (e_float e) -> e_lit e = default_literals -> argument_ok e v -> is_number v ->
  lexi e v = Ok s -> (exists n, json_number s n) \/ s = str "NaN" \/ s = str "Infinity" \/ s = str "-Infinity".
Proof.
  intros HP HN HL HV N L. assert (J : jsonify_of e v = Ok s).
  { assert (V : value_ok e v) by (destruct v; try contradiction N; exact HV).
    assert (X : exists f, Format e v = Ok f).
    { destruct v; try contradiction N; cbn [lexi] in L; destruct (Format e _) as [f| | |]; try discriminate L; eauto. }
    destruct X as [f E]. destruct (all_views e v f HP HN HL V E) as (s' & L' & _ & _ & W).
    destruct W as [_ W]; [intros c ->; contradiction N|]. congruence. }
  destruct (meaning_exists e v HV) as [m M]. pose proof (json_meaning e v m s HP HN HL HV M J) as A.
  destruct m as [|b|t|n|x|b|]; cbn [json_of] in A.
  - exfalso. destruct v; try contradiction N; cbn [means] in M; try discriminate M.
    + decompose [or and ex] M; discriminate.
    + decompose [or and ex] M; discriminate.
    + destruct x; decompose [or and ex] M; discriminate.
  - exfalso. destruct v; try contradiction N; cbn [means] in M; try discriminate M.
    + decompose [or and ex] M; discriminate.
    + decompose [or and ex] M; discriminate.
    + destruct x; decompose [or and ex] M; discriminate.
  - exfalso. destruct v; try contradiction N; cbn [means] in M; try discriminate M.
    + decompose [or and ex] M; discriminate.
    + decompose [or and ex] M; discriminate.
    + destruct x; decompose [or and ex] M; discriminate.
  - left. destruct (canonical_number s n A) as (k & K & _). eauto.
  - left. destruct A as (u & H & F & _ & Lu). apply (finite_json e u s H F).
    destruct (floating_functions e (VDouble u) H) as (_ & _ & X). now rewrite X.
  - right. right. destruct b; auto.
  - auto.
Qed.

Lemma embedded_number e point T v s ws rest : platform_ok (e_platform e) -> nan_ok (e_float e) -> e_lit e = default_literals ->
  point_ok point -> argument_ok e v -> is_number v -> number_type T -> lexi e v = Ok s -> Forall is_space ws -> ends_number point rest ->
  extract e point T (ws ++ s ++ rest) = extract e point T s.
Proof.
  intros HP HN HL PO HV N HT L W EN. rewrite leading_space by assumption.
  destruct (number_text e v s HP HN HL HV N L) as [[n J]|[->|[->| ->]]].
  - eapply number_before; eauto.
  - apply (word_before e point T [] (str "nan") (str "NaN")); auto; [discriminate| |repeat constructor].
    exists (str "NaN"), []. split; [reflexivity|]. repeat constructor; (now left) || (right; reflexivity).
  - apply (word_before e point T [] (str "inf") (str "Infinity")); auto; [discriminate| |repeat constructor].
    exists (str "Inf"), (str "inity"). split; [reflexivity|]. repeat constructor; (now left) || (right; reflexivity).
  - apply (word_before e point T ["-"%char] (str "inf") (str "Infinity")); auto; [discriminate| |repeat constructor].
    exists (str "Inf"), (str "inity"). split; [reflexivity|]. repeat constructor; (now left) || (right; reflexivity).
Qed.
