(** Proofs for PropLocale.v. *)
From Coq Require Import Reals Floats.SpecFloat.
From Verif Require Import Machine LibMachine SpecApi SpecDecimal SpecInt SpecNumber SpecRead SpecLocale SpecString SpecIeee ModelItoa ModelInt ModelText
  ModelIeee ModelDiyfp ModelDtoa ModelFloat ModelLexi ModelLocale ModelPlatforms
  ProofInt ProofRead ProofApi ProofFloat ProofMore3 ProofJoin ProofRead3.
Open Scope Z_scope.

Lemma nul_code c : c = NUL <-> code c = 0.
Proof. split; [intros ->; reflexivity|]. intros H. rewrite <- (chr_code c), H. reflexivity. Qed.

Lemma byte_neutral_iff c : byte_neutral c = true <-> neutral c.
Proof.
  unfold byte_neutral, neutral, is_sign, is_letter, is_digit, c_isdigit. rewrite nul_code.
  destruct (Ascii.eqb_spec c "+"%char) as [->|N1]; [vm_compute; intuition discriminate|].
  destruct (Ascii.eqb_spec c "-"%char) as [->|N2]; [vm_compute; intuition discriminate|].
  rewrite !andb_true_iff, !negb_true_iff, orb_false_iff, !andb_false_iff, !Z.leb_gt, !Z.eqb_neq.
  intuition (try congruence; lia).
Qed.

Lemma take_sign_eqb r : take_sign r =
  match r with
  | c :: q => if Ascii.eqb c "-"%char then (true, q) else if Ascii.eqb c "+"%char then (false, q) else (false, r)
  | [] => (false, [])
  end.
Proof. destruct r as [|[[] [] [] [] [] [] [] []] r]; reflexivity. Qed.

Lemma neutral_sign c : byte_neutral c = true -> Ascii.eqb c "-"%char = false /\ Ascii.eqb c "+"%char = false.
Proof.
  intros H. unfold byte_neutral in H. destruct (Ascii.eqb c "+"%char); [rewrite andb_false_r in H; discriminate|].
  destruct (Ascii.eqb c "-"%char); [rewrite andb_false_r in H; discriminate|]. auto.
Qed.

Lemma neutral_lower c a : byte_neutral c = true -> byte_neutral a = false -> Ascii.eqb a (c_tolower c) = false.
Proof.
  intros C A. destruct (Ascii.eqb_spec a (c_tolower c)) as [->|]; [|reflexivity]. exfalso.
  unfold c_tolower in A. destruct ((65 <=? code c) && (code c <=? 90)) eqn:L; [|congruence].
  apply byte_neutral_iff in C. unfold neutral, is_letter in C. lia.
Qed.

Lemma neutral_digit c : c_isdigit c = true -> byte_neutral c = false.
Proof. intros H. unfold byte_neutral. rewrite H. apply andb_false_r. Qed.

Lemma neutral_xdigit c : c_isxdigit c = true -> byte_neutral c = false.
Proof.
  intros H. destruct (byte_neutral c) eqn:B; [|reflexivity]. exfalso. apply byte_neutral_iff in B.
  unfold c_isxdigit in H. apply orb_true_iff in H. destruct H as [H|H].
  - apply neutral_digit in H. apply byte_neutral_iff in B. congruence.
  - unfold c_tolower in H. unfold neutral, is_letter in B. destruct ((65 <=? code c) && (code c <=? 90)) eqn:L; lia.
Qed.

Lemma neutral_code c : byte_neutral c = true -> code c <> 0.
Proof. intros H. apply byte_neutral_iff in H. destruct H as [H _]. rewrite nul_code in H. exact H. Qed.

Lemma after_app w s t : after w s = Some t <-> s = w ++ t.
Proof.
  revert s. induction w as [|a w IH]; intros s; cbn [after app].
  - split; [intros [= ->]; reflexivity|intros ->; reflexivity].
  - destruct s as [|c s]; [split; discriminate|]. destruct (Ascii.eqb_spec c a) as [->|N].
    + rewrite IH. split; [intros ->; reflexivity|intros [= ->]; reflexivity].
    + split; [discriminate|]. intros [= -> _]. congruence.
Qed.

Section View.
Context (l : locale) (ok : locale_ok l) (p : ascii) (np : byte_neutral p = true) (sp : c_isspace p = false).

(** The text with the first decimal point replaced by [p]. *)
Fixpoint view (r : bytes) : bytes :=
  match after (l_point l) r with
  | Some b => p :: b
  | None => match r with [] => [] | c :: r => c :: view r end
  end.
Fixpoint clean (r : bytes) : Prop :=
  match after (l_point l) r with
  | Some b => True
  | None => match r with [] => True | c :: r => c <> p /\ clean r end
  end.

Lemma after_cons c r : byte_neutral c = false -> after (l_point l) (c :: r) = None.
Proof.
  intros N. destruct ok as (_ & _ & K & _). destruct (l_point l) as [|a w]; [contradiction|]. cbn [after].
  destruct (Ascii.eqb_spec c a) as [->|]; [destruct K; congruence|reflexivity].
Qed.
Lemma after_nil : after (l_point l) [] = None.
Proof. destruct ok as (_ & _ & K & _). destruct (l_point l) as [|a w]; [contradiction|reflexivity]. Qed.
(** The byte at which the decimal point begins. *)
Lemma after_head r b : after (l_point l) r = Some b -> exists c q, r = c :: q /\ byte_neutral c = true /\ l_space l c = false.
Proof.
  intros A. apply after_app in A. destruct ok as (_ & _ & K & _). destruct (l_point l) as [|a w]; [contradiction|].
  exists a, (w ++ b). split; [exact A|exact K].
Qed.
Lemma view_cons c r : byte_neutral c = false -> view (c :: r) = c :: view r.
Proof. intros N. cbn [view]. rewrite after_cons by exact N. reflexivity. Qed.
Lemma clean_cons c r : byte_neutral c = false -> clean (c :: r) -> clean r.
Proof. intros N. cbn [clean]. rewrite after_cons by exact N. tauto. Qed.
Lemma view_nil : view [] = [].
Proof. cbn [view]. rewrite after_nil. reflexivity. Qed.

(** The head of the view of a text that begins with a neutral byte is one. *)
Lemma view_neutral c r : byte_neutral c = true -> exists c' r', view (c :: r) = c' :: r' /\ byte_neutral c' = true.
Proof. intros N. cbn [view]. destruct (after (l_point l) (c :: r)); eauto. Qed.

Lemma view_sign r : clean r ->
  exists neg q, take_sign r = (neg, q) /\ take_sign (view r) = (neg, view q) /\ clean q.
Proof.
  intros C. rewrite (take_sign_eqb r). destruct r as [|c r].
  - exists false, []. rewrite view_nil. auto.
  - destruct (byte_neutral c) eqn:N.
    + destruct (neutral_sign c N) as [-> ->]. destruct (view_neutral c r N) as (c' & r' & E & N').
      exists false, (c :: r). rewrite E, (take_sign_eqb (c' :: r')). destruct (neutral_sign c' N') as [-> ->]. auto.
    + rewrite view_cons by exact N. rewrite (take_sign_eqb (c :: view r)).
      destruct (Ascii.eqb c "-"%char); [exists true, r; eauto using clean_cons|].
      destruct (Ascii.eqb c "+"%char); [exists false, r; eauto using clean_cons|].
      exists false, (c :: r). rewrite view_cons by exact N. auto.
Qed.

Lemma view_starts w r : Forall (fun a => byte_neutral a = false) w -> starts_ci w (view r) = starts_ci w r.
Proof.
  intros F. revert r. induction F as [|a w A F IH]; intros r; [reflexivity|]. destruct r as [|c r]; [rewrite view_nil; reflexivity|].
  destruct (byte_neutral c) eqn:N.
  - destruct (view_neutral c r N) as (c' & r' & E & N'). rewrite E. cbn [starts_ci].
    rewrite !neutral_lower by assumption. reflexivity.
  - rewrite view_cons by exact N. cbn [starts_ci]. rewrite IH. reflexivity.
Qed.

Lemma view_skip w r : Forall (fun a => byte_neutral a = false) w -> clean r -> starts_ci w r = true ->
  skipn (length w) (view r) = view (skipn (length w) r) /\ clean (skipn (length w) r).
Proof.
  intros F. revert r. induction F as [|a w A F IH]; intros r C S; [auto|]. destruct r as [|c r]; [discriminate S|].
  cbn [starts_ci] in S. apply andb_true_iff in S. destruct S as [S1 S2].
  assert (N : byte_neutral c = false).
  { destruct (byte_neutral c) eqn:N; [|reflexivity]. rewrite neutral_lower in S1 by assumption. discriminate. }
  rewrite view_cons by exact N. cbn [length skipn]. apply IH; [eapply clean_cons; eauto|exact S2].
Qed.

Lemma view_span (q : ascii -> bool) r : (forall c, q c = true -> byte_neutral c = false) -> clean r ->
  exists a b, span q r = (a, b) /\ span q (view r) = (a, view b) /\ clean b.
Proof.
  intros Q. induction r as [|c r IH]; intros C.
  - exists [], []. rewrite view_nil. auto.
  - cbn [span]. destruct (q c) eqn:E.
    + rewrite view_cons by auto. cbn [span]. rewrite E. destruct (IH (clean_cons c r (Q c E) C)) as (a & b & -> & -> & Cb).
      exists (c :: a), b. auto.
    + exists [], (c :: r). split; [reflexivity|]. split; [|exact C].
      destruct (byte_neutral c) eqn:N.
      * destruct (view_neutral c r N) as (c' & r' & V & N'). rewrite V. cbn [span].
        destruct (q c') eqn:E'; [rewrite (Q c' E') in N'; discriminate|reflexivity].
      * rewrite view_cons by exact N. cbn [span]. rewrite E. reflexivity.
Qed.

Lemma view_exponent m r : byte_neutral m = false -> clean r -> scan_exponent m (view r) = scan_exponent m r.
Proof.
  intros M C. destruct r as [|c r]; [rewrite view_nil; reflexivity|].
  assert (X : forall c r, byte_neutral c = true -> scan_exponent m (c :: r) = 0).
  { intros c0 r0 N. unfold scan_exponent. destruct (Ascii.eqb_spec (c_tolower c0) m) as [E|]; [|reflexivity].
    rewrite <- E in M. pose proof (neutral_lower c0 _ N M) as F. rewrite Ascii.eqb_refl in F. discriminate. }
  destruct (byte_neutral c) eqn:N.
  - destruct (view_neutral c r N) as (c' & r' & V & N'). rewrite V, !X by assumption. reflexivity.
  - rewrite view_cons by exact N. unfold scan_exponent. destruct (Ascii.eqb (c_tolower c) m); [|reflexivity].
    destruct (view_sign r (clean_cons c r N C)) as (neg & q & -> & -> & Cq).
    destruct (view_span c_isdigit q neutral_digit Cq) as (a & b & -> & -> & _). reflexivity.
Qed.

Lemma view_mantissa (q : ascii -> bool) m r : (forall c, q c = true -> byte_neutral c = false) -> byte_neutral m = false -> clean r ->
  exists ip fp r1 r2, scan_mantissa_in l q r = (ip, fp, r1) /\ scan_mantissa q p (view r) = (ip, fp, r2) /\
    scan_exponent m r1 = scan_exponent m r2.
Proof.
  intros Q M C. unfold scan_mantissa_in, scan_mantissa. destruct (view_span q r Q C) as (a & b & -> & -> & Cb).
  destruct (after (l_point l) b) as [b1|] eqn:A.
  - replace (view b) with (p :: b1) by (destruct b; cbn [view]; rewrite A; reflexivity).
    rewrite Ascii.eqb_refl. destruct (span q b1) as [fp r2]. eauto 8.
  - destruct b as [|c b].
    + rewrite view_nil. eauto 8.
    + pose proof Cb as Cb'. pose proof (view_exponent m (c :: b) M Cb) as X. cbn [view clean] in X, Cb' |- *. rewrite A in X, Cb' |- *.
      destruct (Ascii.eqb_spec c p) as [->|]; [destruct Cb'; congruence|]. eauto 8.
Qed.

Lemma after_prefix r b : after (l_point l) r = Some b -> after (l_point l) (c_str_of r) = Some (c_str_of b).
Proof.
  rewrite !after_app. intros ->. apply c_str_of_app. destruct ok as (_ & _ & _ & N).
  rewrite Forall_forall. intros c I E. apply N. apply nul_code in E. subst c. exact I.
Qed.
Lemma after_none r : after (l_point l) r = None -> after (l_point l) (c_str_of r) = None.
Proof.
  intros A. destruct (after (l_point l) (c_str_of r)) as [b|] eqn:B; [|reflexivity]. exfalso.
  destruct (c_str_of_parts r) as (u & E & _). apply after_app in B. rewrite B, <- app_assoc in E.
  assert (X : after (l_point l) r = Some (b ++ u)) by (apply after_app; exact E). congruence.
Qed.

Lemma view_c_str r : c_str_of (view r) = view (c_str_of r).
Proof.
  induction r as [|c r IH]; [rewrite view_nil; cbn [c_str_of]; rewrite view_nil; reflexivity|].
  destruct (after (l_point l) (c :: r)) as [b|] eqn:A.
  - pose proof (after_prefix _ _ A) as B. replace (view (c :: r)) with (p :: b) by (cbn [view]; rewrite A; reflexivity).
    replace (view (c_str_of (c :: r))) with (p :: c_str_of b) by (destruct (c_str_of (c :: r)); cbn [view]; rewrite B; reflexivity).
    cbn [c_str_of]. destruct (Z.eqb_spec (code p) 0) as [E|]; [destruct (neutral_code p np E)|reflexivity].
  - replace (view (c :: r)) with (c :: view r) by (cbn [view]; rewrite A; reflexivity). pose proof (after_none _ A) as B.
    cbn [c_str_of] in *. destruct (code c =? 0); [rewrite view_nil; reflexivity|]. cbn [view]. rewrite B, IH. reflexivity.
Qed.
Lemma clean_c_str r : clean r -> clean (c_str_of r).
Proof.
  induction r as [|c r IH]; intros C; [exact C|]. destruct (after (l_point l) (c :: r)) as [b|] eqn:A.
  - pose proof (after_prefix _ _ A) as B. destruct (c_str_of (c :: r)); cbn [clean]; rewrite B; exact I.
  - cbn [clean] in C. rewrite A in C. pose proof (after_none _ A) as B. cbn [c_str_of] in *.
    destruct (code c =? 0); cbn [clean]; rewrite B; [exact I|]. split; [apply C|apply IH, C].
Qed.

Lemma skip_in ws r : Forall (fun c => l_space l c = true) ws -> ~ starts_with (fun c => l_space l c = true) r ->
  skip_space_in l (c_str_of (ws ++ r)) = c_str_of r.
Proof.
  intros F N. rewrite c_str_of_app.
  2: { eapply Forall_impl; [|exact F]. intros c S. apply neutral_code. destruct ok as (_ & K & _). auto. }
  induction F as [|c ws C F IH]; cbn [app skip_space_in].
  - destruct r as [|c r]; [reflexivity|]. cbn [c_str_of]. cbn [starts_with] in N. destruct (code c =? 0); [reflexivity|].
    cbn [skip_space_in]. destruct (l_space l c); [exfalso; apply N; reflexivity|reflexivity].
  - rewrite C. exact IH.
Qed.

Lemma space_in c : l_space l c = false -> c_isspace c = false.
Proof. intros H. destruct (c_isspace c) eqn:E; [|reflexivity]. destruct ok as (K & _). rewrite K in H by exact E. discriminate. Qed.

Lemma view_no_space r : ~ starts_with (fun c => l_space l c = true) r -> skip_space (c_str_of (view r)) = c_str_of (view r).
Proof.
  intros N. assert (X : exists v, view r = v /\ ~ starts_with (fun c => c_isspace c = true) v).
  { eexists. split; [reflexivity|]. destruct r as [|c r]; [rewrite view_nil; exact (fun f => f)|]. cbn [view].
    destruct (after (l_point l) (c :: r)); cbn [starts_with] in *.
    - rewrite sp. discriminate.
    - intros E. apply N. destruct ok as (K & _). auto. }
  destruct X as ([|c v] & -> & X); [reflexivity|]. cbn [c_str_of starts_with] in *. destruct (code c =? 0); [reflexivity|].
  cbn [skip_space]. destruct (c_isspace c); [exfalso; apply X; reflexivity|reflexivity].
Qed.

Lemma strtold_view prec emax ws r : Forall (fun c => l_space l c = true) ws -> ~ starts_with (fun c => l_space l c = true) r -> clean r ->
  strtold_in prec emax l (ws ++ r) = strtold prec emax p (view r).
Proof.
  intros F N C. unfold strtold_in, strtold. rewrite skip_in, view_no_space, view_c_str by assumption.
  apply clean_c_str in C. revert C. generalize (c_str_of r). clear r N. intros r C.
  destruct (view_sign r C) as (neg & q & -> & -> & Cq). clear r C.
  rewrite !view_starts by (repeat constructor).
  destruct (starts_ci (str "inf") q); [reflexivity|]. destruct (starts_ci (str "nan") q); [reflexivity|].
  destruct (view_mantissa c_isdigit "e"%char q neutral_digit eq_refl Cq) as (ip & fp & r1 & r2 & -> & -> & ->).
  destruct (starts_ci (str "0x") q) eqn:X; [|reflexivity].
  assert (Z : Forall (fun a => byte_neutral a = false) (str "0x")) by (repeat constructor).
  destruct (view_skip (str "0x") q Z Cq X) as [E C2].
  change (length (str "0x")) with 2%nat in E, C2. rewrite E.
  destruct (view_mantissa c_isxdigit "p"%char _ neutral_xdigit eq_refl C2) as (ip' & fp' & r1' & r2' & -> & -> & ->). reflexivity.
Qed.

Lemma view_first r a b : first_occurrence (l_point l) r a b -> ~ In p a -> view r = a ++ p :: b /\ clean r.
Proof.
  intros [-> O]. induction a as [|c a IH]; intros P.
  - cbn [app]. assert (A : after (l_point l) (l_point l ++ b) = Some b) by (apply after_app; reflexivity).
    destruct (l_point l ++ b) eqn:E; cbn [view clean]; rewrite A; auto.
  - cbn [app]. assert (A : after (l_point l) (c :: a ++ l_point l ++ b) = None).
    { destruct (after (l_point l) (c :: a ++ l_point l ++ b)) as [t|] eqn:A; [|reflexivity]. exfalso. apply O.
      apply after_app in A. destruct ok as (_ & _ & K & _).
      assert (NE : l_point l <> []) by (intros E; rewrite E in K; exact K).
      pose proof (app_removelast_last NUL NE) as RL.
      exists [], (skipn (length (l_point l)) ((c :: a) ++ removelast (l_point l))). cbn [app].
      assert (L : (length (l_point l) <= length ((c :: a) ++ removelast (l_point l)))%nat).
      { rewrite RL at 1. rewrite !app_length. cbn [length]. lia. }
      assert (E : firstn (length (l_point l)) ((c :: a) ++ removelast (l_point l)) = l_point l).
      { transitivity (firstn (length (l_point l)) (((c :: a) ++ removelast (l_point l)) ++ [last (l_point l) NUL] ++ b)).
        - rewrite (firstn_app (length (l_point l)) _ ([_] ++ b)).
          replace (length (l_point l) - _)%nat with 0%nat by lia. cbn [firstn]. rewrite app_nil_r. reflexivity.
        - replace (((c :: a) ++ removelast (l_point l)) ++ [last (l_point l) NUL] ++ b) with (l_point l ++ t).
          + rewrite firstn_app, Nat.sub_diag, firstn_all. cbn [firstn]. apply app_nil_r.
          + rewrite <- A. rewrite <- app_assoc, (app_assoc (removelast _)), <- RL. reflexivity. }
      rewrite <- E at 2. symmetry. apply firstn_skipn. }
    destruct IH as [V C].
    + intros (x & y & E). apply O. exists (c :: x), y. cbn [app]. f_equal. exact E.
    + intros I. apply P. right. exact I.
    + cbn [view clean]. rewrite A, V. split; [reflexivity|]. split; [|exact C]. intros ->. apply P. left. reflexivity.
Qed.

Lemma view_none r : ~ occurs (l_point l) r -> ~ In p r -> view r = r /\ clean r.
Proof.
  induction r as [|c r IH]; intros O P.
  - rewrite view_nil. split; [reflexivity|]. cbn [clean]. rewrite after_nil. exact I.
  - destruct (after (l_point l) (c :: r)) as [t|] eqn:A.
    { exfalso. apply O. exists [], t. apply after_app in A. exact A. }
    destruct IH as [V C].
    + intros (x & y & E). apply O. exists (c :: x), y. cbn [app]. f_equal. exact E.
    + intros I. apply P. right. exact I.
    + cbn [view clean]. rewrite A, V. split; [reflexivity|]. split; [|exact C]. intros ->. apply P. left. reflexivity.
Qed.
End View.

(** A locale as the standard asks, in the words of the specification. *)
Lemma locale_ok_iff l : locale_ok l <->
  (forall c, is_space c -> l_space l c = true) /\ (forall c, l_space l c = true -> neutral c) /\
  (exists c w, l_point l = c :: w /\ neutral c /\ l_space l c = false) /\ ~ In NUL (l_point l).
Proof.
  unfold locale_ok. split; intros (A & B & C & D).
  - split; [intros c S; apply A, c_isspace_iff, S|]. split; [intros c S; apply byte_neutral_iff, B, S|]. split; [|exact D].
    destruct (l_point l) as [|c w]; [contradiction|]. exists c, w. rewrite <- byte_neutral_iff. tauto.
  - split; [intros c S; apply A, c_isspace_iff, S|]. split; [intros c S; apply byte_neutral_iff, B, S|]. split; [|exact D].
    destruct C as (c & w & -> & N & S). rewrite byte_neutral_iff. auto.
Qed.

Definition floating_type (T : extract_type) : Prop := T = TFloat \/ T = TDouble \/ T = TLongDouble.

Lemma floating_point l e p ws r a b T : locale_ok l -> neutral p -> ~ is_space p -> floating_type T ->
  Forall (fun c => l_space l c = true) ws -> ~ starts_with (fun c => l_space l c = true) r ->
  first_occurrence (l_point l) r a b -> ~ In p a ->
  extract_in e l T (ws ++ r) = extract e p T (a ++ p :: b).
Proof.
  intros K N S HT F W O P. apply byte_neutral_iff in N. rewrite <- c_isspace_iff in S. apply not_true_is_false in S.
  destruct (view_first l K p r a b O P) as [V C].
  destruct HT as [->|[->| ->]]; unfold extract_in, extract, ExtractFloat; cbn [bind];
    rewrite (strtold_view l K p N S _ _ ws r F W C), V; reflexivity.
Qed.

Lemma floating_none l e p ws r T : locale_ok l -> neutral p -> ~ is_space p -> floating_type T ->
  Forall (fun c => l_space l c = true) ws -> ~ starts_with (fun c => l_space l c = true) r ->
  ~ occurs (l_point l) r -> ~ In p r ->
  extract_in e l T (ws ++ r) = extract e p T r.
Proof.
  intros K N S HT F W O P. apply byte_neutral_iff in N. rewrite <- c_isspace_iff in S. apply not_true_is_false in S.
  destruct (view_none l K p r O P) as [V C].
  destruct HT as [->|[->| ->]]; unfold extract_in, extract, ExtractFloat; cbn [bind];
    rewrite (strtold_view l K p N S _ _ ws r F W C), V; reflexivity.
Qed.

Definition integral_type (T : extract_type) : Prop := (exists t, T = TInt t) \/ (exists u, T = TEnum u) \/ T = TFpos.
Lemma integral l e p ws r T : locale_ok l -> integral_type T ->
  Forall (fun c => l_space l c = true) ws -> ~ starts_with (fun c => l_space l c = true) r ->
  extract_in e l T (ws ++ r) = extract e p T r.
Proof.
  intros K HT F W. assert (E : strtoull_in l (ws ++ r) = strtoull r).
  { unfold strtoull_in, strtoull. rewrite (skip_in l K ws r F W). replace (skip_space (c_str_of r)) with (c_str_of r); [reflexivity|].
    destruct r as [|c r]; [reflexivity|]. cbn [c_str_of starts_with] in *. destruct (code c =? 0); [reflexivity|].
    cbn [skip_space]. destruct (c_isspace c) eqn:S; [|reflexivity]. exfalso. apply W, K, S. }
  destruct HT as [[t ->]|[[u ->]| ->]]; unfold extract_in, extract, ExtractEnum, ExtractInt; cbn [bind]; rewrite E; reflexivity.
Qed.

Lemma others l e p T s : ~ integral_type T -> ~ floating_type T -> extract_in e l T s = extract e p T s.
Proof.
  intros I F. destruct T; try reflexivity; exfalso; solve [apply F; unfold floating_type; auto 6 | apply I; unfold integral_type; eauto 6].
Qed.

Lemma model e p T s : neutral p -> ~ is_space p -> extract_in e (Locale c_isspace [p]) T s = extract e p T s.
Proof.
  intros N S. set (l := Locale c_isspace [p]).
  assert (K : locale_ok l).
  { apply locale_ok_iff. split; [intros c H; apply c_isspace_iff, H|]. split.
    - intros c H. cbn in H. unfold neutral, is_sign, is_letter, is_digit. rewrite nul_code. apply c_isspace_iff in H. unfold is_space in H.
      split; [lia|]. split; [intros [->| ->]; revert H; vm_compute; intuition congruence|]. lia.
    - split; [|intros [E|[]]; exact (proj1 N E)]. exists p, []. split; [reflexivity|]. split; [exact N|].
      cbn. apply not_true_is_false. rewrite c_isspace_iff. exact S. }
  destruct (skip_space_parts s) as (ws & E & F & W). rewrite E at 1.
  assert (F' : Forall (fun c => l_space l c = true) ws) by (eapply Forall_impl; [|exact F]; intros c H; apply c_isspace_iff, H).
  assert (W' : ~ starts_with (fun c => l_space l c = true) (skip_space s)).
  { intros H. apply W. destruct (skip_space s); [exact H|]. apply c_isspace_iff, H. }
  assert (Z : extract e p T s = extract e p T (skip_space s) \/ (~ integral_type T /\ ~ floating_type T)).
  { destruct T; try (right; split; [intros [[? H]|[[? H]|H]]|intros [H|[H|H]]]; discriminate);
      left; unfold extract, ExtractEnum, ExtractInt, ExtractFloat, strtoull, strtold; cbn [bind];
      replace (skip_space (c_str_of (skip_space s))) with (skip_space (c_str_of s)); try reflexivity;
      clear; induction s as [|c s IH]; try reflexivity; cbn [skip_space];
      destruct (c_isspace c) eqn:S; try reflexivity;
      cbn [c_str_of]; replace (code c =? 0) with false by (apply c_isspace_iff in S; unfold is_space in S; lia);
      cbn [skip_space]; rewrite S; exact IH. }
  destruct Z as [Z|[I H]]; [|rewrite <- E; apply others; assumption]. rewrite Z.
  assert (B : integral_type T \/ floating_type T \/ (~ integral_type T /\ ~ floating_type T)).
  { destruct T; try (left; unfold integral_type; solve [eauto 6]); try (right; left; unfold floating_type; solve [auto 6]);
      right; right; (split; [intros [[? H]|[[? H]|H]]; discriminate|intros [H|[H|H]]; discriminate]). }
  destruct B as [B|[B|[B1 B2]]].
  - apply integral; assumption.
  - destruct (in_dec ascii_dec p (skip_space s)) as [I|I].
    + assert (X : exists a b, skip_space s = a ++ p :: b /\ ~ In p a).
      { revert I. generalize (skip_space s). clear. intros r. induction r as [|c r IH]; intros I; [contradiction I|].
        destruct (ascii_dec c p) as [->|N]; [exists [], r; auto|]. destruct I as [->|I]; [congruence|].
        destruct (IH I) as (a & b & -> & X). exists (c :: a), b. split; [reflexivity|]. intros [J|J]; congruence. }
      destruct X as (a & b & X & NI). rewrite X at 2. apply floating_point; try assumption.
      split; [exact X|]. cbn. rewrite app_nil_r. intros (x & y & ->). apply NI, in_or_app. right. left. reflexivity.
    + apply floating_none; try assumption. intros (x & y & O). apply I. rewrite O. apply in_or_app. right. left. reflexivity.
  - rewrite <- E. rewrite <- Z. apply others; assumption.
Qed.

(** ** What the library prints *)

Lemma comma_neutral : neutral ","%char /\ ~ is_space ","%char.
Proof. split; [apply byte_neutral_iff; reflexivity|]. unfold is_space. cbn. lia. Qed.

Lemma wordy_neutral c : wordy c -> neutral c -> c = "."%char.
Proof.
  unfold wordy, is_alphanumeric, neutral, is_letter, is_digit, is_sign. intros [H|[->|[->| ->]]] (A & B & C & D); try tauto; lia.
Qed.

Lemma wordy_no_point l s : locale_ok l -> Forall wordy s -> ~ In "."%char (l_point l) -> ~ occurs (l_point l) s.
Proof.
  intros K W N (x & y & ->). apply locale_ok_iff in K. destruct K as (_ & _ & (c & w & E & NC & _) & _).
  apply N. rewrite E in W |- *. left. apply Forall_app in W. destruct W as [_ W]. inversion W; subst. symmetry.
  symmetry. apply wordy_neutral; assumption.
Qed.
Lemma wordy_no_comma s : Forall wordy s -> ~ In ","%char s.
Proof.
  intros W I. rewrite Forall_forall in W. pose proof (wordy_neutral _ (W _ I) (proj1 comma_neutral)). discriminate.
Qed.

Lemma starts_plain l s : locale_ok l -> starts_with (fun c => ~ neutral c) s -> ~ starts_with (fun c => l_space l c = true) s.
Proof. intros K H S. destruct s as [|c s]; [exact S|]. cbn in *. apply H. apply locale_ok_iff in K. apply K, S. Qed.

Lemma number_plain s n : json_number s n -> starts_with (fun c => ~ neutral c) s.
Proof.
  intros J. destruct (json_number_first s n J) as (c & r & -> & H). cbn. intros (_ & B & _ & D).
  destruct H as [->|H]; [apply B; right; reflexivity|exact (D H)].
Qed.

Lemma number_in e l p s n T : locale_ok l -> json_number s n ->
  (integral_type T -> extract_in e l T s = extract e p T s) /\
  (floating_type T -> l_point l = ["."%char] -> extract_in e l T s = extract e "."%char T s) /\
  (floating_type T -> ~ In "."%char (l_point l) -> extract_in e l T s = extract e ","%char T s).
Proof.
  intros K J. pose proof (starts_plain l s K (number_plain s n J)) as S. pose proof (number_wordy s n J) as W. split; [|split].
  - intros HT. apply (integral l e p [] s T K HT); [constructor|exact S].
  - intros HT E. assert (NS : ~ is_space "."%char) by (unfold is_space; cbn; lia).
    assert (ND : neutral "."%char) by (apply byte_neutral_iff; reflexivity).
    assert (X : (exists a b, s = a ++ "."%char :: b /\ ~ In "."%char a) \/ ~ In "."%char s).
    { clear. induction s as [|c r IH]; [right; intros []|]. destruct (ascii_dec c "."%char) as [->|N]; [left; exists [], r; auto|].
      destruct IH as [(a & b & -> & X)|X]; [left|right].
      - exists (c :: a), b. split; [reflexivity|]. intros [I|I]; congruence.
      - intros [I|I]; congruence. }
    destruct X as [(a & b & X & NI)|X].
    + rewrite X at 2. apply (floating_point l e "."%char [] s a b T K ND NS HT); [constructor|exact S| |exact NI].
      rewrite E. split; [exact X|]. cbn. rewrite app_nil_r. intros (x & y & ->). apply NI, in_or_app. right. left. reflexivity.
    + apply (floating_none l e "."%char [] s T K ND NS HT); [constructor|exact S| |exact X].
      rewrite E. intros (x & y & ->). apply X, in_or_app. right. left. reflexivity.
  - intros HT N. destruct comma_neutral as [NC NS]. apply (floating_none l e ","%char [] s T K NC NS HT); [constructor|exact S| |].
    + apply wordy_no_point; assumption.
    + apply wordy_no_comma, W.
Qed.

Lemma integer_back e l t v : platform_ok (e_platform e) -> locale_ok l -> has_int_type (e_platform e) t v ->
  (let* s := lexi e (VInt t v) in extract_in e l (TInt t) s) = Ok (XInt v).
Proof.
  intros Hp K Hv. rewrite <- (proj1 (integer_round_trip e "."%char t v Hp Hv)).
  destruct (integer_formats e t v Hp Hv) as (s & -> & _ & _ & _ & C). cbn [bind].
  destruct (canonical_number s v C) as (n & J & _). apply (proj1 (number_in e l "."%char s n (TInt t) K J)). left. eauto.
Qed.
Lemma enum_back e l u v : platform_ok (e_platform e) -> locale_ok l -> underlying_has (e_platform e) u v ->
  (let* s := lexi e (VEnum u v) in extract_in e l (TEnum u) s) = Ok (XEnum v).
Proof.
  intros Hp K Hv. rewrite <- (enum_round_trip e "."%char u v Hp Hv).
  destruct (enum_formats e u v Hp Hv) as (s & -> & _ & _ & _ & C). cbn [bind].
  destruct (canonical_number s v C) as (n & J & _). apply (proj1 (number_in e l "."%char s n (TEnum u) K J)). right. left. eauto.
Qed.
Lemma fpos_back e l off : platform_ok (e_platform e) -> locale_ok l -> - 2 ^ 63 <= off < 2 ^ 63 ->
  (let* s := lexi e (VFpos off) in extract_in e l TFpos s) = Ok (XFpos off).
Proof.
  intros Hp K Hv. rewrite <- (fpos_round_trip e "."%char off Hp Hv).
  destruct (fpos_formats e off Hp Hv) as (s & -> & _ & _ & _ & C). cbn [bind].
  destruct (canonical_number s off C) as (n & J & _). apply (proj1 (number_in e l "."%char s n TFpos K J)). right. right. reflexivity.
Qed.

Lemma comma_point_ok : point_ok ","%char.
Proof. unfold point_ok, is_hex_digit, is_digit, is_sign, letter. cbn. repeat split; try lia; intuition discriminate. Qed.

(** Numbers in a locale whose decimal point has no full stop. *)
Lemma fraction_lost e l s n : locale_ok l -> json_number s n -> ~ In "."%char (l_point l) ->
  exists y, rounded (ld_prec (fe_ld (e_float e))) (ld_emax (fe_ld (e_float e))) y (n_negative n)
      (match n_fraction n with None => n_value n | Some _ => signed (n_negative n) (IZR (numeral_value (n_integer n))) end) /\
    extract_in e l TLongDouble s = Ok (XFloating y) /\
    (exists z, extract_in e l TDouble s = Ok (XFloating z) /\ narrowed 53 1024 y z) /\
    (exists z, extract_in e l TFloat s = Ok (XFloating z) /\ narrowed 24 128 y z).
Proof.
  intros K J N. assert (C : ","%char <> "."%char) by discriminate.
  destruct (locale_reads e ","%char s n comma_point_ok J C) as (y & A). exists y.
  rewrite (proj2 (proj2 (number_in e l ","%char s n TLongDouble K J))) by (unfold floating_type; auto).
  rewrite (proj2 (proj2 (number_in e l ","%char s n TDouble K J))) by (unfold floating_type; auto).
  rewrite (proj2 (proj2 (number_in e l ","%char s n TFloat K J))) by (unfold floating_type; auto). exact A.
Qed.

Lemma words_in e l T s : locale_ok l -> floating_type T -> ~ In "."%char (l_point l) \/ l_point l = ["."%char] ->
  s = str "Infinity" \/ s = str "-Infinity" \/ s = str "NaN" ->
  extract_in e l T s = extract e ","%char T s.
Proof.
  intros K HT HP HS. destruct comma_neutral as [NC NS].
  assert (W : Forall wordy s) by (destruct HS as [->|[->| ->]]; [exact (infinity_wordy false)|exact (infinity_wordy true)|exact nan_wordy]).
  apply (floating_none l e ","%char [] s T K NC NS HT); [constructor| | |apply wordy_no_comma, W].
  - apply starts_plain; [exact K|]. destruct HS as [->|[->| ->]]; cbn; rewrite <- byte_neutral_iff; vm_compute; discriminate.
  - destruct HP as [HP|HP]; [apply wordy_no_point; assumption|]. rewrite HP. intros (x & y & E).
    assert (I : In "."%char s) by (rewrite E; apply in_or_app; right; left; reflexivity).
    destruct HS as [->|[->| ->]]; vm_compute in I; intuition discriminate.
Qed.

Lemma locales_ok : locale_ok locale_C /\ locale_ok locale_ps_AF /\ locale_ok locale_1252.
Proof.
  assert (A : forall c, c_isspace c = true -> byte_neutral c = true).
  { intros c H. apply byte_neutral_iff. apply c_isspace_iff in H. unfold neutral, is_sign, is_letter, is_digit. rewrite nul_code.
    unfold is_space in H. split; [lia|]. split; [intros [->| ->]; revert H; vm_compute; intuition congruence|]. lia. }
  split; [|split]; (split; [|split; [|split; [split; reflexivity|vm_compute; intuition discriminate]]]); cbn; auto.
  - intros c ->. reflexivity.
  - intros c H. apply orb_true_iff in H. destruct H as [H|H]; [auto|]. apply Z.eqb_eq in H. rewrite <- (chr_code c), H. reflexivity.
Qed.

Lemma arabic_first : first_occurrence (l_point locale_ps_AF) (str "-2" ++ [chr 0xD9; chr 0xAB] ++ str "5") (str "-2") (str "5").
Proof.
  split; [reflexivity|]. intros (x & y & E).
  assert (I : In (chr 0xAB) (str "-2" ++ removelast (l_point locale_ps_AF))) by (rewrite E; apply in_or_app; right; right; left; reflexivity).
  vm_compute in I. intuition discriminate.
Qed.
