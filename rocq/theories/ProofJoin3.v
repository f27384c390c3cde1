(** Proofs about texts made of several results: separators and lines. *)
From Coq Require Import Reals Floats.SpecFloat.
From Flocq Require Import Core IEEE754.BinarySingleNaN.
From Verif Require Import Machine LibMachine SpecApi SpecDecimal SpecInt SpecNumber SpecIeee SpecString SpecLayout SpecJson SpecRead SpecMore
  SpecMeaning SpecJoin ModelItoa ModelInt ModelText ModelString ModelIeee ModelDiyfp ModelDtoa ModelFloat ModelLexi ModelPlatforms
  ProofString ProofApi ProofFloat2 ProofFloat4 ProofMore ProofMore2 ProofMore3 ProofMeaning ProofMeaning2 ProofMeaning3 ProofJoin.
Open Scope Z_scope.

(** ** Separators *)

(** [t] is a field: the separator [c ...] after it ends it. *)
Lemma escape_field c s t : inserted escaped_class s t -> escaped_class c -> c <> BACKSLASH ->
  forall s' t' r r', inserted escaped_class s' t' -> (r = [] \/ exists q, r = c :: q) -> (r' = [] \/ exists q, r' = c :: q) ->
  t ++ r = t' ++ r' -> s = s' /\ r = r'.
Proof.
  intros I HC HB. induction I as [|d s t P I IH|d s t P I IH]; intros s' t' r r' I' R R' E.
  - destruct I' as [|d' s' t' P' I'|d' s' t' P' I']; [auto| |]; exfalso; destruct R as [->|[q ->]]; try discriminate E; injection E as E _.
    + congruence.
    + subst d'. contradiction.
  - destruct I' as [|d' s' t' P' I'|d' s' t' P' I'].
    + exfalso. destruct R' as [->|[q ->]]; try discriminate E. injection E as E _. congruence.
    + injection E as -> E. destruct (IH _ _ _ _ I' R R' E) as [-> ->]. auto.
    + exfalso. injection E as E _. subst d'. apply P'. unfold escaped_class. cbn. lia.
  - destruct I' as [|d' s' t' P' I'|d' s' t' P' I'].
    + exfalso. destruct R' as [->|[q ->]]; try discriminate E. injection E as E _. subst d. contradiction.
    + exfalso. injection E as E _. subst d. apply P. unfold escaped_class. cbn. lia.
    + injection E as -> E. destruct (IH _ _ _ _ I' R R' E) as [-> ->]. auto.
Qed.

(** Fields, each ended by any separator. *)
Section Fields.
Context {A : Type} (field : A -> bytes -> Prop) (sep : bytes) (c : ascii) (q : bytes) (HS : sep = c :: q).
Context (ends : forall s t s' t' r r', field s t -> field s' t' -> (r = [] \/ exists x, r = c :: x) -> (r' = [] \/ exists x, r' = c :: x) ->
  t ++ r = t' ++ r' -> s = s' /\ r = r').

Lemma fields_split l : forall ts l' ts', l <> [] -> l' <> [] -> Forall2 field l ts -> Forall2 field l' ts' ->
  separated sep ts = separated sep ts' -> l = l'.
Proof.
  induction l as [|s l IH]; intros ts l' ts' N N' F F' E; [congruence|].
  destruct l' as [|s' l']; [congruence|]. inversion F as [|? t ? ts0 Fs Fl]; subst. inversion F' as [|? t' ? ts0' Fs' Fl']; subst.
  assert (X : exists r r', (r = [] /\ ts0 = [] \/ exists x, r = (c :: q) ++ x /\ ts0 <> [] /\ x = separated (c :: q) ts0) /\
    (r' = [] /\ ts0' = [] \/ exists x, r' = (c :: q) ++ x /\ ts0' <> [] /\ x = separated (c :: q) ts0') /\ t ++ r = t' ++ r').
  { exists (match ts0 with [] => [] | _ => (c :: q) ++ separated (c :: q) ts0 end),
           (match ts0' with [] => [] | _ => (c :: q) ++ separated (c :: q) ts0' end).
    split; [destruct ts0; [auto|right; eexists; split; [reflexivity|split; [discriminate|reflexivity]]]|].
    split; [destruct ts0'; [auto|right; eexists; split; [reflexivity|split; [discriminate|reflexivity]]]|].
    destruct ts0, ts0'; cbn [separated] in E; rewrite ?app_nil_r; exact E. }
  destruct X as (r & r' & R & R' & X).
  destruct (ends s t s' t' r r' Fs Fs') as [-> Y]; [| |exact X|].
  - destruct R as [[-> _]|(x & -> & _)]; [auto|right]. cbn [app]. eauto.
  - destruct R' as [[-> _]|(x & -> & _)]; [auto|right]. cbn [app]. eauto.
  - subst r'. f_equal.
    destruct R as [[-> ->]|(x & -> & M & ->)], R' as [[Z ->]|(x' & Z & M' & ->)].
    + inversion Fl; inversion Fl'; subst. reflexivity.
    + discriminate Z.
    + discriminate Z.
    + apply app_inv_head in Z.
      destruct l as [|a l]; [inversion Fl; subst; congruence|]. destruct l' as [|a' l']; [inversion Fl'; subst; congruence|].
      eapply (IH ts0 (a' :: l') ts0'); eauto; discriminate.
Qed.
End Fields.

Lemma forall2_functional {A B} (P : A -> B -> Prop) (H : forall a b b', P a b -> P a b' -> b = b') l : forall ts ts',
  Forall2 P l ts -> Forall2 P l ts' -> ts = ts'.
Proof.
  induction l as [|a l IH]; intros ts ts' F F'; inversion F; inversion F'; subst; [reflexivity|]. f_equal; eauto.
Qed.

Lemma escaped_fields e sep l l' ts ts' : escape_separator sep -> l <> [] -> l' <> [] ->
  Forall2 (fun s t => escape_of e (VString s) = Ok t) l ts -> Forall2 (fun s t => escape_of e (VString s) = Ok t) l' ts' ->
  (separated sep ts = separated sep ts' <-> l = l').
Proof.
  intros (c & q & -> & P & B) N N' F F'. split.
  - apply (fields_split (fun s t => escape_of e (VString s) = Ok t) (c :: q) c q eq_refl); auto.
    intros s t s' t' r r' H H' R R' E. destruct (escape_spec e s) as (x & X & I & _). destruct (escape_spec e s') as (x' & X' & I' & _).
    assert (x = t) by congruence. assert (x' = t') by congruence. subst. eapply escape_field; eauto.
  - intros ->. f_equal. eapply forall2_functional; [|exact F|exact F']. cbn. congruence.
Qed.

Lemma number_fields e sep l l' ts ts' : platform_ok (e_platform e) -> nan_ok (e_float e) -> e_lit e = default_literals ->
  number_separator sep -> l <> [] -> l' <> [] ->
  Forall (fun v => argument_ok e v /\ is_number v) l -> Forall (fun v => argument_ok e v /\ is_number v) l' ->
  Forall2 (fun v t => lexi e v = Ok t) l ts -> Forall2 (fun v t => lexi e v = Ok t) l' ts' ->
  (separated sep ts = separated sep ts' <-> ts = ts').
Proof.
  intros HP HN HL (c & q & -> & P1 & P2 & P3 & P4) N N' K K' F F'. split; [|now intros ->].
  assert (W : forall l ts, Forall (fun v => argument_ok e v /\ is_number v) l -> Forall2 (fun v t => lexi e v = Ok t) l ts ->
    Forall2 (fun s t => s = t /\ Forall wordy t) ts ts).
  { intros l0 ts0 K0 F0. induction F0 as [|v t l0 ts0 H F0 IH]; [constructor|]. inversion K0 as [|? ? [A B] K1]; subst.
    constructor; [|auto]. split; [reflexivity|].
    destruct (number_text e v t HP HN HL A B H) as [[n J]|[J|[J|J]]]; [eapply number_wordy; eauto|rewrite J..].
    - apply nan_wordy.
    - apply (infinity_wordy false).
    - apply (infinity_wordy true). }
  assert (E0 : forall l ts, l <> [] -> Forall2 (fun v t => lexi e v = Ok t) l ts -> ts <> []).
  { intros l0 ts0 X Y. destruct Y; [congruence|discriminate]. }
  apply (fields_split (fun s t => s = t /\ Forall wordy t) (c :: q) c q eq_refl); eauto.
  intros s t s' t' r r' [-> H] [-> H'] R R' E. eapply (stop_split wordy); eauto.
  - intros d x X. destruct R as [->|[y ->]]; [discriminate X|]. injection X as <- _. intros Y. destruct Y as [Y|[Y|[Y|Y]]]; contradiction.
  - intros d x X. destruct R' as [->|[y ->]]; [discriminate X|]. injection X as <- _. intros Y. destruct Y as [Y|[Y|[Y|Y]]]; contradiction.
Qed.

(** ** Lines *)

Lemma wordy_line s : Forall wordy s -> one_line s.
Proof.
  intros F. eapply Forall_impl; [|exact F]. cbn beta. intros c [W|[W|[W|W]]]; [unfold is_alphanumeric in W; lia|rewrite W; cbn; lia..].
Qed.

Lemma char_line c t : json_char c t -> one_line t.
Proof.
  intros J. destruct J as [| | | | | | |c h l C N H L LL|c C Q B]; try (repeat constructor; cbn; lia).
  apply hex_value_cases in H, L. unfold one_line. repeat (apply Forall_cons; [first [lia|cbn; lia]|]). apply Forall_nil.
Qed.

Lemma chars_line s ts : Forall2 json_char s ts -> one_line (List.concat ts).
Proof. intros F. induction F; [constructor|]. cbn [List.concat]. apply Forall_app. split; [eapply char_line; eauto|assumption]. Qed.

Lemma quoted_line s ts : Forall2 json_char s ts -> one_line (QUOTE :: List.concat ts ++ [QUOTE]).
Proof.
  intros F. constructor; [cbn; lia|]. apply Forall_app. split; [eapply chars_line; eauto|]. repeat constructor. cbn. lia.
Qed.

Lemma leaf_line e v s : platform_ok (e_platform e) -> nan_ok (e_float e) -> e_lit e = default_literals -> argument_ok e v ->
  jsonify_of e v = Ok s -> one_line s.
Proof.
  intros HP HN HL K J. destruct (meaning_exists e v K) as [m M]. pose proof (json_meaning e v m s HP HN HL K M J) as X.
  apply json_of_chars in X. destruct X as [(t & ts & _ & -> & F)|[_ W]]; [eapply quoted_line; eauto|now apply wordy_line].
Qed.

Lemma line_cons c s : 32 <= code c -> one_line s -> one_line (c :: s).
Proof. now constructor. Qed.
Lemma line_app a b : one_line a -> one_line b -> one_line (a ++ b).
Proof. intros. apply Forall_app. auto. Qed.

Lemma trees_line e (HP : platform_ok (e_platform e)) (HN : nan_ok (e_float e)) (HL : e_lit e = default_literals) :
  (forall t, tree_all (argument_ok e) (fun _ => True) t -> forall s, tree_text e t = Ok s -> one_line s) /\
  (forall l, elements_all (argument_ok e) (fun _ => True) l -> forall s, elements_text e l = Ok s -> one_line s) /\
  (forall l, members_all (argument_ok e) (fun _ => True) l -> forall s, members_text e l = Ok s -> one_line s).
Proof.
  apply tree_mutind.
  - intros v K s T. eapply leaf_line; eauto.
  - intros l IH K s T. cbn [tree_text] in T. apply bind_ok in T. destruct T as (a & A & T). injection T as <-.
    apply line_cons; [cbn; lia|]. apply line_app; [eauto|]. apply line_cons; [cbn; lia|constructor].
  - intros l IH K s T. cbn [tree_text] in T. apply bind_ok in T. destruct T as (a & A & T). injection T as <-.
    apply line_cons; [cbn; lia|]. apply line_app; [eauto|]. apply line_cons; [cbn; lia|constructor].
  - intros _ s T. injection T as <-. constructor.
  - intros t IHt l IHl [Kt Kl] s T. apply elements_text_ok in T. destruct T as (a & A & [[-> ->]|(b & N & B & ->)]); [eauto|].
    apply line_app; [eauto|]. apply line_cons; [cbn; lia|eauto].
  - intros _ s T. injection T as <-. constructor.
  - intros k t IHt l IHl (_ & Kt & Kl) s T. apply members_text_ok in T. destruct T as (x & a & X & A & T).
    assert (LX : one_line x). { destruct (jsonify_exact e k) as (ts & Y & F). rewrite Y in X. injection X as <-. eapply quoted_line; eauto. }
    destruct T as [[-> ->]|(b & N & B & ->)]; apply line_app; auto; apply line_cons; try (cbn; lia); eauto.
    apply line_app; [eauto|]. apply line_cons; [cbn; lia|eauto].
Qed.

Lemma tree_line e t s : platform_ok (e_platform e) -> nan_ok (e_float e) -> e_lit e = default_literals ->
  tree_all (argument_ok e) (fun _ => True) t -> tree_text e t = Ok s -> one_line s.
Proof. intros HP HN HL K. exact (proj1 (trees_line e HP HN HL) t K s). Qed.

Lemma format_line e v s : platform_ok (e_platform e) -> nan_ok (e_float e) -> e_lit e = default_literals -> argument_ok e v ->
  is_number v \/ v = VNull \/ (exists b, v = VBool b) -> lexi e v = Ok s -> one_line s.
Proof.
  intros HP HN HL K [N|[->|[b ->]]] L.
  - destruct (number_text e v s HP HN HL K N L) as [[n J]|[J|[J|J]]]; apply wordy_line; [eapply number_wordy; eauto|rewrite J..].
    + apply nan_wordy.
    + apply (infinity_wordy false).
    + apply (infinity_wordy true).
  - destruct (null_default e "."%char [] HL) as (E & _). rewrite E in L. injection L as <-. apply wordy_line, null_wordy.
  - destruct (bool_formats_default e b HL) as (E & _). rewrite E in L. injection L as <-. apply wordy_line, bool_wordy.
Qed.
