(** Proofs about texts made of several results. *)
From Coq Require Import Reals Floats.SpecFloat.
From Flocq Require Import Core IEEE754.BinarySingleNaN.
From Verif Require Import Machine LibMachine SpecApi SpecDecimal SpecInt SpecNumber SpecIeee SpecString SpecLayout SpecJson SpecRead SpecMore
  SpecMeaning SpecJoin ModelItoa ModelInt ModelText ModelString ModelIeee ModelDiyfp ModelDtoa ModelFloat ModelLexi ModelPlatforms
  ProofString ProofApi ProofFloat2 ProofFloat4 ProofMore ProofMore2 ProofMore3 ProofMeaning ProofMeaning2 ProofMeaning3.
Open Scope Z_scope.

(** ** The characters of the texts *)

(** The bytes of everything but strings: letters, digits, signs and points. *)
Definition wordy (c : ascii) : Prop := is_alphanumeric c \/ c = "+"%char \/ c = "-"%char \/ c = "."%char.

Lemma digit_wordy c : is_digit c -> wordy c.
Proof. intros H. left. left. exact H. Qed.
Lemma digits_wordy l : Forall is_digit l -> Forall wordy l.
Proof. intros H. eapply Forall_impl; [|exact H]. apply digit_wordy. Qed.
Lemma e_wordy : wordy "e"%char.
Proof. left. right. right. cbn. lia. Qed.
Lemma E_wordy : wordy "E"%char.
Proof. left. right. left. cbn. lia. Qed.

Lemma number_wordy s n : json_number s n -> Forall wordy s.
Proof.
  intros ((x & X & ->) & N & F & _ & Fr & Ex). apply Forall_app. split; [|apply Forall_app; split; [|apply Forall_app; split]].
  - destruct (n_negative n); [|constructor]. constructor; [right; right; now left|constructor].
  - now apply digits_wordy.
  - destruct (n_fraction n) as [f|]; [|constructor]. destruct (Fr f eq_refl) as [_ D]. cbn [optional].
    constructor; [right; right; now right|]. now apply digits_wordy.
  - destruct (n_exponent n) as [[sg d]|]; [|constructor]. destruct (Ex sg d eq_refl) as (S & _ & D). cbn [optional fst snd].
    constructor; [destruct X as [X|X]; rewrite X; [apply e_wordy|apply E_wordy]|]. apply Forall_app. split; [|now apply digits_wordy].
    destruct S as [S|[S|S]]; rewrite S; [constructor| |]; (constructor; [|constructor]); [right; now left|right; right; now left].
Qed.

Ltac wordy_literal := repeat (constructor; [first [left; unfold is_alphanumeric; cbn; lia|right; right; now left]|]); constructor.

Lemma null_wordy : Forall wordy (str "null"). Proof. wordy_literal. Qed.
Lemma bool_wordy (b : bool) : Forall wordy (if b then str "true" else str "false"). Proof. destruct b; wordy_literal. Qed.
Lemma infinity_wordy (b : bool) : Forall wordy (if b then str "-Infinity" else str "Infinity"). Proof. destruct b; wordy_literal. Qed.
Lemma nan_wordy : Forall wordy (str "NaN"). Proof. wordy_literal. Qed.

(** A JSON text of the library is a string or made of such bytes. *)
Lemma json_of_chars e m s : json_of e m s ->
  (exists t ts, m = MText t /\ s = QUOTE :: List.concat ts ++ [QUOTE] /\ Forall2 json_char t ts) \/ (s <> [] /\ Forall wordy s).
Proof.
  destruct m as [|b|t|n|x|b|]; cbn [json_of]; intros H.
  - right. subst s. split; [discriminate|apply null_wordy].
  - right. subst s. split; [destruct b; discriminate|apply bool_wordy].
  - left. destruct (jsonify_exact e t) as (ts & E & F). exists t, ts. split; [reflexivity|]. split; [congruence|exact F].
  - right. destruct (canonical_number s n H) as (k & K & _). split; [|eapply number_wordy; eauto].
    intros ->. destruct H as [[_ (X & _)]|[_ (r & X & _)]]; [now apply X|discriminate X].
  - right. destruct H as (u & H & F & _ & L).
    assert (J : exists n, json_number s n).
    { apply (finite_json e u s H F). destruct (floating_functions e (VDouble u) H) as (_ & _ & X). now rewrite X. }
    destruct J as [n J]. split; [|eapply number_wordy; eauto].
    intros ->. pose proof (number_shape _ _ J) as X. discriminate X.
  - right. subst s. split; [destruct b; discriminate|apply infinity_wordy].
  - right. subst s. split; [discriminate|apply nan_wordy].
Qed.

(** ** Splitting *)

(** A byte that can come after a value in an array or object. *)
Definition follows (r : bytes) : Prop := forall c q, r = c :: q -> In c [","%char; "]"%char; "}"%char].

Lemma stop_split (P : ascii -> Prop) (a : bytes) : forall b r q, Forall P a -> Forall P b ->
  (forall c x, r = c :: x -> ~ P c) -> (forall c x, q = c :: x -> ~ P c) -> a ++ r = b ++ q -> a = b /\ r = q.
Proof.
  induction a as [|x a IH]; intros [|y b] r q Fa Fb Hr Hq E; cbn [app] in E.
  - auto.
  - exfalso. inversion Fb; subst. eapply (Hr y); eauto.
  - exfalso. inversion Fa; subst. eapply (Hq x); eauto.
  - injection E as -> E. inversion Fa; inversion Fb; subst.
    destruct (IH b r q) as [-> ->]; auto.
Qed.

Lemma follows_not_wordy r : follows r -> forall c q, r = c :: q -> ~ wordy c.
Proof.
  intros F c q E. apply F in E. cbn [In] in E. intros W.
  decompose [or] E; try contradiction; subst c; destruct W as [W|[W|[W|W]]]; try discriminate W; unfold is_alphanumeric in W; cbn in W; lia.
Qed.

(** Reading one byte of a JSON string back. *)
Definition one_char (s : bytes) : option (ascii * bytes) :=
  match s with
  | [] => None
  | a :: r =>
      if Ascii.eqb a BACKSLASH then
        match r with
        | [] => None
        | b :: q =>
            if Ascii.eqb b "u"%char then
              match q with
              | _ :: _ :: h :: l :: z =>
                  match SpecString.hex_value h, SpecString.hex_value l with Some x, Some y => Some (chr (16 * x + y), z) | _, _ => None end
              | _ => None
              end
            else match simple_escape b with Some c => Some (c, q) | None => None end
        end
      else Some (a, r)
  end.

Lemma one_char_reads c t r : json_char c t -> one_char (t ++ r) = Some (c, r).
Proof.
  intros J. destruct J as [| | | | | | |c h l C N H L LL|c C Q B]; try reflexivity.
  - cbn -[Z.mul Z.add Z.div Z.modulo SpecString.hex_value chr]. rewrite H, L, <- Z.div_mod, chr_code by lia. reflexivity.
  - cbn [app one_char]. apply Ascii.eqb_neq in B. now rewrite B.
Qed.

Lemma char_split c c' t t' r r' : json_char c t -> json_char c' t' -> t ++ r = t' ++ r' -> c = c' /\ t = t' /\ r = r'.
Proof.
  intros A B E. pose proof (one_char_reads c t r A) as X. rewrite E, (one_char_reads c' t' r' B) in X. injection X as -> ->.
  split; [reflexivity|]. split; [|reflexivity]. eapply json_char_fun; eauto.
Qed.

Lemma char_not_quote c t : json_char c t -> forall r q, t ++ r <> QUOTE :: q.
Proof. intros J. destruct J; intros r q X; injection X as X; try discriminate X. congruence. Qed.

Lemma string_split s : forall ts s' ts' r r', Forall2 json_char s ts -> Forall2 json_char s' ts' ->
  List.concat ts ++ QUOTE :: r = List.concat ts' ++ QUOTE :: r' -> s = s' /\ ts = ts' /\ r = r'.
Proof.
  induction s as [|c s IH]; intros ts s' ts' r r' F F' E; inversion F; subst; inversion F'; subst; cbn [List.concat app] in E.
  - injection E as ->. auto.
  - exfalso. rewrite <- app_assoc in E. symmetry in E. eapply char_not_quote in E; eauto.
  - exfalso. rewrite <- app_assoc in E. eapply char_not_quote in E; eauto.
  - rewrite <- !app_assoc in E. eapply char_split in E; eauto. destruct E as (-> & -> & E).
    eapply IH in E; eauto. destruct E as (-> & -> & ->). auto.
Qed.

Lemma wordy_not_quote s r q : Forall wordy s -> s <> [] -> s ++ r <> QUOTE :: q.
Proof.
  intros F N E. destruct s as [|c s]; [congruence|]. injection E as -> _. inversion F as [|? ? W _]; subst.
  destruct W as [W|[W|[W|W]]]; try discriminate W. unfold is_alphanumeric in W. cbn in W. lia.
Qed.

Lemma leaf_split e m m' s s' r r' : json_of e m s -> json_of e m' s' -> follows r -> follows r' -> s ++ r = s' ++ r' -> s = s' /\ r = r'.
Proof.
  intros A B R R' E. apply json_of_chars in A, B.
  destruct A as [(t & ts & _ & -> & F)|[N W]], B as [(t' & ts' & _ & -> & F')|[N' W']].
  - cbn [app] in E. injection E as E. rewrite <- !app_assoc in E. cbn [app] in E.
    eapply string_split in E; eauto. destruct E as (_ & -> & ->). auto.
  - exfalso. symmetry in E. cbn [app] in E. eapply wordy_not_quote in E; eauto.
  - exfalso. cbn [app] in E. eapply wordy_not_quote in E; eauto.
  - eapply (stop_split wordy); eauto using follows_not_wordy.
Qed.

(** ** Trees *)

Scheme tree_ind2 := Induction for tree Sort Prop
with elements_ind2 := Induction for elements Sort Prop
with members_ind2 := Induction for members Sort Prop.
Combined Scheme tree_mutind from tree_ind2, elements_ind2, members_ind2.

Lemma bind_ok {A B} (m : outcome A) (f : A -> outcome B) y : bind m f = Ok y -> exists x, m = Ok x /\ f x = Ok y.
Proof. destruct m; cbn; try discriminate. eauto. Qed.

Lemma elements_text_ok e t l s : elements_text e (Element t l) = Ok s ->
  exists a, tree_text e t = Ok a /\
    ((l = NoElement /\ s = a) \/ exists b, l <> NoElement /\ elements_text e l = Ok b /\ s = a ++ ","%char :: b).
Proof.
  cbn [elements_text]. intros H. apply bind_ok in H. destruct H as (a & A & H). exists a. split; [exact A|].
  destruct l as [|t' l']; [left; split; congruence|right]. apply bind_ok in H. destruct H as (b & B & H). exists b.
  split; [discriminate|]. split; [exact B|congruence].
Qed.

Lemma members_text_ok e k t l s : members_text e (Member k t l) = Ok s ->
  exists x a, jsonify_of e (VString k) = Ok x /\ tree_text e t = Ok a /\
    ((l = NoMember /\ s = x ++ ":"%char :: a) \/
     exists b, l <> NoMember /\ members_text e l = Ok b /\ s = x ++ ":"%char :: a ++ ","%char :: b).
Proof.
  cbn [members_text]. intros H. apply bind_ok in H. destruct H as (x & X & H). apply bind_ok in H. destruct H as (a & A & H).
  exists x, a. split; [exact X|]. split; [exact A|].
  destruct l as [|k' t' l']; [left; split; congruence|right]. apply bind_ok in H. destruct H as (b & B & H). exists b.
  split; [discriminate|]. split; [exact B|congruence].
Qed.

Lemma follows_comma r : follows (","%char :: r).
Proof. intros c q X. injection X as <- _. now left. Qed.
Lemma follows_bracket r : follows ("]"%char :: r).
Proof. intros c q X. injection X as <- _. right. now left. Qed.
Lemma follows_brace r : follows ("}"%char :: r).
Proof. intros c q X. injection X as <- _. right. right. now left. Qed.
Lemma follows_nil : follows [].
Proof. intros c q X. discriminate X. Qed.

(** A leaf does not begin with a bracket or brace. *)
Lemma leaf_first e m s r c q : json_of e m s -> s ++ r = c :: q -> In c [","%char; "]"%char; "}"%char; "["%char; "{"%char] -> False.
Proof.
  intros J E I. apply json_of_chars in J. destruct J as [(t & ts & _ & -> & _)|[N W]].
  - injection E as <- _. cbn [In] in I. decompose [or] I; try discriminate; contradiction.
  - destruct s as [|d s]; [congruence|]. injection E as -> _. inversion W as [|? ? X _]; subst. cbn [In] in I.
    decompose [or] I; try contradiction; subst c; destruct X as [X|[X|[X|X]]]; try discriminate X; unfold is_alphanumeric in X; cbn in X; lia.
Qed.

Section Trees.
Context (e : env) (HP : platform_ok (e_platform e)) (HN : nan_ok (e_float e)) (HL : e_lit e = default_literals).

Definition tree_ok : tree value -> Prop := tree_all (argument_ok e) (fun _ => True).
Definition elements_ok : elements value -> Prop := elements_all (argument_ok e) (fun _ => True).
Definition members_ok : members value -> Prop := members_all (argument_ok e) (fun _ => True).

(** No tree text begins with a closing bracket. *)
Lemma tree_first t m s r c q : tree_ok t -> tree_means t m -> tree_text e t = Ok s -> s ++ r = c :: q ->
  In c [","%char; "]"%char; "}"%char] -> False.
Proof.
  intros K M T E I. destruct M as [v m M|l n M|l n M]; cbn [tree_text] in T.
  - pose proof (json_meaning e v m s HP HN HL K M T) as J. eapply leaf_first; eauto. cbn [In] in *. tauto.
  - apply bind_ok in T. destruct T as (a & _ & T). injection T as <-. injection E as <- _. cbn [In] in I. decompose [or] I; try discriminate; contradiction.
  - apply bind_ok in T. destruct T as (a & _ & T). injection T as <-. injection E as <- _. cbn [In] in I. decompose [or] I; try discriminate; contradiction.
Qed.

Lemma trees_split :
  (forall t, tree_ok t -> forall m s, tree_means t m -> tree_text e t = Ok s ->
     forall t' m' s' r r', tree_ok t' -> tree_means t' m' -> tree_text e t' = Ok s' -> follows r -> follows r' ->
     s ++ r = s' ++ r' -> m = m' /\ r = r') /\
  (forall l, elements_ok l -> forall n s, elements_mean l n -> elements_text e l = Ok s ->
     forall l' n' s' r r', elements_ok l' -> elements_mean l' n' -> elements_text e l' = Ok s' ->
     s ++ "]"%char :: r = s' ++ "]"%char :: r' -> n = n' /\ r = r') /\
  (forall l, members_ok l -> forall n s, members_mean l n -> members_text e l = Ok s ->
     forall l' n' s' r r', members_ok l' -> members_mean l' n' -> members_text e l' = Ok s' ->
     s ++ "}"%char :: r = s' ++ "}"%char :: r' -> n = n' /\ r = r').
Proof.
  apply tree_mutind.
  - (* leaf *)
    intros v K m0 s M T t' m' s' r r' K' M' T' R R' E. inversion M as [? m Mv| |]; subst. cbn [tree_text] in T.
    pose proof (json_meaning e v m s HP HN HL K Mv T) as J.
    destruct M' as [v' m' Mv'|l' n' Ml'|l' n' Ml']; cbn [tree_text] in T'.
    + pose proof (json_meaning e v' m' s' HP HN HL K' Mv' T') as J'.
      destruct (leaf_split e m m' s s' r r' J J' R R' E) as [-> ->]. split; [f_equal|reflexivity].
      eapply (json_iff e v v'); eauto.
    + exfalso. apply bind_ok in T'. destruct T' as (a & _ & T'). injection T' as <-. eapply leaf_first; [exact J|exact E|cbn; tauto].
    + exfalso. apply bind_ok in T'. destruct T' as (a & _ & T'). injection T' as <-. eapply leaf_first; [exact J|exact E|cbn; tauto].
  - (* array *)
    intros l IH K m0 s M T t' m' s' r r' K' M' T' R R' E. inversion M as [|? n Ml|]; subst. cbn [tree_text] in T.
    apply bind_ok in T. destruct T as (a & A & T). injection T as <-.
    destruct M' as [v' m' Mv'|l' n' Ml'|l' n' Ml']; cbn [tree_text] in T'.
    + exfalso. pose proof (json_meaning e v' m' s' HP HN HL K' Mv' T') as J'. symmetry in E. eapply leaf_first; [exact J'|exact E|cbn; tauto].
    + apply bind_ok in T'. destruct T' as (a' & A' & T'). injection T' as <-. cbn [app] in E. injection E as E. rewrite <- !app_assoc in E.
      destruct (IH K n a Ml A l' n' a' r r' K' Ml' A' E) as [-> ->]. auto.
    + exfalso. apply bind_ok in T'. destruct T' as (a' & _ & T'). injection T' as <-. discriminate E.
  - (* object *)
    intros l IH K m0 s M T t' m' s' r r' K' M' T' R R' E. inversion M as [| |? n Ml]; subst. cbn [tree_text] in T.
    apply bind_ok in T. destruct T as (a & A & T). injection T as <-.
    destruct M' as [v' m' Mv'|l' n' Ml'|l' n' Ml']; cbn [tree_text] in T'.
    + exfalso. pose proof (json_meaning e v' m' s' HP HN HL K' Mv' T') as J'. symmetry in E. eapply leaf_first; [exact J'|exact E|cbn; tauto].
    + exfalso. apply bind_ok in T'. destruct T' as (a' & _ & T'). injection T' as <-. discriminate E.
    + apply bind_ok in T'. destruct T' as (a' & A' & T'). injection T' as <-. cbn [app] in E. injection E as E. rewrite <- !app_assoc in E.
      destruct (IH K n a Ml A l' n' a' r r' K' Ml' A' E) as [-> ->]. auto.
  - (* no element *)
    intros K n s M T l' n' s' r r' K' M' T' E. inversion M; subst. injection T as <-.
    destruct M' as [|t' m' l' n' Mt Ml]; [injection T' as <-; injection E as ->; auto|]. exfalso.
    destruct K' as [Kt Kl]. apply elements_text_ok in T'. destruct T' as (a & A & T'). symmetry in E. cbn [app] in E.
    destruct T' as [[_ ->]|(b & _ & _ & ->)]; [|rewrite <- app_assoc in E]; eapply (tree_first t'); eauto; cbn; tauto.
  - (* element *)
    intros t IHt l IHl K n0 s M T l' n' s' r r' K' M' T' E. destruct K as [Kt Kl]. inversion M as [|? m ? n Mt Ml]; subst.
    apply elements_text_ok in T. destruct T as (a & A & T).
    destruct M' as [|t' m' l' n' Mt' Ml'].
    + exfalso. injection T' as <-. cbn [app] in E.
      destruct T as [[_ ->]|(b & _ & _ & ->)]; [|rewrite <- app_assoc in E]; eapply (tree_first t); eauto; cbn; tauto.
    + destruct K' as [Kt' Kl']. apply elements_text_ok in T'. destruct T' as (a' & A' & T').
      destruct T as [[-> ->]|(b & N & B & ->)], T' as [[-> ->]|(b' & N' & B' & ->)]; rewrite <- ?app_assoc in E.
      * destruct (IHt Kt m a Mt A t' m' a' _ _ Kt' Mt' A' (follows_bracket r) (follows_bracket r') E) as [-> X]. injection X as ->.
        inversion Ml; inversion Ml'; subst. auto.
      * destruct (IHt Kt m a Mt A t' m' a' _ _ Kt' Mt' A' (follows_bracket r) (follows_comma _) E) as [_ X]. discriminate X.
      * destruct (IHt Kt m a Mt A t' m' a' _ _ Kt' Mt' A' (follows_comma _) (follows_bracket r') E) as [_ X]. discriminate X.
      * destruct (IHt Kt m a Mt A t' m' a' _ _ Kt' Mt' A' (follows_comma _) (follows_comma _) E) as [-> X]. injection X as X.
        destruct (IHl Kl n b Ml B l' n' b' r r' Kl' Ml' B' X) as [-> ->]. auto.
  - (* no member *)
    intros K n s M T l' n' s' r r' K' M' T' E. inversion M; subst. injection T as <-.
    destruct M' as [|k' t' m' l' n' Mt Ml]; [injection T' as <-; injection E as ->; auto|]. exfalso.
    apply members_text_ok in T'. destruct T' as (x & a & X & A & T'). symmetry in E. cbn [app] in E.
    destruct (jsonify_exact e k') as (ts & Y & _). rewrite Y in X. injection X as <-.
    destruct T' as [[_ ->]|(b & _ & _ & ->)]; discriminate E.
  - (* member *)
    intros k t IHt l IHl K n0 s M T l' n' s' r r' K' M' T' E. destruct K as [_ [Kt Kl]]. inversion M as [|? ? m ? n Mt Ml]; subst.
    apply members_text_ok in T. destruct T as (x & a & X & A & T).
    destruct (jsonify_exact e k) as (ts & Y & F). rewrite Y in X. injection X as <-.
    destruct M' as [|k' t' m' l' n' Mt' Ml'].
    + exfalso. injection T' as <-. destruct T as [[_ ->]|(b & _ & _ & ->)]; discriminate E.
    + destruct K' as [_ [Kt' Kl']]. apply members_text_ok in T'. destruct T' as (x' & a' & X' & A' & T').
      destruct (jsonify_exact e k') as (ts' & Y' & F'). rewrite Y' in X'. injection X' as <-.
      destruct T as [[-> ->]|(b & N & B & ->)], T' as [[-> ->]|(b' & N' & B' & ->)]; cbn [app] in E; injection E as E;
        rewrite <- ?app_assoc in E; cbn [app] in E; rewrite <- ?app_assoc in E; cbn [app] in E; eapply string_split in E; eauto; destruct E as (-> & _ & E); injection E as E;
        rewrite <- ?app_assoc in E; cbn [app] in E.
      * destruct (IHt Kt m a Mt A t' m' a' _ _ Kt' Mt' A' (follows_brace r) (follows_brace r') E) as [-> X]. injection X as ->.
        inversion Ml; inversion Ml'; subst. auto.
      * destruct (IHt Kt m a Mt A t' m' a' _ _ Kt' Mt' A' (follows_brace r) (follows_comma _) E) as [_ X]. discriminate X.
      * destruct (IHt Kt m a Mt A t' m' a' _ _ Kt' Mt' A' (follows_comma _) (follows_brace r') E) as [_ X]. discriminate X.
      * destruct (IHt Kt m a Mt A t' m' a' _ _ Kt' Mt' A' (follows_comma _) (follows_comma _) E) as [-> X]. injection X as X.
        destruct (IHl Kl n b Ml B l' n' b' r r' Kl' Ml' B' X) as [-> ->]. auto.
Qed.

(** The text is that of the meaning. *)
Lemma trees_same :
  (forall t, tree_ok t -> forall m s, tree_means t m -> tree_text e t = Ok s ->
     forall t' s', tree_ok t' -> tree_means t' m -> tree_text e t' = Ok s' -> s = s') /\
  (forall l, elements_ok l -> forall n s, elements_mean l n -> elements_text e l = Ok s ->
     forall l' s', elements_ok l' -> elements_mean l' n -> elements_text e l' = Ok s' -> s = s') /\
  (forall l, members_ok l -> forall n s, members_mean l n -> members_text e l = Ok s ->
     forall l' s', members_ok l' -> members_mean l' n -> members_text e l' = Ok s' -> s = s').
Proof.
  apply tree_mutind.
  - intros v K m0 s M T t' s' K' M' T'. inversion M as [? m Mv| |]; subst. inversion M' as [v' ? Mv'| |]; subst.
    eapply (json_iff e v v'); eauto.
  - intros l IH K m0 s M T t' s' K' M' T'. inversion M as [|? n Ml|]; subst. inversion M' as [|l' ? Ml'|]; subst.
    cbn [tree_text] in T, T'. apply bind_ok in T, T'. destruct T as (a & A & T), T' as (a' & A' & T').
    rewrite (IH K n a Ml A l' a' K' Ml' A') in T. congruence.
  - intros l IH K m0 s M T t' s' K' M' T'. inversion M as [| |? n Ml]; subst. inversion M' as [| |l' ? Ml']; subst.
    cbn [tree_text] in T, T'. apply bind_ok in T, T'. destruct T as (a & A & T), T' as (a' & A' & T').
    rewrite (IH K n a Ml A l' a' K' Ml' A') in T. congruence.
  - intros K n s M T l' s' K' M' T'. inversion M; subst. inversion M'; subst. congruence.
  - intros t IHt l IHl K n0 s M T l0 s' K' M' T'. destruct K as [Kt Kl]. inversion M as [|? m ? n Mt Ml]; subst.
    inversion M' as [|t' ? l' ? Mt' Ml']; subst. destruct K' as [Kt' Kl'].
    apply elements_text_ok in T, T'. destruct T as (a & A & T), T' as (a' & A' & T').
    assert (a = a') as <- by (eapply IHt; eauto).
    destruct T as [[-> ->]|(b & N & B & ->)], T' as [[-> ->]|(b' & N' & B' & ->)]; try reflexivity.
    + inversion Ml; subst. inversion Ml'; subst. congruence.
    + inversion Ml'; subst. inversion Ml; subst. congruence.
    + do 2 f_equal. eapply IHl; eauto.
  - intros K n s M T l' s' K' M' T'. inversion M; subst. inversion M'; subst. congruence.
  - intros k t IHt l IHl K n0 s M T l0 s' K' M' T'. destruct K as [_ [Kt Kl]]. inversion M as [|? ? m ? n Mt Ml]; subst.
    inversion M' as [|? t' ? l' ? Mt' Ml']; subst. destruct K' as [_ [Kt' Kl']].
    apply members_text_ok in T, T'. destruct T as (x & a & X & A & T), T' as (x' & a' & X' & A' & T').
    assert (x = x') as <- by congruence. assert (a = a') as <- by (eapply IHt; eauto).
    destruct T as [[-> ->]|(b & N & B & ->)], T' as [[-> ->]|(b' & N' & B' & ->)]; try reflexivity.
    + inversion Ml; subst. inversion Ml'; subst. congruence.
    + inversion Ml'; subst. inversion Ml; subst. congruence.
    + do 4 f_equal. eapply IHl; eauto.
Qed.

Lemma tree_iff t t' m m' s s' : tree_all (argument_ok e) (fun _ => True) t -> tree_all (argument_ok e) (fun _ => True) t' ->
  tree_means t m -> tree_means t' m' -> tree_text e t = Ok s -> tree_text e t' = Ok s' -> (s = s' <-> m = m').
Proof.
  intros K K' M M' T T'. split.
  - intros <-. eapply (proj1 trees_split t); eauto using follows_nil.
  - intros <-. eapply (proj1 trees_same t); eauto.
Qed.

(** ** Validity *)

Lemma json_ws_nil : json_ws [].
Proof. constructor. Qed.

Lemma key_text k x : utf8 k -> jsonify_of e (VString k) = Ok x -> json_string_text x.
Proof.
  intros U J. destruct (jsonify_utf8 e k) as (t & E & H). destruct (jsonify_decodes e k) as (t' & E' & D).
  assert (t = x) by congruence. assert (t' = x) by congruence. subst. split; [now apply H|eauto].
Qed.

Lemma trees_valid :
  (forall t, tree_all (fun v => argument_ok e v /\ has_json v) utf8 t -> forall s, tree_text e t = Ok s -> json_value s) /\
  (forall l, elements_all (fun v => argument_ok e v /\ has_json v) utf8 l -> l <> NoElement ->
     forall s, elements_text e l = Ok s -> json_elements s) /\
  (forall l, members_all (fun v => argument_ok e v /\ has_json v) utf8 l -> l <> NoMember ->
     forall s, members_text e l = Ok s -> json_members s).
Proof.
  apply tree_mutind.
  - intros v [K H] s T. eapply all_json; eauto.
  - intros l IH K s T. cbn [tree_text] in T. apply bind_ok in T. destruct T as (a & A & T). injection T as <-.
    destruct l as [|t l]; [injection A as <-; apply (jv_empty_array []), json_ws_nil|]. apply jv_array. apply IH; auto. discriminate.
  - intros l IH K s T. cbn [tree_text] in T. apply bind_ok in T. destruct T as (a & A & T). injection T as <-.
    destruct l as [|k t l]; [injection A as <-; apply (jv_empty_object []), json_ws_nil|]. apply jv_object. apply IH; auto. discriminate.
  - intros _ N. congruence.
  - intros t IHt l IHl [Kt Kl] _ s T. apply elements_text_ok in T. destruct T as (a & A & T).
    destruct T as [[-> ->]|(b & N & B & ->)].
    + pose proof (je_one [] a [] json_ws_nil (IHt Kt a A) json_ws_nil) as X. cbn [app] in X. now rewrite app_nil_r in X.
    + exact (je_more [] a [] b json_ws_nil (IHt Kt a A) json_ws_nil (IHl Kl N b B)).
  - intros _ N. congruence.
  - intros k t IHt l IHl (Kk & Kt & Kl) _ s T. apply members_text_ok in T. destruct T as (x & a & X & A & T).
    pose proof (key_text k x Kk X) as Y.
    destruct T as [[-> ->]|(b & N & B & ->)].
    + pose proof (jm_one [] x [] [] a [] json_ws_nil Y json_ws_nil json_ws_nil (IHt Kt a A) json_ws_nil) as Z. cbn [app] in Z. now rewrite app_nil_r in Z.
    + exact (jm_more [] x [] [] a [] b json_ws_nil Y json_ws_nil json_ws_nil (IHt Kt a A) json_ws_nil (IHl Kl N b B)).
Qed.

End Trees.
