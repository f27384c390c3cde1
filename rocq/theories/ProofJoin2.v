(** Proofs about texts made of several results: which trees are JSON. *)
From Coq Require Import Reals Floats.SpecFloat.
From Flocq Require Import Core IEEE754.BinarySingleNaN.
From Verif Require Import Machine LibMachine SpecApi SpecDecimal SpecInt SpecNumber SpecIeee SpecString SpecLayout SpecJson SpecRead SpecMore
  SpecMeaning SpecJoin ModelItoa ModelInt ModelText ModelString ModelIeee ModelDiyfp ModelDtoa ModelFloat ModelLexi ModelPlatforms
  ProofString ProofApi ProofFloat2 ProofFloat4 ProofMore ProofMore2 ProofMore3 ProofMeaning ProofMeaning2 ProofMeaning3 ProofJoin.
Open Scope Z_scope.

(** ** The end of a string *)

(** What comes after the closing quotation mark. *)
Fixpoint after_string (t : bytes) : option bytes :=
  match t with
  | [] => None
  | c :: r =>
      if code c =? 34 then Some r
      else if code c =? 92 then match r with [] => None | _ :: q => after_string q end
      else after_string r
  end.

Lemma hex_plain a x : SpecString.hex_value a = Some x -> (code a =? 34) = false /\ (code a =? 92) = false.
Proof. intros H. apply hex_value_cases in H. lia. Qed.

Lemma hex4_plain a b c d x : hex4 a b c d = Some x ->
  (code a =? 34) = false /\ (code a =? 92) = false /\ (code b =? 34) = false /\ (code b =? 92) = false /\
  (code c =? 34) = false /\ (code c =? 92) = false /\ (code d =? 34) = false /\ (code d =? 92) = false.
Proof.
  unfold hex4. destruct (SpecString.hex_value a) eqn:A; [|discriminate]. destruct (SpecString.hex_value b) eqn:B; [|discriminate].
  destruct (SpecString.hex_value c) eqn:C; [|discriminate]. destruct (SpecString.hex_value d) eqn:D; [|discriminate]. intros _.
  apply hex_plain in A, B, C, D. tauto.
Qed.

Lemma after_hex a b c d x q : hex4 a b c d = Some x -> after_string (a :: b :: c :: d :: q) = after_string q.
Proof.
  intros H. apply hex4_plain in H. destruct H as (A1 & A2 & B1 & B2 & C1 & C2 & D1 & D2).
  cbn [after_string]. now rewrite A1, A2, B1, B2, C1, C2, D1, D2.
Qed.

Lemma json_chars_end : forall n w, (length w <= n)%nat -> forall x, json_chars w = Some x -> forall r, after_string (w ++ r) = Some r.
Proof.
  induction n as [|n IH]; intros w L x J r.
  - destruct w; [discriminate J|cbn in L; lia].
  - destruct w as [|c w]; [discriminate J|]. cbn [json_chars] in J. cbn [app after_string].
    destruct (code c =? 34).
    { destruct w; [reflexivity|discriminate J]. }
    destruct (code c <? 32); [discriminate J|]. cbn [length] in L.
    destruct (code c =? 92).
    + destruct w as [|d w]; [discriminate J|]. cbn [app length] in *. destruct (code d =? 117).
      * destruct w as [|h1 [|h2 [|h3 [|h4 w]]]]; try discriminate J. cbn [app length] in *.
        destruct (hex4 h1 h2 h3 h4) as [u|] eqn:H; [|discriminate J]. rewrite (after_hex _ _ _ _ _ _ H).
        destruct (_ || _) in J.
        { destruct (json_chars w) as [y|] eqn:W; [|discriminate J]. eapply IH; [|exact W]. lia. }
        destruct (u <? 56320); [|discriminate J].
        destruct w as [|b [|v [|l1 [|l2 [|l3 [|l4 w]]]]]]; try discriminate J.
        destruct (hex4 l1 l2 l3 l4) as [z|] eqn:H'; [|discriminate J].
        destruct (_ && _) eqn:G in J; [|discriminate J].
        destruct (json_chars w) as [y|] eqn:W; [|discriminate J]. cbn [app length] in *.
        cbn [after_string]. apply andb_prop in G. destruct G as [G _]. apply andb_prop in G. destruct G as [G _].
        apply andb_prop in G. destruct G as [G1 G2]. replace (code b =? 34) with false by lia. rewrite G1.
        change (after_string (l1 :: l2 :: l3 :: l4 :: w ++ r) = Some r).
        rewrite (after_hex _ _ _ _ _ _ H'). eapply IH; [|exact W]. lia.
      * destruct (simple_escape d); [|discriminate J]. destruct (json_chars w) as [y|] eqn:W; [|discriminate J].
        eapply IH; [|exact W]. lia.
    + destruct (json_chars w) as [y|] eqn:W; [|discriminate J]. eapply IH; [|exact W]. lia.
Qed.

Lemma char_after c t r : json_char c t -> after_string (t ++ r) = after_string r.
Proof.
  intros J. destruct J as [| | | | | | |c h l C N H L LL|c C Q B]; try reflexivity.
  - apply hex_plain in H, L. destruct H as [H1 H2], L as [L1 L2]. cbn [app str list_ascii_of_string after_string BACKSLASH].
    cbn -[after_string]. cbn [after_string]. cbn -[after_string code]. rewrite H1, H2, L1, L2. reflexivity.
  - cbn [app after_string].
    assert (code c <> 34). { intros X. apply Q. apply code_inj. exact X. }
    assert (code c <> 92). { intros X. apply B. apply code_inj. exact X. }
    replace (code c =? 34) with false by lia. replace (code c =? 92) with false by lia. reflexivity.
Qed.

Lemma chars_after s ts r : Forall2 json_char s ts -> after_string (List.concat ts ++ r) = after_string r.
Proof.
  intros F. induction F as [|c t s ts H F IH]; [reflexivity|]. cbn [List.concat]. rewrite <- app_assoc, (char_after c t _ H). exact IH.
Qed.

Lemma string_text_split v s ts r r' : json_string_text v -> Forall2 json_char s ts ->
  (QUOTE :: List.concat ts ++ [QUOTE]) ++ r = v ++ r' -> QUOTE :: List.concat ts ++ [QUOTE] = v /\ r = r'.
Proof.
  intros [_ [x D]] F E. destruct v as [|c w]; [discriminate D|]. cbn [json_string_decode] in D.
  destruct (code c =? 34) eqn:C; [|discriminate D]. cbn [app] in E. injection E as <- E.
  assert (R : r = r').
  { pose proof (json_chars_end _ _ (le_n _) x D r') as A. rewrite <- E, <- app_assoc, (chars_after s ts _ F) in A. cbn in A. congruence. }
  subst r'. split; [|reflexivity]. apply app_inv_tail in E. now rewrite E.
Qed.

(** ** First bytes *)

Definition starter (c : ascii) : Prop := c = QUOTE \/ c = "["%char \/ c = "{"%char \/ wordy c.
Definition starts (s : bytes) : Prop := exists c q, s = c :: q /\ starter c.
Definition blank (c : ascii) : Prop := code c = 32 \/ code c = 9 \/ code c = 10 \/ code c = 13.

Lemma wordy_not c : wordy c -> ~ blank c /\ c <> ","%char /\ c <> "]"%char /\ c <> "}"%char /\ c <> ":"%char /\ c <> QUOTE /\ c <> "["%char /\ c <> "{"%char.
Proof.
  intros [W|[W|[W|W]]]; try (subst c; unfold blank; cbn; intuition discriminate).
  unfold is_alphanumeric, blank in *.
  assert (X : code c <> 32 /\ code c <> 9 /\ code c <> 10 /\ code c <> 13 /\ code c <> 44 /\ code c <> 93 /\ code c <> 125 /\ code c <> 58 /\
    code c <> 34 /\ code c <> 91 /\ code c <> 123) by lia.
  split; [lia|]. repeat split; intros ->; cbn in X; lia.
Qed.

Lemma starter_not c : starter c -> ~ blank c /\ c <> ","%char /\ c <> "]"%char /\ c <> "}"%char /\ c <> ":"%char.
Proof.
  intros [W|[W|[W|W]]]; try (subst c; unfold blank; cbn; intuition discriminate). apply wordy_not in W. tauto.
Qed.

Lemma value_starts v : json_value v -> starts v.
Proof.
  intros H. destruct H as [| | |s n H|s [_ [x D]]| | | |]; try (eexists; eexists; split; [reflexivity|]; unfold starter; tauto).
  - eexists. eexists. split; [reflexivity|]. right. right. right. left. unfold is_alphanumeric. cbn. lia.
  - eexists. eexists. split; [reflexivity|]. right. right. right. left. unfold is_alphanumeric. cbn. lia.
  - eexists. eexists. split; [reflexivity|]. right. right. right. left. unfold is_alphanumeric. cbn. lia.
  - pose proof (number_wordy _ _ H) as W. pose proof (number_shape _ _ H) as S. destruct s as [|c s]; [discriminate S|].
    inversion W; subst. exists c, s. split; [reflexivity|]. right. right. now right.
  - destruct s as [|c s]; [discriminate D|]. cbn in D. destruct (code c =? 34) eqn:C; [|discriminate D].
    exists c, s. split; [reflexivity|]. left. apply code_inj. change (code QUOTE) with 34. lia.
Qed.

Lemma ws_starts w a r q : json_ws w -> starts a -> a ++ r = w ++ q -> w = [].
Proof.
  intros W (c & z & -> & S) E. destruct w as [|d w]; [reflexivity|]. injection E as <- _. inversion W as [|? ? X _]; subst.
  apply starter_not in S. unfold blank in S. tauto.
Qed.

(** A text that does not go on with a word. *)
Definition stops (r : bytes) : Prop := forall c q, r = c :: q -> ~ wordy c.
Lemma stops_cons c q : c = ","%char \/ c = "]"%char \/ c = "}"%char -> stops (c :: q).
Proof. intros H d x E W. injection E as -> _. apply wordy_not in W. tauto. Qed.
Lemma stops_ws w r : json_ws w -> stops r -> stops (w ++ r).
Proof.
  intros H S. destruct w as [|c w]; [exact S|]. intros d x E W. injection E as -> _. inversion H as [|? ? X _]; subst.
  apply wordy_not in W. unfold blank in W. tauto.
Qed.

Lemma leaf_value e m s v r r' : json_of e m s -> json_value v -> stops r -> stops r' -> s ++ r = v ++ r' -> s = v /\ r = r'.
Proof.
  intros J V R R' E. apply json_of_chars in J. destruct J as [(t & ts & _ & -> & F)|[N W]].
  - inversion V as [X|X|X|? n H X|? H X| w Hw X|w H X|w Hw X|w H X]; subst; try discriminate E.
    + exfalso. pose proof (number_shape _ _ H) as S. destruct v as [|c v]; [discriminate S|]. injection E as <- _. discriminate S.
    + eapply string_text_split; eauto.
  - assert (S : forall c q, s ++ r = c :: q -> wordy c).
    { intros c q X. destruct s as [|d s]; [congruence|]. injection X as -> _. now inversion W. }
    inversion V as [X|X|X|? n H X|? H X| w Hw X|w H X|w Hw X|w H X]; subst.
    + eapply (stop_split wordy); eauto. apply (bool_wordy false).
    + eapply (stop_split wordy); eauto. apply null_wordy.
    + eapply (stop_split wordy); eauto. apply (bool_wordy true).
    + eapply (stop_split wordy); eauto. eapply number_wordy; eauto.
    + exfalso. destruct H as [_ [x D]]. destruct v as [|c v]; [discriminate D|]. cbn in D. destruct (code c =? 34) eqn:C; [|discriminate D].
      apply S in E. apply wordy_not in E. assert (c = QUOTE) by (apply code_inj; change (code QUOTE) with 34; lia). tauto.
    + exfalso. apply S in E. apply wordy_not in E. tauto.
    + exfalso. apply S in E. apply wordy_not in E. tauto.
    + exfalso. apply S in E. apply wordy_not in E. tauto.
    + exfalso. apply S in E. apply wordy_not in E. tauto.
Qed.

Section Trees.
Context (e : env) (HP : platform_ok (e_platform e)) (HN : nan_ok (e_float e)) (HL : e_lit e = default_literals).

Lemma tree_starts t s : tree_ok e t -> tree_text e t = Ok s -> starts s.
Proof.
  intros K T. destruct t as [v|l|l]; cbn [tree_text] in T.
  - destruct (meaning_exists e v K) as [m M]. pose proof (json_meaning e v m s HP HN HL K M T) as J. apply json_of_chars in J.
    destruct J as [(t & ts & _ & -> & _)|[N W]].
    + eexists. eexists. split; [reflexivity|]. now left.
    + destruct s as [|c s]; [congruence|]. inversion W; subst. exists c, s. split; [reflexivity|]. right. right. now right.
  - apply bind_ok in T. destruct T as (a & _ & T). injection T as <-. eexists. eexists. split; [reflexivity|]. right. now left.
  - apply bind_ok in T. destruct T as (a & _ & T). injection T as <-. eexists. eexists. split; [reflexivity|]. right. right. now left.
Qed.

Lemma elements_start l s : elements_ok e l -> l <> NoElement -> elements_text e l = Ok s -> starts s.
Proof.
  intros K N T. destruct l as [|t l]; [congruence|]. destruct K as [K _]. apply elements_text_ok in T. destruct T as (a & A & T).
  destruct (tree_starts t a K A) as (c & q & -> & S). destruct T as [[_ ->]|(b & _ & _ & ->)]; exists c; eexists; (split; [reflexivity|exact S]).
Qed.
Lemma members_start l s : l <> NoMember -> members_text e l = Ok s -> starts s.
Proof.
  intros N T. destruct l as [|k t l]; [congruence|]. apply members_text_ok in T. destruct T as (x & a & X & A & T).
  destruct (jsonify_exact e k) as (ts & Y & _). rewrite Y in X. injection X as <-.
  destruct T as [[_ ->]|(b & _ & _ & ->)]; exists QUOTE; eexists; (split; [reflexivity|now left]).
Qed.

(** A non-empty list is not white space up to the closing bracket. *)
Lemma starts_not_ws s r w q c : starts s -> json_ws w -> c = "]"%char \/ c = "}"%char -> s ++ r <> w ++ c :: q.
Proof.
  intros S W C E. pose proof (ws_starts w s r (c :: q) W S E). subst w. destruct S as (d & z & -> & S). injection E as -> _.
  apply starter_not in S. tauto.
Qed.
Lemma elements_not_close x q r : json_elements x -> "]"%char :: r <> x ++ q.
Proof.
  intros H E. destruct H as [a v b A V B|a v b x A V B X].
  - destruct (value_starts v V) as (c & z & -> & S). destruct a as [|d a].
    + injection E as <- _. apply starter_not in S. tauto.
    + injection E as <- _. inversion A as [|? ? Y _]; subst. cbn in Y. lia.
  - destruct (value_starts v V) as (c & z & -> & S). destruct a as [|d a].
    + injection E as <- _. apply starter_not in S. tauto.
    + injection E as <- _. inversion A as [|? ? Y _]; subst. cbn in Y. lia.
Qed.
Lemma string_text_starts k : json_string_text k -> exists q, k = QUOTE :: q.
Proof.
  intros [_ [x D]]. destruct k as [|c k]; [discriminate D|]. cbn in D. destruct (code c =? 34) eqn:C; [|discriminate D].
  exists k. f_equal. apply code_inj. change (code QUOTE) with 34. lia.
Qed.
Lemma members_not_close x q r : json_members x -> "}"%char :: r <> x ++ q.
Proof.
  intros H E. destruct H as [a k b c v d A K|a k b c v d s A K]; destruct (string_text_starts k K) as [z ->]; destruct a as [|y a]; try discriminate E;
    injection E as <- _; inversion A as [|? ? Y _]; subst; cbn in Y; lia.
Qed.

Lemma trees_only :
  (forall t, tree_ok e t -> forall s, tree_text e t = Ok s -> forall v r r', json_value v -> stops r -> stops r' -> s ++ r = v ++ r' ->
     s = v /\ r = r' /\ tree_all has_json utf8 t) /\
  (forall l, elements_ok e l -> l <> NoElement -> forall s, elements_text e l = Ok s ->
     forall x r r', json_elements x -> s ++ "]"%char :: r = x ++ "]"%char :: r' -> s = x /\ r = r' /\ elements_all has_json utf8 l) /\
  (forall l, members_ok e l -> l <> NoMember -> forall s, members_text e l = Ok s ->
     forall x r r', json_members x -> s ++ "}"%char :: r = x ++ "}"%char :: r' -> s = x /\ r = r' /\ members_all has_json utf8 l).
Proof.
  apply tree_mutind.
  - (* leaf *)
    intros v K s T w r r' V R R' E. cbn [tree_text] in T. destruct (meaning_exists e v K) as [m M].
    pose proof (json_meaning e v m s HP HN HL K M T) as J. destruct (leaf_value e m s w r r' J V R R' E) as [-> ->].
    split; [reflexivity|]. split; [reflexivity|]. cbn [tree_all]. apply (proj1 (all_json e v w HP HN HL K T)). exact V.
  - (* array *)
    intros l IH K s T v r r' V R R' E. cbn [tree_text] in T. apply bind_ok in T. destruct T as (a & A & T). injection T as <-.
    inversion V as [X|X|X|? n H X|? H X|w Hw X|w H X|w Hw X|w H X]; subst; try discriminate E.
    + exfalso. pose proof (number_shape _ _ H) as S. destruct v as [|c v]; [discriminate S|]. injection E as <- _. discriminate S.
    + exfalso. destruct (string_text_starts v H) as [z ->]. discriminate E.
    + cbn [app] in E. injection E as E. rewrite <- !app_assoc in E. cbn [app] in E. destruct l as [|t l].
      * injection A as <-. cbn [app] in E. destruct w as [|c w]; [injection E as ->; cbn; auto|].
        injection E as <- _. inversion Hw as [|? ? Y _]; subst. cbn in Y. lia.
      * exfalso. eapply (starts_not_ws a); [|exact Hw| |exact E]; [|now left]. exact (elements_start (Element t l) a K ltac:(discriminate) A).
    + cbn [app] in E. injection E as E. rewrite <- !app_assoc in E. cbn [app] in E. destruct l as [|t l].
      * exfalso. injection A as <-. cbn [app] in E. eapply elements_not_close; eauto.
      * destruct (IH K ltac:(discriminate) a A w r r' H E) as (-> & -> & L). auto.
  - (* object *)
    intros l IH K s T v r r' V R R' E. cbn [tree_text] in T. apply bind_ok in T. destruct T as (a & A & T). injection T as <-.
    inversion V as [X|X|X|? n H X|? H X|w Hw X|w H X|w Hw X|w H X]; subst; try discriminate E.
    + exfalso. pose proof (number_shape _ _ H) as S. destruct v as [|c v]; [discriminate S|]. injection E as <- _. discriminate S.
    + exfalso. destruct (string_text_starts v H) as [z ->]. discriminate E.
    + cbn [app] in E. injection E as E. rewrite <- !app_assoc in E. cbn [app] in E. destruct l as [|k t l].
      * injection A as <-. cbn [app] in E. destruct w as [|c w]; [injection E as ->; cbn; auto|].
        injection E as <- _. inversion Hw as [|? ? Y _]; subst. cbn in Y. lia.
      * exfalso. eapply (starts_not_ws a); [|exact Hw| |exact E]; [|now right]. exact (members_start (Member k t l) a ltac:(discriminate) A).
    + cbn [app] in E. injection E as E. rewrite <- !app_assoc in E. cbn [app] in E. destruct l as [|k t l].
      * exfalso. injection A as <-. cbn [app] in E. eapply members_not_close; eauto.
      * destruct (IH K ltac:(discriminate) a A w r r' H E) as (-> & -> & L). auto.
  - intros _ N. congruence.
  - (* element *)
    intros t IHt l IHl [Kt Kl] _ s T x r r' X E. apply elements_text_ok in T. destruct T as (a & A & T).
    pose proof (tree_starts t a Kt A) as S.
    assert (B0 : forall b c q z, json_ws b -> c = ","%char \/ c = "]"%char -> c :: q = b ++ z -> b = []).
    { intros b c q z HB C X0. destruct b as [|d b]; [reflexivity|]. injection X0 as -> _. inversion HB as [|? ? Y _]; subst.
      destruct C as [-> | ->]; cbn in Y; lia. }
    destruct X as [w v b W V B|w v b x W V B X]; destruct T as [[-> ->]|(y & N & Y & ->)]; rewrite <- ?app_assoc in E; cbn [app] in E.
    + assert (w = []) as -> by (eapply ws_starts; eauto). cbn [app] in *.
      destruct (IHt Kt a A v _ _ V (stops_cons _ _ (or_intror (or_introl eq_refl)))
        (stops_ws b _ B (stops_cons "]"%char r' (or_intror (or_introl eq_refl)))) E) as (-> & Q & L).
      assert (b = []) as -> by (eapply (B0 b); [exact B| |exact Q]; tauto). injection Q as ->. rewrite app_nil_r. cbn. auto.
    + exfalso. assert (w = []) as -> by (eapply ws_starts; eauto). cbn [app] in *.
      destruct (IHt Kt a A v _ _ V (stops_cons _ _ (or_introl eq_refl))
        (stops_ws b _ B (stops_cons "]"%char r' (or_intror (or_introl eq_refl)))) E) as (_ & Q & _).
      assert (b = []) as -> by (eapply (B0 b); [exact B| |exact Q]; tauto). discriminate Q.
    + exfalso. assert (w = []) as -> by (eapply ws_starts; eauto). cbn [app] in *.
      destruct (IHt Kt a A v _ _ V (stops_cons _ _ (or_intror (or_introl eq_refl)))
        (stops_ws b _ B (stops_cons ","%char _ (or_introl eq_refl))) E) as (_ & Q & _).
      assert (b = []) as -> by (eapply (B0 b); [exact B| |exact Q]; tauto). discriminate Q.
    + assert (w = []) as -> by (eapply ws_starts; eauto). cbn [app] in *.
      destruct (IHt Kt a A v _ _ V (stops_cons _ _ (or_introl eq_refl))
        (stops_ws b _ B (stops_cons ","%char _ (or_introl eq_refl))) E) as (-> & Q & L).
      assert (b = []) as -> by (eapply (B0 b); [exact B| |exact Q]; tauto). injection Q as Q.
      destruct (IHl Kl N y Y x r r' X Q) as (-> & -> & M). cbn. auto.
  - intros _ N. congruence.
  - (* member *)
    intros k t IHt l IHl (_ & Kt & Kl) _ s T x r r' X E. apply members_text_ok in T. destruct T as (kx & a & KX & A & T).
    destruct (jsonify_exact e k) as (ts & Yk & F). rewrite Yk in KX. injection KX as <-.
    pose proof (tree_starts t a Kt A) as S.
    assert (SK : starts (QUOTE :: List.concat ts ++ [QUOTE])) by (eexists; eexists; split; [reflexivity|now left]).
    assert (B0 : forall b c q z, json_ws b -> c = ","%char \/ c = "}"%char \/ c = ":"%char -> c :: q = b ++ z -> b = []).
    { intros b c q z HB C X0. destruct b as [|d b]; [reflexivity|]. injection X0 as -> _. inversion HB as [|? ? Y _]; subst.
      destruct C as [-> | [-> | ->]]; cbn in Y; lia. }
    assert (U : json_string_text (QUOTE :: List.concat ts ++ [QUOTE]) -> utf8 k).
    { intros [Z _]. destruct (jsonify_utf8 e k) as (y & Ey & H). apply H. congruence. }
    destruct X as [w kk b c v d W KK B C V D|w kk b c v d x W KK B C V D X]; destruct T as [[-> ->]|(y & N & Y & ->)];
      rewrite <- ?app_assoc in E; cbn [app] in E; rewrite <- ?app_assoc in E; cbn [app] in E;
      match type of E with QUOTE :: List.concat ts ++ QUOTE :: ?z = _ =>
        change (QUOTE :: List.concat ts ++ QUOTE :: z) with (QUOTE :: List.concat ts ++ [QUOTE] ++ z) in E;
        rewrite app_assoc in E; change (QUOTE :: (List.concat ts ++ [QUOTE]) ++ z) with ((QUOTE :: List.concat ts ++ [QUOTE]) ++ z) in E end;
      assert (w = []) as -> by (eapply ws_starts; eauto); cbn [app] in E;
      (eapply string_text_split in E; [|exact KK|exact F]); destruct E as [<- E];
      (assert (b = []) as -> by (eapply (B0 b); [exact B| |exact E]; tauto)); cbn [app] in E; injection E as E;
      rewrite <- ?app_assoc in E; cbn [app] in E; (assert (c = []) as -> by (eapply ws_starts; [exact C|exact S|exact E])); cbn [app] in E.
    + destruct (IHt Kt a A v _ _ V (stops_cons _ _ (or_intror (or_intror eq_refl)))
        (stops_ws d _ D (stops_cons "}"%char r' (or_intror (or_intror eq_refl)))) E) as (-> & Q & L).
      assert (d = []) as -> by (eapply (B0 d); [exact D| |exact Q]; tauto). injection Q as ->. rewrite app_nil_r. cbn. auto.
    + exfalso. destruct (IHt Kt a A v _ _ V (stops_cons _ _ (or_introl eq_refl))
        (stops_ws d _ D (stops_cons "}"%char r' (or_intror (or_intror eq_refl)))) E) as (_ & Q & _).
      assert (d = []) as -> by (eapply (B0 d); [exact D| |exact Q]; tauto). discriminate Q.
    + exfalso. destruct (IHt Kt a A v _ _ V (stops_cons _ _ (or_intror (or_intror eq_refl)))
        (stops_ws d _ D (stops_cons ","%char _ (or_introl eq_refl))) E) as (_ & Q & _).
      assert (d = []) as -> by (eapply (B0 d); [exact D| |exact Q]; tauto). discriminate Q.
    + destruct (IHt Kt a A v _ _ V (stops_cons _ _ (or_introl eq_refl))
        (stops_ws d _ D (stops_cons ","%char _ (or_introl eq_refl))) E) as (-> & Q & L).
      assert (d = []) as -> by (eapply (B0 d); [exact D| |exact Q]; tauto). injection Q as Q.
      destruct (IHl Kl N y Y x r r' X Q) as (-> & -> & M). cbn. auto.
Qed.

Lemma both_all :
  (forall t, tree_ok e t -> tree_all has_json utf8 t -> tree_all (fun v => argument_ok e v /\ has_json v) utf8 t) /\
  (forall l, elements_ok e l -> elements_all has_json utf8 l -> elements_all (fun v => argument_ok e v /\ has_json v) utf8 l) /\
  (forall l, members_ok e l -> members_all has_json utf8 l -> members_all (fun v => argument_ok e v /\ has_json v) utf8 l).
Proof.
  apply tree_mutind; unfold tree_ok, elements_ok, members_ok; cbn [tree_all elements_all members_all]; intuition auto.
Qed.

Lemma tree_json_iff t s : tree_all (argument_ok e) (fun _ => True) t -> tree_text e t = Ok s ->
  (tree_all has_json utf8 t <-> json_value s).
Proof.
  intros K T. split.
  - intros H. eapply (proj1 (trees_valid e HP HN HL) t); eauto. now apply (proj1 both_all t).
  - intros V. eapply (proj1 trees_only t K s T s [] []); auto; intros c q X; discriminate X.
Qed.

End Trees.
