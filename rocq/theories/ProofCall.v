(** Proofs about the resolution of calls. *)
From Verif Require Import Machine ModelItoa ModelInt ModelType ModelCall SpecType.

Lemma text_extracted p b o a : supported b o -> string_type a -> (forall c, a <> Ty c true (BClass true)) ->
  call p b a = [match a with Ty _ _ (BClass _) => ExtractString | _ => ExtractCString end].
Proof.
  intros S T V. destruct T as [c v|c v k|c v k].
  - destruct v; [exfalso; eapply V; reflexivity|]. destruct S; reflexivity.
  - destruct S, k; reflexivity.
  - destruct S, k; reflexivity.
Qed.
Lemma value_formatted p b o c v : supported b o -> (b = BFpos -> v = false) -> call p b (Ty c v b) = [FormatValue].
Proof.
  intros S V. destruct S; try (destruct t); try (destruct u as [t| | | | |]; try destruct t); try reflexivity.
  rewrite (V eq_refl). reflexivity.
Qed.
Lemma text_ranks a : (to_string_reference a = None /\ to_char_pointer a = None) \/
  (to_string_reference a = Some Exact /\ to_char_pointer a = None /\ exists c, a = Ty c false (BClass true)) \/
  (to_string_reference a = Some UserDefined /\ to_char_pointer a = Some Conversion /\ exists c v, a = Ty c v BNullptr) \/
  (to_string_reference a = Some UserDefined /\ to_char_pointer a = Some Exact /\
   exists c v q, a = Ty c v (BPointer q) \/ a = Ty c v (BArray q) \/ a = Ty c v (BReference q)).
Proof.
  destruct a as [c v ab]; destruct ab as [| | | | | |t| | | |u| |d|q|q|q|]; try (left; split; reflexivity).
  - right. right. left. repeat split. eauto.
  - destruct d; [|left; split; reflexivity]. destruct v; [left; split; reflexivity|]. right. left. repeat split. eauto.
  - unfold to_string_reference, to_char_pointer. destruct (_ || _)%bool; [|left; split; reflexivity].
    right. right. right. repeat split. eauto 6.
  - unfold to_string_reference, to_char_pointer. destruct (_ || _)%bool; [|left; split; reflexivity].
    right. right. right. repeat split. eauto 6.
  - unfold to_string_reference, to_char_pointer. destruct (_ || _)%bool; [|left; split; reflexivity].
    right. right. right. repeat split. exists c, v, q. auto.
Qed.
Lemma one_candidate p b a : (length (call p b a) <= 1)%nat.
Proof.
  unfold call, viable. destruct (is_string (Ty false false b)) eqn:S.
  - destruct (to_const_reference p b a) as [[]|]; cbn; lia.
  - destruct (text_ranks a) as [[-> ->]|[(-> & -> & c & ->)|[(-> & -> & c & v & ->)|(-> & -> & c & v & q & E)]]].
    + destruct (to_const_reference p b a) as [[]|]; cbn; lia.
    + destruct b as [| | | | | |t| | | |u| |[]|?|?|?|]; try discriminate S; cbn; lia.
    + destruct b as [| | | | | |t| | | |u| |[]|?|?|?|]; try discriminate S; cbn; lia.
    + destruct (to_const_reference p b a) as [r|] eqn:R; [|cbn; lia].
      destruct r; try (cbn; lia). exfalso.
      destruct E as [E|[E|E]]; rewrite E in R; destruct b as [| | | | | |t| | | |u| |[]|?|?|?|]; try discriminate R; discriminate S.
Qed.
Lemma value_never_extracted p b o a : supported b o -> object_type a -> ~ string_type a ->
  (forall c v, a <> Ty c v BNullptr) -> call p b a = [] \/ call p b a = [FormatValue].
Proof.
  intros S O NT NN.
  assert (A : to_string_reference a = None /\ to_char_pointer a = None).
  { destruct a as [c v ab]; destruct ab as [| | | | | |t| | | |u| |d|q|q|q|]; try (split; reflexivity).
    - exfalso. eapply NN. reflexivity.
    - destruct d; [exfalso; apply NT; constructor|split; reflexivity].
    - destruct q as [qc qv qb]. destruct qb; try (destruct qc, qv; split; reflexivity).
      destruct qv; [destruct qc; split; reflexivity|]. exfalso. apply NT. constructor.
    - destruct q as [qc qv qb]. destruct qb; try (destruct qc, qv; split; reflexivity).
      destruct qv; [destruct qc; split; reflexivity|]. exfalso. apply NT. constructor.
    - contradiction. }
  destruct A as [A1 A2]. unfold call, viable. rewrite A1, A2.
  assert (I : is_string (Ty false false b) = false) by (destruct S; reflexivity). rewrite I.
  destruct (to_const_reference p b a) as [r|]; [right; destruct r; reflexivity|left; reflexivity].
Qed.
Lemma null_pointer_call p b o c v : supported b o ->
  call p b (Ty c v BNullptr) = if same_base b BNullptr then [FormatValue] else [ExtractCString].
Proof. intros S. destruct S; reflexivity. Qed.
Lemma arithmetic_converted p b o c v a : supported b o -> arithmetic b = true -> arithmetic a = true ->
  call p b (Ty c v a) = [FormatValue].
Proof.
  intros S B A.
  destruct (value_never_extracted p b o (Ty c v a) S) as [E|E]; try exact E.
  - destruct a; try discriminate A; exact I.
  - intros T. inversion T; subst; discriminate A.
  - intros c' v' E. inversion E. subst. discriminate A.
  - exfalso. revert E. unfold call, viable. replace (is_string (Ty false false b)) with false by (destruct S; reflexivity).
    destruct a; try discriminate A; cbn [to_string_reference to_char_pointer];
      change (is_cstr _ || is_string_literal _) with false; cbn [app];
      destruct S; try discriminate B; cbn;
      repeat match goal with |- context[if ?x then _ else _] => destruct x end; cbn; discriminate.
Qed.
Lemma text_passed p a : string_type a -> (forall c, a <> Ty c true (BClass true)) -> call p (BClass true) a = [PassString].
Proof.
  intros T V. destruct T as [c v|c v k|c v k].
  - destruct v; [exfalso; eapply V; reflexivity|]. reflexivity.
  - destruct k; reflexivity.
  - destruct k; reflexivity.
Qed.

Lemma constructor_selected p u : construct p (underlying_base u) = [promoted p u].
Proof.
  destruct u as [t| | | | |]; try reflexivity; [destruct t; reflexivity|].
  unfold construct, promoted. cbn. destruct ((wchar_bits p =? 32) && negb (wchar_signed p)); reflexivity.
Qed.

Lemma number_arithmetic b : number_type b -> arithmetic b = true.
Proof. intros []; reflexivity. Qed.
Lemma numbers_converted p b o c v a : supported b o -> number_type b -> number_type a -> call p b (Ty c v a) = [FormatValue].
Proof. intros S B A. apply (arithmetic_converted p b o); auto using number_arithmetic. Qed.

Lemma same_int_eq s t : same_int s t = true -> s = t.
Proof. destruct s, t; cbn; congruence. Qed.
Lemma same_underlying_eq u w : same_underlying u w = true -> u = w.
Proof. destruct u, w; cbn; try congruence. intros H. apply same_int_eq in H. congruence. Qed.
Lemma other_enumeration p u w c v : u <> w -> call p (BEnum u) (Ty c v (BEnum w)) = [].
Proof.
  intros N. assert (E : same_underlying u w = false).
  { destruct (same_underlying u w) eqn:E; [|reflexivity]. apply same_underlying_eq in E. contradiction. }
  unfold call, viable. change (is_string (Ty false false (BEnum u))) with false. cbn [to_string_reference to_char_pointer].
  change (is_cstr _ || is_string_literal _) with false. cbn [app to_const_reference same_base]. rewrite E.
  destruct w; reflexivity.
Qed.
Lemma enumeration_converted p b o c v u : supported b o -> number_type b -> call p b (Ty c v (BEnum u)) = [FormatValue].
Proof.
  intros S B. unfold call, viable. replace (is_string (Ty false false b)) with false by (destruct B; reflexivity).
  cbn [to_string_reference to_char_pointer]. change (is_cstr _ || is_string_literal _) with false. cbn [app to_const_reference].
  destruct B; cbn [same_base arithmetic]; repeat match goal with |- context[if ?x then _ else _] => destruct x end; reflexivity.
Qed.
Lemma number_to_enumeration p u c v a : number_type a -> call p (BEnum u) (Ty c v a) = [].
Proof.
  intros A. unfold call, viable. change (is_string (Ty false false (BEnum u))) with false.
  destruct A as [| | | | |t| | | ]; [..|destruct t| | |]; reflexivity.
Qed.
