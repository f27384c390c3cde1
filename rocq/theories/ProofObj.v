(** Proofs about histories of formatter objects. *)
From Verif Require Import Machine ModelItoa ModelInt ModelString ModelText ModelIeee ModelDiyfp
  ModelDtoa ModelFloat ModelLexi ModelObj SpecObj ModelPlatforms.

(** Each live object has the members of a new formatter for its value, except that its
    pointers lead to its origin. *)
Definition inv (e : env) (h : list op) (st : store) : Prop := forall i,
  match stands_for h i with
  | Some v => exists f r, Format e v = Ok f /\ origin h i = Some r /\ st i = Live (new_object r f)
  | None => origin h i = None /\ (st i = Unborn \/ st i = Dead)
  end.

Lemma set_same st i s : set_slot st i s i = s.
Proof. unfold set_slot. now rewrite Nat.eqb_refl. Qed.
Lemma set_other st i s j : j <> i -> set_slot st i s j = st j.
Proof. intros H. unfold set_slot. destruct (Nat.eqb_spec j i); congruence. Qed.

Lemma run_inv e h : forall st, run e h = Ok st -> inv e h st.
Proof.
  induction h as [|o h IH]; intros st R.
  - injection R as <-. intros i. cbn. auto.
  - cbn [run] in R. destruct (run e h) as [st0| | |]; try discriminate R.
    specialize (IH st0 eq_refl). cbn [bind] in R. intros i. pose proof (IH i) as Ii.
    destruct o as [j v|d s|d s|j]; cbn [step stands_for origin] in *.
    + destruct (st0 j) eqn:Ej; try discriminate R.
      destruct (Format e v) as [f| | |] eqn:Ef; try discriminate R. injection R as <-.
      destruct (Nat.eqb_spec j i) as [->|N].
      * exists f, i. rewrite set_same. auto.
      * rewrite set_other by congruence. exact Ii.
    + destruct (st0 d) eqn:Ed; try discriminate R. destruct (st0 s) eqn:Es; try discriminate R.
      injection R as <-. destruct (Nat.eqb_spec d i) as [->|N].
      * pose proof (IH s) as Is. rewrite set_same. rewrite Es in Is. destruct (stands_for h s); [exact Is|].
        destruct Is as [_ [X|X]]; discriminate X.
      * rewrite set_other by congruence. exact Ii.
    + destruct (st0 d) eqn:Ed; try discriminate R. destruct (st0 s) eqn:Es; try discriminate R.
      destruct (class_eqb _ _); [|discriminate R].
      injection R as <-. destruct (Nat.eqb_spec d i) as [->|N].
      * pose proof (IH s) as Is. rewrite set_same. rewrite Es in Is. destruct (stands_for h s); [exact Is|].
        destruct Is as [_ [X|X]]; discriminate X.
      * rewrite set_other by congruence. exact Ii.
    + destruct (st0 j) eqn:Ej; try discriminate R. injection R as <-.
      destruct (Nat.eqb_spec j i) as [->|N].
      * rewrite set_same. auto.
      * rewrite set_other by congruence. exact Ii.
Qed.

(** What an object shows, by cases on its class. *)
Lemma class_of_value e v f : Format e v = Ok f ->
  match f with
  | FNull _ | FBool _ | FChar _ => self_contained v
  | _ => ~ self_contained v
  end.
Proof.
  intros H. destruct v; cbn [Format] in H; try discriminate H;
    match type of H with bind ?m _ = _ => destruct m; try discriminate H end;
    injection H as <-; cbn; auto.
Qed.

Lemma contained_string e h st i v s : run e h = Ok st -> stands_for h i = Some v ->
  self_contained v -> text_of e v s -> object_string st i = Ok s.
Proof.
  intros R S C (f & Ef & Es). pose proof (run_inv e h st R i) as I. rewrite S in I.
  destruct I as (f' & r & Ef' & _ & E). rewrite Ef in Ef'. injection Ef' as <-.
  pose proof (class_of_value e v f Ef) as K. unfold object_string. rewrite E.
  destruct f; try contradiction; exact Es.
Qed.

Lemma origin_string e h st i r v s : run e h = Ok st -> stands_for h i = Some v ->
  origin h i = Some r -> stands_for h r = Some v -> text_of e v s -> object_string st i = Ok s.
Proof.
  intros R S O Sr (f & Ef & Es). pose proof (run_inv e h st R i) as I. rewrite S in I.
  destruct I as (f' & r' & Ef' & O' & E). rewrite Ef in Ef'. injection Ef' as <-.
  rewrite O in O'. injection O' as <-.
  pose proof (run_inv e h st R r) as J. rewrite Sr in J.
  destruct J as (g' & r2 & Eg' & _ & E2). rewrite Ef in Eg'. injection Eg' as <-.
  assert (B : object_buffer (new_object r2 f) = f_buffer f) by (destruct f; reflexivity).
  unfold object_string. rewrite E.
  destruct f; cbn [new_object]; rewrite ?Nat.eqb_refl, ?E2, ?B; exact Es.
Qed.

Lemma dangling_string e h st i r v : run e h = Ok st -> stands_for h i = Some v ->
  ~ self_contained v -> origin h i = Some r -> stands_for h r = None ->
  object_string st i = UB "read through a dangling pointer".
Proof.
  intros R S C O Sr. pose proof (run_inv e h st R i) as I. rewrite S in I.
  destruct I as (f & r' & Ef & O' & E). rewrite O in O'. injection O' as <-.
  pose proof (run_inv e h st R r) as J. rewrite Sr in J. destruct J as (_ & J).
  pose proof (class_of_value e v f Ef) as K. unfold object_string. rewrite E.
  destruct f; try contradiction; cbn [new_object]; rewrite Nat.eqb_refl; destruct J as [-> | ->]; reflexivity.
Qed.

(** ** Objects that were constructed and never assigned *)

Lemma born e h i v : forall st, run e h = Ok st -> In (Construct i v) h -> st i <> Unborn.
Proof.
  induction h as [|o h IH]; intros st R H; [contradiction|].
  cbn [run] in R. destruct (run e h) as [st0| | |]; try discriminate R.
  specialize (IH st0 eq_refl). cbn [bind] in R. destruct H as [->|H].
  - cbn [step] in R. destruct (st0 i); try discriminate R.
    destruct (Format e v); try discriminate R. injection R as <-. rewrite set_same. discriminate.
  - specialize (IH H). destruct o as [j w|d s|d s|j]; cbn [step] in R.
    + destruct (st0 j) eqn:Ej; try discriminate R. destruct (Format e w); try discriminate R.
      injection R as <-. destruct (Nat.eq_dec i j) as [->|N]; [congruence|]. now rewrite set_other.
    + destruct (st0 d) eqn:Ed; try discriminate R. destruct (st0 s); try discriminate R.
      injection R as <-. destruct (Nat.eq_dec i d) as [->|N]; [congruence|]. now rewrite set_other.
    + destruct (st0 d) eqn:Ed; try discriminate R. destruct (st0 s); try discriminate R.
      destruct (class_eqb _ _); [|discriminate R].
      injection R as <-. destruct (Nat.eq_dec i d) as [->|N]; [rewrite set_same; discriminate|]. now rewrite set_other.
    + destruct (st0 j) eqn:Ej; try discriminate R.
      injection R as <-. destruct (Nat.eq_dec i j) as [->|N]; [rewrite set_same; discriminate|]. now rewrite set_other.
Qed.

Lemma own_origin e h i v : forall st, run e h = Ok st -> constructed h i -> never_assigned h i ->
  stands_for h i = Some v -> origin h i = Some i.
Proof.
  revert v. induction h as [|o h IH]; intros v st R (w & C) N S; [contradiction|].
  cbn [run] in R. destruct (run e h) as [st0| | |] eqn:R0; try discriminate R. cbn [bind] in R.
  assert (Nh : never_assigned h i) by (intros s X; apply (N s); now right).
  destruct o as [j u|d s|d s|j]; cbn [stands_for origin] in *.
  - destruct (Nat.eqb_spec j i) as [->|NE]; [reflexivity|].
    eapply IH; eauto. destruct C as [C|C]; [congruence|now exists w].
  - destruct C as [C|C]; [discriminate C|]. destruct (Nat.eqb_spec d i) as [->|NE].
    + exfalso. apply (born e h i w st0 R0 C). cbn [step] in R. destruct (st0 i); try discriminate R. reflexivity.
    + eapply IH; eauto. now exists w.
  - destruct C as [C|C]; [discriminate C|]. destruct (Nat.eqb_spec d i) as [->|NE].
    + exfalso. apply (N s). now left.
    + eapply IH; eauto. now exists w.
  - destruct C as [C|C]; [discriminate C|]. destruct (Nat.eqb_spec j i) as [->|NE]; [discriminate S|].
    eapply IH; eauto. now exists w.
Qed.

Lemma constructed_string e h st i v s : run e h = Ok st -> constructed h i -> never_assigned h i ->
  stands_for h i = Some v -> text_of e v s -> object_string st i = Ok s.
Proof.
  intros R C N S T. eapply origin_string; eauto. eapply own_origin; eauto.
Qed.

(** ** Returning by value *)

Lemma return_elided e v s : text_of e v s -> format_string_of true e v = Ok s.
Proof.
  intros T. pose proof T as (f & Ef & _). unfold format_string_of.
  assert (R : run e [Construct 0 v] = Ok (set_slot empty_store 0 (Live (new_object 0 f)))).
  { cbn. now rewrite Ef. }
  rewrite R. cbn [bind]. apply (constructed_string e [Construct 0 v] _ 0 v s R).
  - exists v. now left.
  - intros x [X|[]]. discriminate X.
  - reflexivity.
  - exact T.
Qed.

Lemma lexi_is_elided e v : ~ (exists s, v = VString s \/ v = VCString s) ->
  lexi e v = format_string_of true e v.
Proof.
  intros N. unfold format_string_of. cbn [run bind step empty_store].
  destruct v; try (cbn [lexi]; destruct (Format e _) as [f| | |]; [|reflexivity..];
    cbn [bind]; unfold object_string; rewrite set_same; destruct f; cbn [new_object];
    rewrite ?Nat.eqb_refl, ?set_same; reflexivity).
  - exfalso. apply N. eauto.
  - exfalso. apply N. eauto.
Qed.

Lemma return_copied e v s : text_of e v s ->
  format_string_of false e v = if match v with VNull | VBool _ | VChar _ => true | _ => false end
                               then Ok s else UB "read through a dangling pointer".
Proof.
  intros T. pose proof T as (f & Ef & _). unfold format_string_of.
  set (h := [Destroy 0; Copy 1 0; Construct 0 v]).
  assert (R : exists st, run e h = Ok st).
  { unfold h. cbn. rewrite Ef. cbn. eauto. }
  destruct R as [st R]. rewrite R. cbn [bind].
  pose proof (class_of_value e v f Ef) as K.
  destruct (match v with VNull | VBool _ | VChar _ => true | _ => false end) eqn:B.
  - apply (contained_string e h st 1 v s R); [reflexivity| |exact T].
    destruct v; try discriminate B; exact I.
  - apply (dangling_string e h st 1 0 v R); try reflexivity.
    destruct v; try discriminate B; intros [].
Qed.

(** ** Witnesses *)

Lemma copy_dangles : exists e h st i v s,
  run e h = Ok st /\ stands_for h i = Some v /\ text_of e v s /\
  object_string st i = UB "read through a dangling pointer".
Proof.
  exists (linux_x86_64 zero_memory), [Destroy 0; Copy 1 0; Construct 0 (VInt Int 7)].
  eexists. exists 1%nat, (VInt Int 7), (str "7").
  split; [reflexivity|]. split; [reflexivity|]. split.
  - eexists. split; [vm_compute; reflexivity|vm_compute; reflexivity].
  - vm_compute. reflexivity.
Qed.

Lemma assignment_changes_copy : exists e h st i v s s',
  run e h = Ok st /\ stands_for h i = Some v /\ text_of e v s /\
  object_string st i = Ok s' /\ s' <> s.
Proof.
  exists (linux_x86_64 zero_memory),
    [Assign 0 2; Construct 2 (VInt Int 7); Copy 1 0; Construct 0 (VInt Int 5)].
  eexists. exists 1%nat, (VInt Int 5), (str "5"), (str "7").
  split; [reflexivity|]. split; [reflexivity|]. split.
  - eexists. split; [vm_compute; reflexivity|vm_compute; reflexivity].
  - split; [vm_compute; reflexivity|discriminate].
Qed.
