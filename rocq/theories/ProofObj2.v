(** Proofs about histories of formatter objects, continued: which histories run, and what a
    copy shows after its origin was assigned to. *)
From Verif Require Import Machine ModelItoa ModelInt ModelString ModelText ModelIeee ModelDiyfp
  ModelDtoa ModelFloat ModelLexi ModelObj SpecObj ModelPlatforms ProofObj.

Lemma unborn e h i : forall st, run e h = Ok st -> (st i = Unborn <-> fresh h i).
Proof.
  induction h as [|o h IH]; intros st R.
  - injection R as <-. split; [|reflexivity]. intros _. split; intros x [].
  - cbn [run] in R. destruct (run e h) as [st0| | |]; try discriminate R.
    specialize (IH st0 eq_refl). cbn [bind] in R.
    assert (K : forall y, st = set_slot st0 y (st y) -> (y = i -> st y <> Unborn) ->
              (i = y -> (exists v, o = Construct y v) \/ (exists s, o = Copy y s) \/ st0 i <> Unborn) ->
              (i <> y -> (forall v, o <> Construct i v) /\ (forall s, o <> Copy i s)) -> (st i = Unborn <-> fresh (o :: h) i)).
    { intros y E1 E2 E3 E4. destruct (Nat.eq_dec i y) as [->|N].
      - split; [intros X; now destruct (E2 eq_refl)|]. intros [F1 F2]. exfalso.
        destruct (E3 eq_refl) as [[v ->]|[[s ->]|X]]; [apply (F1 v); now left|apply (F2 s); now left|].
        apply X, IH. split; [intros v Y; apply (F1 v)|intros s Y; apply (F2 s)]; now right.
      - rewrite E1, set_other, IH by congruence. destruct (E4 N) as [G1 G2]. unfold fresh.
        split; intros [F1 F2]; (split; [intros v Y; apply (F1 v)|intros s Y; apply (F2 s)]); [| |now right|now right].
        + destruct Y as [Y|Y]; [now destruct (G1 v)|exact Y].
        + destruct Y as [Y|Y]; [now destruct (G2 s)|exact Y]. }
    destruct o as [j v|d s|d s|j]; cbn [step] in R.
    + destruct (st0 j) eqn:Ej; try discriminate R. destruct (Format e v); try discriminate R. injection R as <-.
      apply (K j); rewrite ?set_same; try easy; [eauto|]. intros N. split; intros; congruence.
    + destruct (st0 d) eqn:Ed; try discriminate R. destruct (st0 s) eqn:Es; try discriminate R. injection R as <-.
      apply (K d); rewrite ?set_same; try easy; [eauto|]. intros N. split; intros; congruence.
    + destruct (st0 d) eqn:Ed; try discriminate R. destruct (st0 s) eqn:Es; try discriminate R.
      destruct (class_eqb _ _); [|discriminate R]. injection R as <-.
      apply (K d); rewrite ?set_same; try easy. intros ->. right. right. congruence.
    + destruct (st0 j) eqn:Ej; try discriminate R. injection R as <-.
      apply (K j); rewrite ?set_same; try easy. intros ->. right. right. congruence.
Qed.

Lemma live e h i : forall st, run e h = Ok st -> forall v, stands_for h i = Some v ->
  exists f r, Format e v = Ok f /\ st i = Live (new_object r f).
Proof. intros st R v S. pose proof (run_inv e h st R i) as I. rewrite S in I. destruct I as (f & r & A & _ & B). eauto. Qed.
Lemma live_stands e h i : forall st o, run e h = Ok st -> st i = Live o ->
  exists v f r, stands_for h i = Some v /\ Format e v = Ok f /\ o = new_object r f.
Proof.
  intros st o R S. pose proof (run_inv e h st R i) as I. destruct (stands_for h i) as [v|].
  - destruct I as (f & r & A & _ & B). rewrite S in B. injection B as ->. eauto 6.
  - destruct I as [_ [X|X]]; congruence.
Qed.

Definition class_name (c : formatter_class) : class :=
  match c with
  | NullFormatter => CNull | BoolFormatter => CBool | CharFormatter => CChar
  | IntFormatter => CInt | FloatFormatter => CFloat | EnumFormatter => CEnum
  end.
Lemma class_right e v f r : Format e v = Ok f -> exists c, class_of v = Some c /\ object_class (new_object r f) = class_name c.
Proof.
  intros H. destruct v; cbn [Format] in H; try discriminate H;
    match type of H with bind ?m _ = _ => destruct m; try discriminate H end;
    injection H as <-; cbn; eauto.
Qed.
Lemma class_eqb_name a b : class_eqb (class_name a) (class_name b) = true <-> a = b.
Proof. destruct a, b; cbn; split; congruence. Qed.

Lemma runs_iff e h : (exists st, run e h = Ok st) <-> sensible e h.
Proof.
  induction h as [|o h IH].
  - split; [exact (fun _ => I)|]. intros _. eexists. reflexivity.
  - cbn [run sensible]. split.
    + intros [st R]. destruct (run e h) as [st0| | |] eqn:R0; try discriminate R.
      split; [apply IH; eauto|]. cbn [bind] in R. destruct o as [j v|d s|d s|j]; cbn [step] in R.
      * destruct (st0 j) eqn:Ej; try discriminate R. apply (unborn e h j st0 R0) in Ej. split; [exact Ej|].
        destruct (Format e v); try discriminate R. eauto.
      * destruct (st0 d) eqn:Ed; try discriminate R. apply (unborn e h d st0 R0) in Ed. split; [exact Ed|].
        destruct (st0 s) eqn:Es; try discriminate R. destruct (live_stands e h s st0 _ R0 Es) as (v & f & r & A & _). eauto.
      * destruct (st0 d) as [|y|] eqn:Ed; try discriminate R. destruct (st0 s) as [|x|] eqn:Es; try discriminate R.
        destruct (live_stands e h d st0 _ R0 Ed) as (v & f & r & A & B & ->).
        destruct (live_stands e h s st0 _ R0 Es) as (w & g & q & A' & B' & ->).
        exists v, w. split; [exact A|]. split; [exact A'|].
        destruct (class_right e v f r B) as (c & -> & C). destruct (class_right e w g q B') as (c' & -> & C').
        rewrite C, C' in R. destruct (class_eqb _ _) eqn:Q; [|discriminate R]. apply class_eqb_name in Q. congruence.
      * destruct (st0 j) eqn:Ej; try discriminate R. destruct (live_stands e h j st0 _ R0 Ej) as (v & f & r & A & _). eauto.
    + intros [S O]. apply IH in S. destruct S as [st0 R0]. rewrite R0. cbn [bind].
      destruct o as [j v|d s|d s|j]; cbn [step].
      * destruct O as [F (f & E)]. rewrite (proj2 (unborn e h j st0 R0) F), E. cbn [bind]. eauto.
      * destruct O as [F (v & E)]. rewrite (proj2 (unborn e h d st0 R0) F).
        destruct (live e h s st0 R0 v E) as (f & r & _ & ->). eauto.
      * destruct O as (v & w & A & A' & Q). destruct (live e h d st0 R0 v A) as (f & r & B & ->).
        destruct (live e h s st0 R0 w A') as (g & q & B' & ->).
        destruct (class_right e v f r B) as (c & K & ->). destruct (class_right e w g q B') as (c' & K' & ->).
        rewrite K, K' in Q. injection Q as <-. rewrite (proj2 (class_eqb_name c c) eq_refl). eauto.
      * destruct O as (v & E). destruct (live e h j st0 R0 v E) as (f & r & _ & ->). eauto.
Qed.

(** ** After an assignment to the origin *)

Lemma read_n_length b : forall n i s, buf_read_n b i n = Ok s -> length s = n.
Proof.
  induction n as [|n IH]; intros i s H; cbn [buf_read_n] in H; [now injection H as <-|].
  destruct (buf_read b i); try discriminate H. cbn [bind] in H.
  destruct (buf_read_n b (i + 1) n) eqn:E; try discriminate H. injection H as <-. cbn [length]. f_equal. eauto.
Qed.
Lemma read_n_prefix b m : forall n i s, buf_read_n b i n = Ok s -> (m <= n)%nat -> buf_read_n b i m = Ok (firstn m s).
Proof.
  induction m as [|m IH]; intros n i s H L; [reflexivity|]. destruct n as [|n]; [lia|].
  cbn [buf_read_n] in *. destruct (buf_read b i) as [c| | |]; try discriminate H. cbn [bind] in *.
  destruct (buf_read_n b (i + 1) n) as [r| | |] eqn:E; try discriminate H. injection H as <-.
  rewrite (IH n _ r E) by lia. reflexivity.
Qed.

Lemma first_zero e v f : Format e v = Ok f -> ~ self_contained v -> forall r,
  exists c b z, new_object r f = ONumber c b (Ptr r 0) (Ptr r z) /\ f_buffer f = b /\ f_string f = buf_read_n b 0 (Z.to_nat (z - 0)).
Proof.
  assert (T : forall x n o, FormatInt_body x n = Ok o -> fi_first o = 0).
  { intros x n o. unfold FormatInt_body. destruct (x n _); try discriminate. cbn [bind].
    destruct (buf_write _ _ _); try discriminate. now intros [= <-]. }
  assert (T' : forall t n o, FormatInt_new (e_platform e) t n = Ok o -> fi_first o = 0).
  { intros t n o. unfold FormatInt_new. destruct t; eauto; destruct (sys64 _); eauto. }
  assert (F : forall u o, format_bits (e_float e) u = Ok o -> ff_first o = 0).
  { intros u o. unfold format_bits, special. repeat match goal with |- context [if ?b then _ else _] => destruct b end;
      try (destruct (buf_strncpy_literal _ _ _); try discriminate; now intros [= <-]).
    destruct (dtoa _ _ _); try discriminate. now intros [= <-]. }
  assert (I : forall g o, f = FInt o \/ f = FEnum o -> fi_first o = 0 -> exists c b z,
    new_object g f = ONumber c b (Ptr g 0) (Ptr g z) /\ f_buffer f = b /\ f_string f = buf_read_n b 0 (Z.to_nat (z - 0))).
  { intros g [b p z] [->| ->] E; cbn in E; subst p; cbn; unfold FormatInt_string, FormatInt_size; cbn; eauto 6. }
  assert (J : forall g o, f = FFloat o -> ff_first o = 0 -> exists c b z,
    new_object g f = ONumber c b (Ptr g 0) (Ptr g z) /\ f_buffer f = b /\ f_string f = buf_read_n b 0 (Z.to_nat (z - 0))).
  { intros g [b p z] -> E; cbn in E; subst p; cbn; unfold FormatFloat_string, FormatFloat_size; cbn; eauto 6. }
  intros H N r. destruct v; cbn [Format] in H; try discriminate H; try (exfalso; exact (N Logic.I));
    match type of H with bind ?m _ = _ => destruct m eqn:E; try discriminate H end; injection H as <-; eauto.
Qed.

Lemma sensible_tail e o h : sensible e (o :: h) -> sensible e h.
Proof. now intros [A _]. Qed.
Lemma origin_class e h i : forall r v, sensible e h -> stands_for h i = Some v -> origin h i = Some r ->
  exists v0, In (Construct r v0) h /\ class_of v0 = class_of v.
Proof.
  revert i. induction h as [|o h IH]; intros i r v S A O; [discriminate A|]. pose proof (sensible_tail _ _ _ S) as S'.
  assert (K : forall j, stands_for h j = Some v -> origin h j = Some r ->
    exists v0, In (Construct r v0) (o :: h) /\ class_of v0 = class_of v).
  { intros j A1 O1. destruct (IH j r v S' A1 O1) as (v0 & B & C). exists v0. split; [now right|exact C]. }
  destruct o as [j u|d s|d s|j]; cbn [stands_for origin] in A, O.
  - destruct (Nat.eqb_spec j i) as [->|N]; [|eauto]. injection A as ->. injection O as ->. exists v. split; [now left|reflexivity].
  - destruct (Nat.eqb_spec d i) as [->|N]; eauto.
  - destruct (Nat.eqb_spec d i) as [->|N]; eauto.
  - destruct (Nat.eqb_spec j i) as [->|N]; [discriminate A|eauto].
Qed.
Lemma own_class e h i v0 : sensible e h -> In (Construct i v0) h -> forall w, stands_for h i = Some w -> class_of v0 = class_of w.
Proof.
  induction h as [|o h IH]; intros S C w A; [contradiction|]. pose proof (sensible_tail _ _ _ S) as S'. destruct S as [_ S].
  destruct C as [->|C].
  - cbn in A. rewrite Nat.eqb_refl in A. injection A as ->. reflexivity.
  - specialize (IH S' C). destruct o as [j u|d s|d s|j]; cbn [stands_for] in A.
    + destruct (Nat.eqb_spec j i) as [->|N]; [|auto]. destruct S as [[F _] _]. now destruct (F v0).
    + destruct (Nat.eqb_spec d i) as [->|N]; [|auto]. destruct S as [[F _] _]. now destruct (F v0).
    + destruct (Nat.eqb_spec d i) as [->|N]; [|auto]. destruct S as (a & b & Sa & Sb & Q). rewrite A in Sb. injection Sb as <-.
      rewrite <- Q. auto.
    + destruct (Nat.eqb_spec j i) as [->|N]; [discriminate A|auto].
Qed.
Lemma same_class e h st i r v w : run e h = Ok st -> stands_for h i = Some v -> origin h i = Some r -> stands_for h r = Some w ->
  class_of v = class_of w.
Proof.
  intros R A O B. assert (S : sensible e h) by (apply runs_iff; eauto).
  destruct (origin_class e h i r v S A O) as (v0 & C & <-). eapply own_class; eauto.
Qed.

Lemma changed_string e h st i r v w s t : run e h = Ok st -> stands_for h i = Some v -> ~ self_contained v ->
  origin h i = Some r -> stands_for h r = Some w -> text_of e v s -> text_of e w t ->
  (length s <= length t)%nat -> object_string st i = Ok (firstn (length s) t).
Proof.
  intros R S C O Sr (f & Ef & Es) (g & Eg & Et) L.
  assert (C' : ~ self_contained w) by (pose proof (same_class e h st i r v w R S O Sr) as Q; destruct v, w; cbn in *; try discriminate Q; tauto).
  pose proof (run_inv e h st R i) as I. rewrite S in I.
  destruct I as (f' & r' & Ef' & O' & E). rewrite Ef in Ef'. injection Ef' as <-. rewrite O in O'. injection O' as <-.
  pose proof (run_inv e h st R r) as J. rewrite Sr in J. destruct J as (g' & q & Eg' & _ & E'). rewrite Eg in Eg'. injection Eg' as <-.
  destruct (first_zero e v f Ef C r) as (c & b & z & N1 & N2 & N3).
  destruct (first_zero e w g Eg C' q) as (c' & b' & z' & N1' & N2' & N3').
  unfold object_string. rewrite E, N1, Nat.eqb_refl, E', N1'. cbn [object_buffer].
  rewrite Es in N3. rewrite Et in N3'. symmetry in N3, N3'. pose proof (read_n_length _ _ _ _ N3) as L1.
  pose proof (read_n_length _ _ _ _ N3') as L2. rewrite <- L1. apply (read_n_prefix _ _ _ _ _ N3'). lia.
Qed.
