(** Proofs about overload selection. *)
From Verif Require Import Machine ModelItoa ModelInt ModelString ModelText ModelFloat ModelLexi ModelType SpecType.

Lemma format_selects c v b o : supported b o -> format_routes (Ty c v b) = [RFormat [o]].
Proof. intros H. destruct H as [| | |t| | | |u|]; destruct v; try destruct t; reflexivity. Qed.

Lemma format_string t : string_type t -> format_routes t = [RString].
Proof. intros H. destruct H as [c v|c v k|c v k]; try destruct k; destruct v; reflexivity. Qed.

Lemma format_other t : object_type t -> ~ string_type t ->
  (forall o, ~ supported (match t with Ty _ _ b => b end) o) -> format_routes t = [RFormat []].
Proof.
  intros O NS NB. destruct t as [c v b].
  destruct b as [| | | | | |t| | | |u| |d|p|a|r|]; try (exfalso; eapply NB; constructor; fail);
    try (destruct v; reflexivity); try contradiction.
  - destruct d; [exfalso; apply NS; constructor|]. destruct v; reflexivity.
  - destruct p as [pc pv pb].
    destruct pb; try (destruct v, pc, pv; reflexivity).
    destruct pv; [destruct v, pc; reflexivity|]. exfalso. apply NS. constructor.
  - destruct a as [ac av ab].
    destruct ab; try (destruct ac, av; reflexivity).
    destruct av; [destruct ac; reflexivity|]. exfalso. apply NS. constructor.
Qed.

Lemma extract_selects b o : supported b o -> extract_routes (Ty false false b) = [[o]].
Proof. intros H. destruct H as [| | |t| | | |u|]; try destruct t; reflexivity. Qed.

(** Qualifiers matter exactly for the traits that are lists of specialisations. *)
Lemma extract_qualified c v b o : supported b o ->
  extract_routes (Ty c v b) = [match o with
                               | OInt | OFloat | OFpos => if c || v then [] else [o]
                               | _ => [o]
                               end].
Proof. intros H. destruct H as [| | |t| | | |u|]; try destruct t; destruct c, v; reflexivity. Qed.

Lemma extract_none b : (forall o, ~ supported b o) -> forall c v,
  extract_routes (Ty c v b) = [[]] \/ extract_routes (Ty c v b) = [].
Proof.
  intros N c v. unfold extract_routes. destruct (is_string (Ty c v b)); [now right|left].
  cbn [negb].
  destruct b as [| | | | | |t| | | |u| |d|p|a|r|]; try (exfalso; eapply N; constructor; fail);
    try (destruct c, v; reflexivity).
  destruct a as [ac av ab]. destruct c, v; reflexivity.
Qed.

Lemma extract_string t : string_type t -> extract_routes t = [].
Proof. intros H. destruct H as [c v|c v k|c v k]; try destruct k; destruct v; reflexivity. Qed.

Lemma const_int_none : exists c v b o, supported b o /\ extract_routes (Ty c v b) = [[]].
Proof. exists true, false, (BInt Int), OInt. split; [constructor|reflexivity]. Qed.

(** The model of the public functions follows the selection. *)
Lemma model_follows e v f : Format e v = Ok f ->
  exists o, supported (value_base v) o /\ built_by o f.
Proof.
  intros H. destruct v; cbn [Format] in H; try discriminate H;
    match type of H with bind ?m _ = _ => destruct m; try discriminate H end;
    injection H as <-; eexists; (split; [constructor|exact I]).
Qed.

Lemma model_strings v : (forall o, ~ supported (value_base v) o) <-> string_type (Ty false false (value_base v)).
Proof.
  split; intros H.
  - destruct v; try (exfalso; eapply H; constructor; fail); constructor.
  - intros o S. destruct v; inversion H; subst; inversion S.
Qed.

Lemma model_extract T : exists o, supported (extract_base T) o.
Proof. destruct T; eexists; constructor. Qed.

(** For every qualification of the argument. *)
Lemma model_routes e x f c v : Format e x = Ok f -> exists o, format_routes (Ty c v (value_base x)) = [RFormat [o]] /\ built_by o f.
Proof. intros H. destruct (model_follows e x f H) as (o & S & B). exists o. split; [now apply format_selects|exact B]. Qed.
Lemma model_string_routes x c v : (exists s, x = VString s \/ x = VCString s) <-> format_routes (Ty c v (value_base x)) = [RString].
Proof.
  split.
  - intros (s & [->| ->]); destruct c, v; reflexivity.
  - intros H. destruct x; try (destruct c, v; discriminate H); eauto.
    all: match type of H with format_routes (Ty _ _ (value_base ?x)) = _ => assert (S : exists o, supported (value_base x) o) by (eexists; constructor) end;
      destruct S as [o S]; apply (format_selects c v) in S; rewrite S in H; discriminate H.
Qed.
Lemma model_extract_routes e point T s r : extract e point T s = Ok r ->
  exists o, extract_routes (Ty false false (extract_base T)) = [[o]] /\ returned_by o r.
Proof.
  intros H. destruct T; cbn [extract] in H;
    match type of H with bind ?m _ = _ => destruct m; try discriminate H end;
    injection H as <-; eexists; (split; [apply extract_selects; constructor|exact I]).
Qed.
