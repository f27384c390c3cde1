(** Proofs about escaped strings in shells and regular expressions. *)
From Coq Require Import Lia.
From Verif Require Import Machine LibMachine SpecString SpecShell ModelString ModelItoa ModelInt ModelText ModelLexi ProofString ProofPieces.
Open Scope Z_scope.

Definition joined (w : option bytes) (t : bytes) : option bytes :=
  match t with [] => w | _ => Some (match w with Some w => w | None => [] end ++ t) end.

Lemma words_eenc w c r : shell_words w (eenc c ++ r) =
  if ascii_dec c LF then shell_words w r else if ascii_dec c NUL then None else shell_words (joined w [c]) r.
Proof. all_chars c; reflexivity. Qed.

Lemma joined_cons w c t : joined (joined w [c]) t = joined w (c :: t).
Proof. destruct t; [reflexivity|]. cbn [joined]. destruct w; cbn [app]; rewrite <- ?app_assoc; reflexivity. Qed.

Lemma words_text s t : without_lines s t -> ~ In NUL s -> forall w r,
  shell_words w (flat_map eenc s ++ r) = shell_words (joined w t) r.
Proof.
  induction 1 as [|s t H IH|c s t C H IH]; intros N w r; [reflexivity| |]; cbn [flat_map]; rewrite <- app_assoc, words_eenc.
  - destruct (ascii_dec LF LF) as [_|X]; [|congruence]. apply IH. intros I. apply N. right. exact I.
  - destruct (ascii_dec c LF) as [X|_]; [congruence|]. destruct (ascii_dec c NUL) as [X|_]; [destruct N; left; congruence|].
    rewrite IH by (intros I; apply N; right; exact I). rewrite joined_cons. reflexivity.
Qed.

Lemma words_nul s : In NUL s -> forall w r, shell_words w (flat_map eenc s ++ r) = None.
Proof.
  induction s as [|c s IH]; intros I w r; [destruct I|]. cbn [flat_map]. rewrite <- app_assoc, words_eenc.
  destruct (ascii_dec c LF) as [->|C].
  - destruct I as [I|I]; [discriminate I|]. apply IH. exact I.
  - destruct (ascii_dec c NUL) as [X|X]; [reflexivity|]. destruct I as [I|I]; [congruence|]. apply IH. exact I.
Qed.

Lemma without_total s : exists t, without_lines s t.
Proof.
  induction s as [|c s [t IH]]; [exists []; constructor|].
  destruct (ascii_dec c LF) as [->|C]; [exists t|exists (c :: t)]; constructor; assumption.
Qed.

Lemma words_space w r : shell_words w (chr 32 :: r) = match w with Some w => option_map (cons w) (shell_words None r) | None => shell_words None r end.
Proof. reflexivity. Qed.

Lemma arguments_nul l : Exists (In NUL) l -> shell_arguments (with_spaces (map (flat_map eenc) l)) = None.
Proof.
  unfold shell_arguments. induction l as [|s l IH]; intros H; [inversion H|].
  destruct l as [|s2 l].
  - cbn [map with_spaces]. inversion H as [? ? I|? ? I]; subst; [|inversion I].
    rewrite <- (app_nil_r (flat_map eenc s)). apply words_nul. exact I.
  - change (with_spaces (map (flat_map eenc) (s :: s2 :: l))) with (flat_map eenc s ++ [chr 32] ++ with_spaces (map (flat_map eenc) (s2 :: l))).
    destruct (in_dec ascii_dec NUL s) as [I|I]; [apply words_nul; exact I|].
    destruct (without_total s) as [t T]. rewrite (words_text s t T I).
    inversion H as [? ? J|? ? J]; subst; [contradiction|].
    cbn [app]. rewrite words_space, (IH J). destruct (joined None t); reflexivity.
Qed.

Lemma arguments_eq l m : arguments_of l m -> Forall (fun s => ~ In NUL s) l -> shell_arguments (with_spaces (map (flat_map eenc) l)) = Some m.
Proof.
  unfold shell_arguments.
  assert (G : forall s t r, without_lines s t -> ~ In NUL s -> shell_words None (flat_map eenc s ++ [chr 32] ++ r) =
    match t with [] => shell_words None r | _ => option_map (cons t) (shell_words None r) end).
  { intros s t r T N. rewrite (words_text s t T N). cbn [app]. rewrite words_space. destruct t; reflexivity. }
  assert (L : forall s t, without_lines s t -> ~ In NUL s -> shell_words None (flat_map eenc s) = Some match t with [] => [] | _ => [t] end).
  { intros s t T N. rewrite <- (app_nil_r (flat_map eenc s)), (words_text s t T N). destruct t; reflexivity. }
  induction 1 as [|s l m T A IH|s t l m T NE A IH]; intros N; [reflexivity| |]; inversion N as [|? ? N1 N2]; subst; specialize (IH N2).
  - destruct l as [|s2 l].
    + inversion A; subst. cbn [map with_spaces]. rewrite (L s [] T N1). reflexivity.
    + change (with_spaces (map (flat_map eenc) (s :: s2 :: l))) with (flat_map eenc s ++ [chr 32] ++ with_spaces (map (flat_map eenc) (s2 :: l))).
      rewrite (G s [] _ T N1). exact IH.
  - destruct t as [|c t]; [congruence|]. destruct l as [|s2 l].
    + inversion A; subst. cbn [map with_spaces]. rewrite (L s _ T N1). reflexivity.
    + change (with_spaces (map (flat_map eenc) (s :: s2 :: l))) with (flat_map eenc s ++ [chr 32] ++ with_spaces (map (flat_map eenc) (s2 :: l))).
      rewrite (G s _ _ T N1), IH. reflexivity.
Qed.

Lemma escaped_all e l ts : Forall2 (fun s t => escape_of e (VString s) = Ok t) l ts -> ts = map (flat_map eenc) l.
Proof.
  induction 1 as [|s t l ts E H IH]; [reflexivity|]. cbn [map]. rewrite IH. cbn [escape_of] in E. injection E as <-.
  rewrite escape_eenc. reflexivity.
Qed.

Theorem shell_reads : forall e l ts m, Forall2 (fun s t => escape_of e (VString s) = Ok t) l ts ->
  Forall (fun s => ~ In NUL s) l -> arguments_of l m -> shell_arguments (with_spaces ts) = Some m.
Proof. intros e l ts m E N A. rewrite (escaped_all e l ts E). apply arguments_eq; assumption. Qed.

Theorem shell_nul : forall e l ts, Forall2 (fun s t => escape_of e (VString s) = Ok t) l ts ->
  Exists (In NUL) l -> shell_arguments (with_spaces ts) = None.
Proof. intros e l ts E N. rewrite (escaped_all e l ts E). apply arguments_nul. exact N. Qed.

Theorem arguments_total : forall l, exists m, arguments_of l m.
Proof.
  induction l as [|s l [m IH]]; [exists []; constructor|].
  destruct (without_total s) as [[|c t] T]; [exists m|exists ((c :: t) :: m)]; constructor; auto; discriminate.
Qed.

Lemma without_same s : ~ In LF s -> without_lines s s.
Proof.
  induction s as [|c s IH]; intros N; constructor; [intros ->; apply N; left; reflexivity|].
  apply IH. intros I. apply N. right. exact I.
Qed.
Lemma without_length s t : without_lines s t -> (length t <= length s)%nat /\ (length t = length s -> ~ In LF s).
Proof.
  induction 1 as [|s t H [L E]|c s t C H [L E]]; cbn [length].
  - split; [lia|auto].
  - split; [lia|]. intros X. lia.
  - split; [lia|]. intros X [I|I]; [congruence|]. revert I. apply E. lia.
Qed.
Lemma arguments_length l m : arguments_of l m -> (length m <= length l)%nat /\
  (length m = length l -> Forall2 (fun s t => without_lines s t /\ t <> []) l m).
Proof.
  induction 1 as [|s l m T H [L E]|s t l m T NE H [L E]]; cbn [length].
  - split; [lia|constructor].
  - split; [lia|]. intros X. lia.
  - split; [lia|]. intros X. constructor; [auto|]. apply E. lia.
Qed.

Theorem shell_exactly : forall e l ts, Forall2 (fun s t => escape_of e (VString s) = Ok t) l ts ->
  (shell_arguments (with_spaces ts) = Some l <-> Forall (fun s => s <> [] /\ ~ In LF s /\ ~ In NUL s) l).
Proof.
  intros e l ts E. split.
  - intros R. destruct (Exists_dec (In NUL) l (in_dec ascii_dec NUL)) as [X|X].
    { rewrite (shell_nul e l ts E X) in R. discriminate R. }
    assert (N : Forall (fun s => ~ In NUL s) l) by (apply Forall_Exists_neg; exact X).
    destruct (arguments_total l) as [m A]. rewrite (shell_reads e l ts m E N A) in R. injection R as ->.
    apply arguments_length in A as [_ A]. specialize (A eq_refl). apply Forall_forall. intros s I.
    rewrite Forall_forall in N. assert (W : without_lines s s /\ s <> []).
    { assert (G : forall a b, Forall2 (fun s t => without_lines s t /\ t <> []) a b -> a = b -> forall s, In s b -> without_lines s s /\ s <> []).
      { induction 1 as [|x y a b H F IH]; intros Q z Z; [destruct Z|]. injection Q as -> Q. destruct Z as [<-|Z]; auto. }
      exact (G l l A eq_refl s I). }
    destruct W as [W NE]. apply without_length in W as [_ W]. auto.
  - intros F. apply (shell_reads e l ts l E); [eapply Forall_impl; [|exact F]; cbn; tauto|].
    clear E. induction F as [|s l (NE & NL & _) F IH]; [constructor|]. apply arguments_word; auto. apply without_same. exact NL.
Qed.

(** ** Regular expressions *)
Lemma regex_eenc c r : regex_literal (eenc c ++ r) = option_map (cons c) (regex_literal r).
Proof. all_chars c; reflexivity. Qed.
Theorem regex_reads : forall e s t, escape_of e (VString s) = Ok t -> regex_literal t = Some s.
Proof.
  intros e s t [= <-]. rewrite escape_eenc. induction s as [|c s IH]; [reflexivity|].
  cbn [flat_map]. rewrite regex_eenc, IH. reflexivity.
Qed.
