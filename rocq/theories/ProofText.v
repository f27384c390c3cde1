(** Proofs about bool.cpp, null.cpp and char.cpp *)
From Verif Require Import Machine LibMachine SpecString ModelString ModelText ProofString.
Ltac Zify.zify_post_hook ::= Z.div_mod_to_equations.

(** The object shows the text [s] through [string()], [size()] and, when the text has no
    NUL, [c_str()]; its array keeps its declared size [n]. *)
Definition FormatText_holds (n : nat) (o : FormatText) (s : bytes) : Prop :=
  FormatText_string o = Ok s /\ FormatText_size o = Z.of_nat (length s) /\
  length (ft_buffer o) = n /\
  (Forall (fun c => c <> NUL) s -> FormatText_c_str o = Ok s) /\
  buf_read (ft_buffer o) (Z.of_nat (length s)) = Ok NUL.

Lemma holds_intro n s q z : (length s + 1 + length q)%nat = n -> z = Z.of_nat (length s) ->
  FormatText_holds n (MkFormatText (map Some s ++ Some NUL :: q) z) s.
Proof.
  intros Hn ->. unfold FormatText_holds, FormatText_string, FormatText_size, FormatText_c_str; cbn [ft_buffer ft_size].
  rewrite Nat2Z.id. repeat split.
  - apply (buf_read_n_app []).
  - rewrite app_length, map_length. cbn [length]. lia.
  - intros H. apply (buf_c_string_app _ []); [exact H|].
    rewrite app_length, map_length. cbn [length]. lia.
  - rewrite <- (map_length (@Some ascii) s) at 1. apply buf_read_app.
Qed.

Lemma strncpy_literal n s : (length s < n)%nat ->
  buf_strncpy_literal (new_buf n) 0 s = Ok (map Some s ++ Some NUL :: new_buf (n - length s - 1)).
Proof.
  intros H. unfold buf_strncpy_literal, new_buf.
  replace n with (length (s ++ [NUL]) + (n - length s - 1))%nat at 1
    by (rewrite app_length; cbn [length]; lia).
  rewrite repeat_app.
  pose proof (buf_write_list_app [] (repeat None (length (s ++ [NUL]))) (s ++ [NUL])
                (repeat None (n - length s - 1)) (repeat_length _ _)) as E.
  cbn [app List.length] in E. change (Z.of_nat 0) with 0 in E. rewrite E.
  rewrite map_app, <- app_assoc. reflexivity.
Qed.

Lemma FormatBool_holds lit b : length (lit_true lit) = 4%nat -> length (lit_false lit) = 5%nat ->
  exists o, FormatBool_new lit b = Ok o /\
            FormatText_holds 6 o (if b then lit_true lit else lit_false lit).
Proof.
  intros Ht Hf. unfold FormatBool_new. destruct b.
  - rewrite strncpy_literal by lia. cbn [bind]. eexists. split; [reflexivity|].
    apply holds_intro; [unfold new_buf; rewrite repeat_length|]; lia.
  - rewrite strncpy_literal by lia. cbn [bind]. eexists. split; [reflexivity|].
    apply holds_intro; [unfold new_buf; rewrite repeat_length|]; lia.
Qed.

Lemma FormatNull_holds lit : length (lit_null lit) = 4%nat ->
  exists o, FormatNull_new lit = Ok o /\ FormatText_holds 5 o (lit_null lit).
Proof.
  intros Hn. unfold FormatNull_new.
  rewrite strncpy_literal by lia. cbn [bind]. eexists. split; [reflexivity|].
  apply holds_intro; [unfold new_buf; rewrite repeat_length|]; lia.
Qed.

Lemma FormatChar_holds c : exists o, FormatChar_new c = Ok o /\ FormatText_holds 2 o [c].
Proof.
  eexists. split; [reflexivity|]. apply (holds_intro 2 [c] []); reflexivity.
Qed.

Lemma buf_read_n_length b i n s : buf_read_n b i n = Ok s -> length s = n.
Proof.
  revert i s. induction n as [|n IH]; intros i s H; cbn [buf_read_n] in H.
  - injection H as <-. reflexivity.
  - destruct (buf_read b i) as [c| | |]; cbn [bind] in H; try discriminate.
    destruct (buf_read_n b (i + 1) n) as [r| | |] eqn:E; cbn [bind] in H; try discriminate.
    injection H as <-. cbn [length]. f_equal. eapply IH. exact E.
Qed.

(** The size is fixed at 4/5/4 whatever the literals are. *)
Lemma FormatBool_size_fixed lit b o s : FormatBool_new lit b = Ok o -> FormatText_string o = Ok s ->
  length s = if b then 4%nat else 5%nat.
Proof.
  unfold FormatBool_new, FormatText_string, FormatText_size. intros E R.
  destruct b; destruct (buf_strncpy_literal _ _ _) as [m| | |]; cbn [bind] in E; try discriminate;
    injection E as <-; cbn [ft_size ft_buffer] in R; apply buf_read_n_length in R; exact R.
Qed.

Lemma FormatNull_size_fixed lit o s : FormatNull_new lit = Ok o -> FormatText_string o = Ok s ->
  length s = 4%nat.
Proof.
  unfold FormatNull_new, FormatText_string, FormatText_size. intros E R.
  destruct (buf_strncpy_literal _ _ _) as [m| | |]; cbn [bind] in E; try discriminate;
    injection E as <-; cbn [ft_size ft_buffer] in R; apply buf_read_n_length in R; exact R.
Qed.

Lemma string_eqb_iff a b : string_eqb a b = true <-> a = b.
Proof. unfold string_eqb. destruct (list_eq_dec ascii_dec a b); split; congruence. Qed.
