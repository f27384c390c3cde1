(** Proofs about string.cpp *)
From Verif Require Import Machine LibMachine SpecString ModelString.
Ltac Zify.zify_post_hook ::= Z.div_mod_to_equations.

Lemma char_value_ascii cs c : code c < 128 -> char_value cs c = code c.
Proof.
  intros H. pose proof (code_range c). destruct cs; [|reflexivity].
  unfold char_value, swrap. rewrite Z.mod_small by (cbn; lia). change (2 ^ (8 - 1)) with 128.
  destruct (Z.ltb_spec (code c) 128); lia.
Qed.

Lemma char_value_high cs c : 128 <= code c -> char_value cs c < 0 \/ 128 <= char_value cs c.
Proof.
  intros H. pose proof (code_range c). destruct cs; [|right; exact H].
  unfold char_value, swrap. rewrite Z.mod_small by (cbn; lia). change (2 ^ (8 - 1)) with 128.
  change (2 ^ 8) with 256. destruct (Z.ltb_spec (code c) 128); lia.
Qed.

Lemma escape_needed_iff cs c : escape_needed cs c = true <-> escaped_class c.
Proof.
  unfold escape_needed, escaped_class. pose proof (code_range c).
  destruct (Z_lt_le_dec (code c) 128) as [L|L].
  - rewrite char_value_ascii by exact L. lia.
  - pose proof (char_value_high cs c L). lia.
Qed.

Lemma escape_fold cs s dst : exists t, fold_left (escape_step cs) s dst = dst ++ t /\
  inserted escaped_class s t.
Proof.
  revert dst. induction s as [|c s IH]; intros dst; cbn [fold_left].
  - exists []. rewrite app_nil_r. split; [reflexivity|constructor].
  - unfold escape_step at 2. destruct (escape_needed cs c) eqn:E.
    + destruct (IH ((dst ++ [BACKSLASH]) ++ [c])) as (t & H & I).
      exists (BACKSLASH :: c :: t). split.
      * change "\"%char with BACKSLASH. rewrite H, <- !app_assoc. reflexivity.
      * constructor; [apply (escape_needed_iff cs); exact E|exact I].
    + destruct (IH (dst ++ [c])) as (t & H & I).
      exists (c :: t). split.
      * rewrite H, <- !app_assoc. reflexivity.
      * constructor; [rewrite <- (escape_needed_iff cs), E; discriminate|exact I].
Qed.

Lemma escape_inserted cs s : inserted escaped_class s (escape cs s).
Proof. destruct (escape_fold cs s []) as (t & E & I). unfold escape. rewrite E. exact I. Qed.

Lemma inserted_fun P s t1 t2 : inserted P s t1 -> inserted P s t2 -> t1 = t2.
Proof.
  intros H; revert t2. induction H; intros t2 H2; inversion H2; subst; try contradiction;
    f_equal; try (f_equal); auto.
Qed.

Lemma inserted_unescape s t : inserted escaped_class s t -> unescape t = Some s.
Proof.
  induction 1 as [|c s t Hc H IH|c s t Hc H IH]; [reflexivity| |].
  - cbn [unescape]. destruct (ascii_dec BACKSLASH BACKSLASH); [|congruence].
    rewrite IH. reflexivity.
  - cbn [unescape]. destruct (ascii_dec c BACKSLASH) as [E|E].
    + exfalso. apply Hc. subst. unfold escaped_class. change (code BACKSLASH) with 92. lia.
    + rewrite IH. reflexivity.
Qed.

Lemma inserted_length P s t : inserted P s t -> (length s <= length t <= 2 * length s)%nat.
Proof. induction 1; cbn [length]; lia. Qed.

(** ** jsonify *)

(** The text that one byte becomes; it does not depend on the signedness of char. *)
Definition jenc (c : ascii) : bytes :=
  match jsonify_step false [] c with Ok t => t | _ => [] end.

Ltac all_chars c :=
  let c' := fresh in
  destruct c as [b0 b1 b2 b3 b4 b5 b6 b7];
  destruct b0, b1, b2, b3, b4, b5, b6, b7.

Lemma jsonify_step_nil cs c : jsonify_step cs [] c = Ok (jenc c).
Proof. destruct cs; all_chars c; reflexivity. Qed.

Lemma jsonify_step_app cs dst c : jsonify_step cs dst c = Ok (dst ++ jenc c).
Proof.
  pose proof (jsonify_step_nil cs c) as E. unfold jsonify_step in *.
  repeat match goal with |- context [if ?b then _ else _] => destruct b end;
    try (injection E as E; rewrite <- E; reflexivity).
  destruct (hex_at _) as [h| | |]; try discriminate E.
  cbn [bind] in *.
  destruct (hex_at _) as [l| | |]; try discriminate E.
  cbn [bind] in *. injection E as E. rewrite <- E. reflexivity.
Qed.

Lemma jsonify_loop_eq cs dst s : jsonify_loop cs dst s = Ok (dst ++ flat_map jenc s).
Proof.
  revert dst; induction s as [|c s IH]; intros dst; cbn [jsonify_loop flat_map].
  - rewrite app_nil_r. reflexivity.
  - rewrite jsonify_step_app. cbn [bind]. rewrite IH, <- app_assoc. reflexivity.
Qed.

Lemma jsonify_eq cs s : jsonify cs s = Ok (flat_map jenc s).
Proof. apply jsonify_loop_eq. Qed.

Lemma quoted_jsonify_eq cs s : quoted_jsonify cs s = Ok ([QUOTE] ++ flat_map jenc s ++ [QUOTE]).
Proof. unfold quoted_jsonify. rewrite jsonify_eq. reflexivity. Qed.

Lemma json_chars_jenc c r : json_chars (jenc c ++ r) = option_map (cons c) (json_chars r).
Proof. all_chars c; reflexivity. Qed.

Lemma json_decode_flat s : json_chars (flat_map jenc s ++ [QUOTE]) = Some s.
Proof.
  induction s as [|c s IH]; [reflexivity|].
  cbn [flat_map]. rewrite <- app_assoc, json_chars_jenc, IH. reflexivity.
Qed.

Lemma quoted_decodes s : json_string_decode ([QUOTE] ++ flat_map jenc s ++ [QUOTE]) = Some s.
Proof. cbn [app json_string_decode]. change (code QUOTE =? 34) with true. cbn iota. apply json_decode_flat. Qed.

(** ** UTF-8 *)

Lemma jenc_high c : 128 <= code c -> jenc c = [c].
Proof. all_chars c; intros H; try reflexivity; exfalso; vm_compute in H; apply H; reflexivity. Qed.

Lemma jenc_low c : code c < 128 -> jenc c <> [] /\ Forall (fun d => code d < 128) (jenc c).
Proof.
  intros H. assert (forallb (fun d => code d <? 128) (jenc c) = true /\ jenc c <> []) as [B N].
  { revert H. all_chars c; intros H; first [exfalso; vm_compute in H; discriminate H|split; [reflexivity|discriminate]]. }
  split; [exact N|]. apply Forall_forall. intros x Hx.
  rewrite forallb_forall in B. specialize (B x Hx). lia.
Qed.

Lemma utf8_start_high x p lo hi : utf8_start x = Some p -> In (lo, hi) p -> 128 <= lo.
Proof.
  unfold utf8_start. intros H I.
  repeat match type of H with (if ?b then _ else _) = _ => destruct b end;
    inversion H; subst; cbn in I;
    repeat match goal with I : _ \/ _ |- _ => destruct I as [I|I] end;
    try contradiction; inversion I; lia.
Qed.

Lemma utf8_run_ascii l r : Forall (fun d => code d < 128) l -> utf8_run [] (l ++ r) = utf8_run [] r.
Proof.
  induction 1 as [|c l Hc _ IH]; [reflexivity|].
  cbn [app utf8_run]. unfold utf8_start. rewrite (proj2 (Z.ltb_lt _ _) Hc). exact IH.
Qed.

Lemma utf8_run_jenc s r p :
  Forall (fun lh => 128 <= fst lh) p -> code r < 128 ->
  utf8_run p (flat_map jenc s ++ [r]) = utf8_run p s.
Proof.
  intros Hp Hr. revert p Hp. induction s as [|c s IH]; intros p Hp.
  - cbn [flat_map app utf8_run]. destruct p as [|[lo hi] p].
    + unfold utf8_start. rewrite (proj2 (Z.ltb_lt _ _) Hr). reflexivity.
    + inversion Hp as [|? ? Hlo _]; subst. cbn [fst] in Hlo.
      rewrite (proj2 (Z.leb_gt lo (code r))) by lia. reflexivity.
  - cbn [flat_map]. rewrite <- app_assoc.
    destruct (Z_lt_le_dec (code c) 128) as [L|L].
    + destruct (jenc_low c L) as [N F].
      destruct p as [|[lo hi] p].
      * rewrite utf8_run_ascii by exact F. cbn [utf8_run]. unfold utf8_start.
        rewrite (proj2 (Z.ltb_lt _ _) L). apply IH. constructor.
      * inversion Hp as [|? ? Hlo _]; subst. cbn [fst] in Hlo.
        destruct (jenc c) as [|d l]; [congruence|]. inversion F as [|? ? Hd _]; subst.
        cbn [app utf8_run].
        rewrite (proj2 (Z.leb_gt lo (code d))), (proj2 (Z.leb_gt lo (code c))) by lia. reflexivity.
    + rewrite jenc_high by exact L. cbn [app utf8_run].
      destruct p as [|[lo hi] p].
      * destruct (utf8_start (code c)) as [p|] eqn:E; [|reflexivity].
        apply IH. apply Forall_forall. intros [lo hi] I. cbn [fst].
        eapply utf8_start_high; eassumption.
      * inversion Hp; subst. rewrite IH by assumption. reflexivity.
Qed.

Lemma quoted_utf8 s : utf8 ([QUOTE] ++ flat_map jenc s ++ [QUOTE]) <-> utf8 s.
Proof.
  unfold utf8. cbn [app utf8_run]. change (utf8_start (code QUOTE)) with (@Some (list (Z*Z)) []).
  cbn iota. rewrite utf8_run_jenc; [reflexivity|constructor|reflexivity].
Qed.
