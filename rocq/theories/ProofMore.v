(** The exact layout of the texts: floating point numbers and JSON strings. *)
From Coq Require Import Reals Lra Psatz.
From Flocq Require Import Core.
From Verif Require Import Machine LibMachine SpecApi SpecDecimal SpecNumber SpecIeee SpecString SpecLayout SpecJson
  ModelItoa ModelInt ModelText ModelString ModelIeee ModelDiyfp ModelDtoa ModelFloat ModelLexi
  ProofDiyfp ProofDigits ProofGrisu ProofLayout ProofNumber ProofShort ProofUnique ProofItoa ProofString ProofApi ProofIeee ProofDtoa
  ProofFloat ProofFloat2 ProofFloat3 ProofFloat4.
Open Scope Z_scope.
Ltac Zify.zify_post_hook ::= idtac.

(** ** Layout *)

Lemma zeros_all n : all_zeros (zeros n).
Proof. unfold zeros, all_zeros. induction (Z.to_nat n); constructor; auto. Qed.
Lemma zeros_length n : 0 <= n -> Z.of_nat (length (zeros n)) = n.
Proof. intros. unfold zeros. rewrite repeat_length. lia. Qed.

Lemma exp_text_canonical k : -1000 < k < 1000 -> canonical_integer (exp_text k) k.
Proof.
  intros H. unfold exp_text. destruct (Z.ltb_spec k 0) as [L|L].
  - right. split; [exact L|]. eexists. split; [reflexivity|]. rewrite Z.abs_neq by lia. apply exp_digits_canonical. lia.
  - left. split; [exact L|]. rewrite Z.abs_eq by lia. apply exp_digits_canonical. lia.
Qed.

Lemma layout_written ds k : good_digits ds -> -1000 < Z.of_nat (length ds) + k - 1 < 1000 ->
  written (map dchr ds) (Z.of_nat (length ds) + k) (layout ds k).
Proof.
  intros [HD (d & r & E & Hd)] Hk. unfold layout. set (len := Z.of_nat (length ds)) in *.
  assert (L1 : 1 <= len) by (unfold len; rewrite E; cbn [length]; lia).
  destruct (Z.leb_spec len (len + k)), (Z.leb_spec (len + k) 21); cbn [andb];
    try (destruct (Z.ltb_spec 0 (len + k)); cbn [andb]);
    try (destruct (Z.ltb_spec (-6) (len + k)); cbn [andb]);
    try (destruct (Z.leb_spec (len + k) 0); cbn [andb]); try lia.
  all: try (apply w_integer; [rewrite map_length; fold len; lia|apply zeros_all|
    rewrite app_length, map_length, Nat2Z.inj_add, zeros_length by lia; fold len; lia]).
  all: try (apply w_small; [lia|apply zeros_all|rewrite zeros_length; lia]).
  all: try (rewrite E; destruct r as [|d1 r];
    [apply w_one; [lia|reflexivity|apply exp_text_canonical; lia]
    |apply w_more; [lia|reflexivity|discriminate|apply exp_text_canonical; lia]]).
  all: apply w_fraction; [lia|rewrite <- map_app, firstn_skipn; reflexivity| | |rewrite map_length, firstn_length; lia].
  all: intros X; apply map_eq_nil in X; apply (f_equal (@length Z)) in X; rewrite ?firstn_length, ?skipn_length in X; cbn [length] in X; lia.
Qed.

(** C27, C29 *)
Lemma float_written e u s : bits64 u -> double_finite u -> double_value u <> 0%R -> lexi e (VDouble u) = Ok s ->
  exists D n t, Forall is_digit D /\ (1 <= length D <= 17)%nat /\ (forall r, D <> "0"%char :: r) /\
    s = (if double_sign u then ["-"%char] else []) ++ t /\ written D n t /\
    let x := Rabs (double_value u) in let y := (IZR (numeral_value D) * bpow radix10 (n - Z.of_nat (length D)))%R in
    let margin := (ulp radix2 (binary_format 53 1024) x / 500)%R in
    (lower_end x < y < upper_end x)%R /\
    forall D' K, 0 < D' < 10 ^ (Z.of_nat (length D) - 1) ->
      ~ (lower_end x + margin <= IZR D' * bpow radix10 K <= upper_end x - margin)%R.
Proof.
  intros H F N L.
  destruct (finite_number e u s H F N L) as (ds & K & F0 & E & k & kap & FP & G & GD & GE & Es & J & M & V & B & DV).
  pose proof (dbl_R_pos _ FP) as PV. pose proof GD as [HD (d & r & Eds & Hd)].
  assert (Ex : Rabs (double_value u) = dbl_R (u mod 2 ^ 63)).
  { rewrite DV. destruct (sign_field u); cbn [neg_if]; [rewrite Rabs_Ropp|]; apply Rabs_pos_eq; lra. }
  pose proof (go_length _ _ _ _ _ _ _ G) as GL.
  assert (Dd : 1 <= d < 10) by (rewrite Eds in HD; inversion_clear HD; unfold digit in *; lia).
  exists (map dchr ds), (Z.of_nat (length ds) + K), (layout ds K).
  rewrite map_length. cbn zeta. rewrite Ex, lower_end_eq by exact FP.
  unfold upper_end. fold fexp64. rewrite <- upper_is_mid, dbl_ulp by exact FP.
  split; [apply digits_map; exact HD|]. split; [rewrite Eds in *; cbn [length] in *; lia|].
  split; [intros q X; rewrite Eds in X; cbn [map] in X; injection X as X _; exact (dchr_not_zero d Dd X)|].
  split; [rewrite Es; f_equal; unfold sign_text; rewrite double_sign_eq by exact H; reflexivity|].
  split; [apply layout_written; assumption|].
  replace (Z.of_nat (length ds) + K - Z.of_nat (length ds)) with K by lia.
  rewrite numeral_value_dchr by exact HD. split; [exact B|].
  intros D' K' HD' B'. apply (fewest_digits (u mod 2 ^ 63) ds K F0 E k kap D' K' FP G).
  - exact HD'.
  - apply (interval_covers _ ds K F0 E k kap _ FP G B').
Qed.

(** ** JSON strings, C14 *)

Lemma jenc_char c : json_char c (jenc c).
Proof.
  all_chars c; vm_compute jenc;
    first [ apply jc_other; [reflexivity|discriminate|discriminate]
          | solve [constructor]
          | apply jc_control; [discriminate|cbn; intuition discriminate|reflexivity|reflexivity|cbn; lia] ].
Qed.

Lemma hex_value_cases a v : hex_value a = Some v ->
  (48 <= code a <= 57 /\ v = code a - 48) \/ (65 <= code a <= 70 /\ v = code a - 55) \/ (97 <= code a <= 102 /\ v = code a - 87).
Proof.
  unfold hex_value. cbv zeta. destruct (_ && _) eqn:A; [|destruct (_ && _) eqn:B in |- *; [|destruct (_ && _) eqn:C in |- *]];
    intros X; inversion X; lia.
Qed.

Lemma json_char_fun c t1 t2 : json_char c t1 -> json_char c t2 -> t1 = t2.
Proof.
  assert (HV : forall a b v, hex_value a = Some v -> hex_value b = Some v ->
    v < 10 \/ ((code a <= 57 \/ 97 <= code a) /\ (code b <= 57 \/ 97 <= code b)) -> a = b).
  { intros a b v A B C. apply code_inj. apply hex_value_cases in A, B. lia. }
  intros A B. destruct A; inversion B; subst; try reflexivity;
    try (cbn in *; tauto); try (exfalso; cbn in *; lia); try congruence.
  repeat f_equal; eapply HV; eauto.
  left. assert (code c / 16 < 2) by (apply Z.div_lt_upper_bound; lia). lia.
Qed.

Lemma jsonify_exact e s : exists ts, jsonify_of e (VString s) = Ok (QUOTE :: List.concat ts ++ [QUOTE]) /\ Forall2 json_char s ts.
Proof.
  exists (map jenc s). split.
  - unfold jsonify_of. rewrite quoted_jsonify_eq, flat_map_concat_map. reflexivity.
  - induction s; constructor; [apply jenc_char|assumption].
Qed.

Lemma jsonify_char_exact e c : exists t, jsonify_of e (VChar c) = Ok (QUOTE :: t ++ [QUOTE]) /\ json_char c t.
Proof.
  exists (jenc c). split; [|apply jenc_char]. destruct (char_views e c) as (f & _ & _ & _ & ->).
  unfold jsonify_of. rewrite quoted_jsonify_eq. cbn [flat_map]. rewrite app_nil_r. reflexivity.
Qed.
