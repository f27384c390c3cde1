(** A text is read as a number in one way; significant digits of the layout. *)
From Coq Require Import Reals Lra Psatz.
From Flocq Require Import Core.
From Verif Require Import Machine LibMachine SpecDecimal SpecInt SpecNumber ModelIeee ModelDiyfp ModelDtoa
  ProofDiyfp ProofCached ProofDigits ProofGrisu ProofLayout ProofItoa ProofNumber ProofApi.
Open Scope Z_scope.
Ltac Zify.zify_post_hook ::= idtac.

Lemma not_digit_dot : ~ is_digit "."%char. Proof. unfold is_digit; cbn; lia. Qed.
Lemma not_digit_e e : e = "e"%char \/ e = "E"%char -> ~ is_digit e.
Proof. intros [->| ->]; unfold is_digit; cbn; lia. Qed.
Lemma not_digit_minus : ~ is_digit "-"%char. Proof. unfold is_digit; cbn; lia. Qed.
Lemma not_digit_plus : ~ is_digit "+"%char. Proof. unfold is_digit; cbn; lia. Qed.

Lemma exponent_unique e1 e2 (o1 o2 : option (bytes * bytes)) :
  (forall sg e, o1 = Some (sg, e) ->
     (sg = [] \/ sg = ["+"%char] \/ sg = ["-"%char]) /\ e <> [] /\ Forall is_digit e) ->
  (forall sg e, o2 = Some (sg, e) ->
     (sg = [] \/ sg = ["+"%char] \/ sg = ["-"%char]) /\ e <> [] /\ Forall is_digit e) ->
  optional (fun x => e1 :: fst x ++ snd x) o1 = optional (fun x : bytes * bytes => e2 :: fst x ++ snd x) o2 ->
  o1 = o2.
Proof.
  intros H1 H2 E. destruct o1 as [[s1 x1]|], o2 as [[s2 x2]|]; cbn [optional fst snd] in E; try discriminate; [|reflexivity].
  destruct (H1 _ _ eq_refl) as (S1 & N1 & D1). destruct (H2 _ _ eq_refl) as (S2 & N2 & D2).
  injection E as _ E.
  assert (G : s1 = s2 /\ x1 = x2); [|destruct G as [-> ->]; reflexivity].
  destruct x1 as [|a1 x1]; [congruence|]. destruct x2 as [|a2 x2]; [congruence|].
  inversion D1; subst. inversion D2; subst.
  pose proof not_digit_minus. pose proof not_digit_plus.
  destruct S1 as [->|[->| ->]], S2 as [->|[->| ->]]; cbn [app] in E; injection E as; subst; try contradiction;
    try (split; reflexivity); try (split; congruence); try discriminate.
Qed.

Theorem json_number_unique s n1 n2 : json_number s n1 -> json_number s n2 -> n1 = n2.
Proof.
  intros ((e1 & E1 & S1) & I1 & D1 & _ & F1 & X1) ((e2 & E2 & S2) & I2 & D2 & _ & F2 & X2).
  rewrite S1 in S2. destruct n1 as [g1 i1 f1 x1], n2 as [g2 i2 f2 x2].
  cbn [n_negative n_integer n_fraction n_exponent] in *.
  assert (G : g1 = g2).
  { destruct i1 as [|a1 i1]; [congruence|]. destruct i2 as [|a2 i2]; [congruence|].
    inversion D1; subst. inversion D2; subst. pose proof not_digit_minus.
    destruct g1, g2; try reflexivity; cbn [app] in S2; injection S2 as; subst; contradiction. }
  subst g2.
  assert (S3 : i1 ++ optional (fun f => "."%char :: f) f1 ++ optional (fun x => e1 :: fst x ++ snd x) x1 =
               i2 ++ optional (fun f => "."%char :: f) f2 ++ optional (fun x => e2 :: fst x ++ snd x) x2).
  { destruct g1; cbn [app] in S2; [injection S2 as S2|]; exact S2. }
  assert (NX : forall e x, e = "e"%char \/ e = "E"%char ->
    ~ starts_with is_digit (optional (fun x : bytes * bytes => e :: fst x ++ snd x) x)).
  { intros e [x|] He; cbn; [apply not_digit_e; exact He|auto]. }
  assert (NF : forall e f x, e = "e"%char \/ e = "E"%char ->
    ~ starts_with is_digit (optional (fun f => "."%char :: f) f ++ optional (fun x : bytes * bytes => e :: fst x ++ snd x) x)).
  { intros e [f|] x He; cbn [optional app]; [exact not_digit_dot|apply NX; exact He]. }
  destruct (span_unique is_digit _ _ _ _ S3 D1 D2 (NF _ _ _ E1) (NF _ _ _ E2)) as [-> S4].
  assert (R : f1 = f2 /\ optional (fun x => e1 :: fst x ++ snd x) x1 = optional (fun x => e2 :: fst x ++ snd x) x2).
  { destruct f1 as [f1|], f2 as [f2|]; cbn [optional app] in S4.
    - injection S4 as S4. destruct (F1 _ eq_refl) as [_ A1]. destruct (F2 _ eq_refl) as [_ A2].
      destruct (span_unique is_digit _ _ _ _ S4 A1 A2 (NX _ _ E1) (NX _ _ E2)) as [-> S5]. auto.
    - exfalso. destruct x2 as [x2|]; cbn in S4; [|discriminate]. injection S4 as X _. subst e2.
      destruct E2; discriminate.
    - exfalso. destruct x1 as [x1|]; cbn in S4; [|discriminate]. injection S4 as X _. subst e1.
      destruct E1; discriminate.
    - auto. }
  destruct R as [-> S5]. rewrite (exponent_unique _ _ _ _ X1 X2 S5). reflexivity.
Qed.

(** ** Significant digits *)

Lemma strip_zeros_app n l : strip_zeros (repeat "0"%char n ++ l) = strip_zeros l.
Proof. induction n as [|n IH]; [reflexivity|]. cbn [repeat app]. exact IH. Qed.

Lemma strip_zeros_cons c l : c <> "0"%char -> strip_zeros (c :: l) = c :: l.
Proof.
  intros H. destruct c as [b0 b1 b2 b3 b4 b5 b6 b7].
  destruct b0, b1, b2, b3, b4, b5, b6, b7; try reflexivity. contradiction.
Qed.

Lemma strip_zeros_length l : (length (strip_zeros l) <= length l)%nat.
Proof.
  induction l as [|c l IH]; [reflexivity|].
  destruct (ascii_dec c "0"%char) as [->|N]; [|rewrite strip_zeros_cons by exact N; lia].
  change (strip_zeros ("0"%char :: l)) with (strip_zeros l). cbn [length]. lia.
Qed.

Lemma strip_zeros_keeps l c r : c <> "0"%char -> exists x, strip_zeros (l ++ c :: r) = x ++ c :: r.
Proof.
  intros H. induction l as [|a l IH].
  - exists []. apply strip_zeros_cons. exact H.
  - cbn [app]. destruct (ascii_dec a "0"%char) as [->|N].
    + exact IH.
    + exists (a :: l). apply strip_zeros_cons. exact N.
Qed.

(** Zeros around digits beginning with a non-zero one. *)
Lemma significant_around n m d r :
  1 <= d < 10 ->
  let l := repeat "0"%char n ++ map dchr (d :: r) ++ repeat "0"%char m in
  (1 <= length (significant l) <= length (d :: r))%nat /\
  (exists x, significant l = dchr d :: x) /\
  (length (d :: r) <= length (strip_zeros l))%nat.
Proof.
  intros Hd l. pose proof (dchr_not_zero d Hd) as N. unfold significant, l.
  rewrite strip_zeros_app. cbn [map app]. rewrite strip_zeros_cons by exact N.
  assert (E : rev (dchr d :: map dchr r ++ repeat "0"%char m) = repeat "0"%char m ++ rev (map dchr r) ++ [dchr d]).
  { cbn [rev]. rewrite rev_app_distr, app_assoc. f_equal. f_equal.
    clear. induction m as [|m IH]; [reflexivity|]. cbn [repeat rev]. rewrite IH, <- repeat_cons. reflexivity. }
  rewrite E, strip_zeros_app.
  destruct (strip_zeros_keeps (rev (map dchr r)) (dchr d) [] N) as [x X].
  pose proof (strip_zeros_length (rev (map dchr r) ++ [dchr d])) as L. rewrite X in L |- *.
  rewrite !app_length, rev_length, map_length in L. cbn [length] in L.
  split.
  - rewrite rev_length, app_length. cbn [length]. lia.
  - split.
    + rewrite rev_app_distr. cbn [rev app]. eexists. reflexivity.
    + cbn [length]. rewrite app_length, map_length. lia.
Qed.

Lemma layout_digits (neg : bool) ds k : good_digits ds ->
  exists a b, n_digits (layout_number neg ds k) = repeat "0"%char a ++ map dchr ds ++ repeat "0"%char b.
Proof.
  intros [HD (d & r & -> & Hd)]. unfold n_digits, layout_number.
  set (len := Z.of_nat (length (d :: r))).
  destruct ((_ <=? _) && _) eqn:E1; [|destruct ((0 <? _) && _) eqn:E2; [|destruct ((-6 <? _) && _) eqn:E3]];
    cbn [n_integer n_fraction optional].
  - exists O, (S (Z.to_nat k)). unfold zeros. change (repeat "0"%char 0) with (@nil ascii).
    cbn [app]. rewrite <- app_assoc. f_equal. exact (eq_sym (repeat_cons _ _)).
  - exists O, O. change (repeat "0"%char 0) with (@nil ascii). rewrite app_nil_r, <- map_app, firstn_skipn. reflexivity.
  - exists (S (Z.to_nat (- (len + k)))), O. cbn [repeat app]. rewrite app_nil_r. reflexivity.
  - exists O, O. change (repeat "0"%char 0) with (@nil ascii). rewrite app_nil_r. cbn [app].
    destruct r as [|x r]; cbn [n_integer n_fraction optional map app]; reflexivity.
Qed.

Lemma layout_significant (neg : bool) ds k : good_digits ds ->
  (1 <= length (significant (n_digits (layout_number neg ds k))) <= length ds)%nat /\
  (length ds <= length (strip_zeros (n_digits (layout_number neg ds k))))%nat.
Proof.
  intros G. destruct (layout_digits neg ds k G) as (a & b & ->).
  destruct G as [HD (d & r & -> & Hd)]. inversion HD as [|? ? Hd' _]; subst. unfold digit in Hd'.
  destruct (significant_around a b d r ltac:(lia)) as (A & _ & B). auto.
Qed.
