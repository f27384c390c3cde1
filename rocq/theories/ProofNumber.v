(** The layout of the digits is a JSON number with the value of the digits. *)
From Coq Require Import Reals Lra Psatz.
From Flocq Require Import Core.
From Verif Require Import Machine LibMachine SpecDecimal SpecNumber ModelIeee ModelDiyfp ModelDtoa
  ProofDiyfp ProofCached ProofDigits ProofGrisu ProofLayout ProofItoa.
Open Scope Z_scope.
Ltac Zify.zify_post_hook ::= idtac.

(** The parts of the text. *)
Definition layout_number (neg : bool) (ds : list Z) (k : Z) : number :=
  let len := Z.of_nat (length ds) in
  let kk := len + k in
  if (len <=? kk) && (kk <=? 21) then Number neg (map dchr ds ++ zeros k) (Some (str "0")) None
  else if (0 <? kk) && (kk <=? 21) then
    Number neg (map dchr (firstn (Z.to_nat kk) ds)) (Some (map dchr (skipn (Z.to_nat kk) ds))) None
  else if (-6 <? kk) && (kk <=? 0) then Number neg (str "0") (Some (zeros (- kk) ++ map dchr ds)) None
  else
    let x := Some (if kk - 1 <? 0 then ["-"%char] else [], map dchr (exp_digits (Z.abs (kk - 1)))) in
    match ds with
    | [] => Number neg [] None x
    | [d] => Number neg [dchr d] None x
    | d :: r => Number neg [dchr d] (Some (map dchr r)) x
    end.

Definition good_digits (ds : list Z) : Prop :=
  Forall digit ds /\ exists d r, ds = d :: r /\ 1 <= d.

Lemma layout_spells (neg : bool) (ds : list Z) k : ds <> [] ->
  spells ((if neg then ["-"%char] else []) ++ layout ds k) (layout_number neg ds k).
Proof.
  intros N. exists "e"%char. split; [auto|]. unfold layout, layout_number.
  destruct ((_ <=? _) && _); [|destruct ((0 <? _) && _); [|destruct ((-6 <? _) && _)]];
    cbn [n_negative n_integer n_fraction n_exponent optional].
  - rewrite <- !app_assoc. reflexivity.
  - rewrite app_nil_r. reflexivity.
  - rewrite app_nil_r. reflexivity.
  - destruct ds as [|d [|d1 r]]; [contradiction| |]; reflexivity.
Qed.

Lemma digits_map ds : Forall digit ds -> Forall is_digit (map dchr ds).
Proof.
  intros H. apply Forall_map. eapply Forall_impl; [|exact H]. intros d Hd. apply is_digit_dchr. exact Hd.
Qed.

Lemma digits_zeros n : Forall is_digit (zeros n).
Proof. apply Forall_forall. intros c H. apply repeat_spec in H. subst c. unfold is_digit. cbn. lia. Qed.

Lemma Forall_firstn {A} (P : A -> Prop) n l : Forall P l -> Forall P (firstn n l).
Proof. intros H. rewrite <- (firstn_skipn n l) in H. apply Forall_app in H. apply H. Qed.
Lemma Forall_skipn {A} (P : A -> Prop) n l : Forall P l -> Forall P (skipn n l).
Proof. intros H. rewrite <- (firstn_skipn n l) in H. apply Forall_app in H. apply H. Qed.

Lemma dchr_not_zero d : 1 <= d < 10 -> dchr d <> "0"%char.
Proof. intros H E. apply (f_equal code) in E. rewrite code_dchr in E by lia. change (code "0"%char) with 48 in E. lia. Qed.

Lemma exp_digits_ok k : 0 <= k < 1000 -> Forall digit (exp_digits k) /\ exp_digits k <> [] /\ nval (exp_digits k) = k.
Proof.
  Local Ltac Zify.zify_post_hook ::= Z.div_mod_to_equations.
  intros H. unfold exp_digits, digit.
  destruct (Z.leb_spec 100 k); [|destruct (Z.leb_spec 10 k)];
    (split; [repeat constructor; lia|split; [discriminate|unfold nval; cbn [fold_left]; lia]]).
Qed.
Ltac Zify.zify_post_hook ::= idtac.

Lemma layout_json (neg : bool) ds k : good_digits ds -> -1000 < Z.of_nat (length ds) + k - 1 < 1000 ->
  json_number ((if neg then ["-"%char] else []) ++ layout ds k) (layout_number neg ds k).
Proof.
  intros [HD (d & r & -> & Hd)] Hk. split; [apply layout_spells; discriminate|].
  inversion HD as [|? ? Hd' Hr]; subst. unfold digit in Hd'.
  unfold layout_number. set (ds := d :: r) in *. set (len := Z.of_nat (length ds)) in *.
  assert (Hlen : 0 < len) by (unfold len, ds; cbn [length]; lia).
  destruct ((_ <=? _) && _) eqn:E1; [|destruct ((0 <? _) && _) eqn:E2; [|destruct ((-6 <? _) && _) eqn:E3]];
    cbn [n_negative n_integer n_fraction n_exponent optional].
  - split; [discriminate|]. split; [apply Forall_app; split; [apply digits_map; exact HD|apply digits_zeros]|].
    split; [unfold ds; cbn [map app]; intros x X; injection X as X _; exfalso;
            apply (dchr_not_zero d); [lia|exact X]|].
    split; [|discriminate]. intros f X. injection X as <-. split; [discriminate|].
    repeat constructor. unfold is_digit; cbn; lia. unfold is_digit; cbn; lia.
  - set (n := Z.to_nat (len + k)) in *. assert (Hn : (0 < n < length ds)%nat) by (unfold n, len in *; lia).
    assert (X : exists m, n = S m) by (exists (Nat.pred n); lia). destruct X as [m Em].
    split; [rewrite Em; discriminate|].
    split; [apply digits_map, Forall_firstn; exact HD|].
    split; [rewrite Em; unfold ds; cbn [firstn map]; intros x X; injection X as X _; exfalso;
            apply (dchr_not_zero d); [lia|exact X]|].
    split; [|discriminate]. intros f X. injection X as <-. split.
    + intros X. apply (f_equal (@List.length ascii)) in X. rewrite map_length, skipn_length in X.
      cbn [length] in X. lia.
    + apply digits_map, Forall_skipn; exact HD.
  - split; [discriminate|]. split; [repeat constructor; unfold is_digit; cbn; lia|].
    split; [intros x X; injection X as X; congruence|].
    split; [|discriminate]. intros f X. injection X as <-. split.
    + unfold ds. cbn [map]. destruct (zeros _); discriminate.
    + apply Forall_app; split; [apply digits_zeros|exact (digits_map _ HD)].
  - destruct (exp_digits_ok (Z.abs (len + k - 1)) ltac:(lia)) as (X1 & X2 & X3).
    assert (HX : forall sg e, Some (if len + k - 1 <? 0 then ["-"%char] else [], map dchr (exp_digits (Z.abs (len + k - 1))))
                   = Some (sg, e) ->
              (sg = [] \/ sg = ["+"%char] \/ sg = ["-"%char]) /\ e <> [] /\ Forall is_digit e).
    { clearbody len. generalize dependent (len + k - 1). intros w _ X1 X2 _ sg e X. injection X as <- <-.
      split; [destruct (w <? 0); auto|].
      split; [destruct (exp_digits _); [contradiction|discriminate]|apply digits_map; exact X1]. }
    unfold ds. destruct r as [|d1 r]; cbn [n_negative n_integer n_fraction n_exponent].
    + split; [discriminate|]. split; [repeat constructor; apply is_digit_dchr; lia|].
      split; [intros x X; injection X as _ X; congruence|]. split; [discriminate|]. exact HX.
    + split; [discriminate|]. split; [repeat constructor; apply is_digit_dchr; lia|].
      split; [intros x X; injection X as _ X; congruence|]. split; [|exact HX].
      intros f X. injection X as <-. split; [discriminate|]. apply digits_map with (ds := d1 :: r). exact Hr.
Qed.

(** ** Value *)

Lemma numeral_value_zeros l n : 0 <= n -> numeral_value (l ++ zeros n) = numeral_value l * 10 ^ n.
Proof.
  intros H. rewrite numeral_value_app. unfold zeros. rewrite repeat_length, Z2Nat.id by lia.
  assert (E : forall m, numeral_value (repeat "0"%char m) = 0).
  { induction m as [|m IH]; [reflexivity|]. cbn [repeat]. unfold numeral_value in *. cbn [fold_left]. exact IH. }
  rewrite E. lia.
Qed.

Lemma numeral_value_zeros_l l n : numeral_value (zeros n ++ l) = numeral_value l.
Proof.
  unfold zeros. induction (Z.to_nat n) as [|m IH]; [reflexivity|]. exact IH.
Qed.

Open Scope R_scope.

Lemma layout_magnitude (neg : bool) ds k : good_digits ds -> (-1000 < Z.of_nat (length ds) + k - 1 < 1000)%Z ->
  n_magnitude (layout_number neg ds k) = digits_R ds k.
Proof.
  intros [HD (d & r & Eds & Hd)] Hk.
  unfold n_magnitude, digits_R, n_scale, n_digits, n_exponent_value, layout_number.
  set (len := Z.of_nat (length ds)) in *.
  destruct ((_ <=? _)%Z && _) eqn:E1; [|destruct ((0 <? _)%Z && _) eqn:E2; [|destruct ((-6 <? _)%Z && _) eqn:E3]];
    cbn [n_negative n_integer n_fraction n_exponent optional].
  - change (str "0") with (zeros 1). rewrite !numeral_value_zeros by lia. rewrite numeral_value_dchr by exact HD.
    change (0 - Z.of_nat (length (zeros 1)))%Z with (-1)%Z. rewrite !mult_IZR, pow10_bpow by lia.
    change (IZR (10 ^ 1)) with (bpow radix10 1).
    rewrite !Rmult_assoc, <- !bpow_plus. f_equal. f_equal. lia.
  - rewrite <- map_app, firstn_skipn, numeral_value_dchr by exact HD. f_equal. f_equal.
    rewrite map_length, skipn_length. lia.
  - change (str "0" ++ zeros (- (len + k)) ++ map dchr ds)%list with (zeros 1 ++ zeros (- (len + k)) ++ map dchr ds)%list.
    rewrite !numeral_value_zeros_l, numeral_value_dchr by exact HD. f_equal. f_equal.
    rewrite app_length, map_length. unfold zeros. rewrite repeat_length. lia.
  - destruct (exp_digits_ok (Z.abs (len + k - 1)) ltac:(lia)) as (X1 & _ & X3).
    assert (HX : (if list_eq_dec ascii_dec (if (len + k - 1 <? 0)%Z then ["-"%char] else []) ["-"%char]
                  then - numeral_value (map dchr (exp_digits (Z.abs (len + k - 1))))
                  else numeral_value (map dchr (exp_digits (Z.abs (len + k - 1)))))%Z = (len + k - 1)%Z).
    { rewrite numeral_value_dchr, X3 by exact X1.
      destruct (Z.ltb_spec (len + k - 1) 0); destruct (list_eq_dec _ _ _) as [Y|Y]; try lia.
      - exfalso. apply Y. reflexivity.
      - discriminate Y. }
    subst ds. destruct r as [|d1 r]; cbn [n_negative n_integer n_fraction n_exponent optional]; rewrite HX.
    + change (map dchr [d]) with [dchr d]. cbn [length app] in *.
      change [dchr d] with (map dchr [d]). rewrite numeral_value_dchr by exact HD. f_equal. f_equal.
      unfold len. cbn [length]. lia.
    + change ([dchr d] ++ map dchr (d1 :: r))%list with (map dchr (d :: d1 :: r)).
      rewrite numeral_value_dchr by exact HD. f_equal. f_equal. rewrite map_length.
      unfold len. cbn [length]. lia.
Qed.

(** ** Magnitude and notation *)

Lemma nval_bounds ds : good_digits ds ->
  (10 ^ (Z.of_nat (length ds) - 1) <= nval ds < 10 ^ Z.of_nat (length ds))%Z.
Proof.
  intros [HD (d & r & -> & Hd)]. pose proof (digits_map _ HD) as HM.
  pose proof (numeral_value_bounds _ HM) as B. rewrite numeral_value_dchr, map_length in B by exact HD.
  split; [|lia].
  inversion HD as [|? ? Hd' Hr]; subst.
  rewrite <- numeral_value_dchr by exact HD. change (map dchr (d :: r)) with ([dchr d] ++ map dchr r)%list.
  rewrite numeral_value_app, map_length. pose proof (numeral_value_bounds _ (digits_map _ Hr)).
  change (numeral_value [dchr d]) with (digit_value (dchr d)). rewrite digit_value_dchr by exact Hd'.
  cbn [length]. replace (Z.of_nat (S (length r)) - 1)%Z with (Z.of_nat (length r)) by lia.
  assert (0 < 10 ^ Z.of_nat (length r))%Z by (apply Z.pow_pos_nonneg; lia). nia.
Qed.

Lemma digits_R_bounds ds k : good_digits ds ->
  bpow radix10 (Z.of_nat (length ds) + k - 1) <= digits_R ds k < bpow radix10 (Z.of_nat (length ds) + k).
Proof.
  intros H. pose proof (nval_bounds ds H) as [B1 B2].
  assert (L : (0 < length ds)%nat) by (destruct H as [_ (d & r & -> & _)]; cbn; lia).
  unfold digits_R. split.
  - replace (Z.of_nat (length ds) + k - 1)%Z with (Z.of_nat (length ds) - 1 + k)%Z by lia.
    rewrite bpow_plus. apply Rmult_le_compat_r; [apply bpow_ge_0|].
    rewrite <- pow10_bpow by lia. apply IZR_le. exact B1.
  - rewrite bpow_plus. apply Rmult_lt_compat_r; [apply bpow_gt_0|].
    rewrite <- pow10_bpow by lia. apply IZR_lt. exact B2.
Qed.

Lemma layout_fixed (neg : bool) ds k : good_digits ds ->
  n_exponent (layout_number neg ds k) = None <-> (-6 < Z.of_nat (length ds) + k <= 21)%Z.
Proof.
  intros [HD (d & r & -> & Hd)]. unfold layout_number.
  set (len := Z.of_nat (length (d :: r))) in *.
  assert (Hlen : (0 < len)%Z) by (unfold len; cbn [length]; lia).
  destruct ((_ <=? _)%Z && _) eqn:E1; [|destruct ((0 <? _)%Z && _) eqn:E2; [|destruct ((-6 <? _)%Z && _) eqn:E3]];
    cbn [n_exponent].
  - split; [lia|reflexivity].
  - split; [lia|reflexivity].
  - split; [lia|reflexivity].
  - destruct r; cbn [n_exponent]; (split; [discriminate|lia]).
Qed.
