(** BigInteger: powers of five, decimal text, comparison, difference, copies. *)
From Verif Require Import Machine LibMachine SpecDecimal SpecInt SpecBig ModelDiyfp ModelBigint ProofBig ProofBig2.
Ltac Zify.zify_post_hook ::= idtac.

(** ** Powers of five *)

Lemma pow5_loop_ok mult step : 1 <= step ->
  (forall b n, holds b n -> exact_or_throw (mult b) (n * 5 ^ step)) ->
  forall fuel x e n, holds x n -> 0 <= e <= Z.of_nat fuel ->
  (exists w, pow5_loop mult step fuel x e = Throw w /\ LIMIT <= n * 5 ^ e) \/
  (exists x' e' n', pow5_loop mult step fuel x e = Ok (x', e') /\ holds x' n' /\ n' * 5 ^ e' = n * 5 ^ e /\ 0 <= e' < step /\ e' <= e).
Proof.
  intros HS HM. induction fuel as [|fuel IH]; intros x e n H He.
  - right. exists x, e, n. cbn [pow5_loop]. destruct (Z.leb_spec step e); [lia|]. split; [reflexivity|]. split; [exact H|]. split; [reflexivity|]. lia.
  - cbn [pow5_loop]. destruct (Z.leb_spec step e) as [L|L].
    + assert (E : n * 5 ^ e = n * 5 ^ step * 5 ^ (e - step)) by (rewrite <- Z.mul_assoc, <- Z.pow_add_r by lia; do 2 f_equal; lia).
      pose proof (holds_bounds x n H) as NB. pose proof (Z.pow_pos_nonneg 5 (e - step) ltac:(lia) ltac:(lia)) as P.
      destruct (HM x n H) as [(_ & b & Eb & Hb)|(Big1 & w & Ew)].
      * rewrite Eb. cbn [bind]. rewrite E. destruct (IH b (e - step) (n * 5 ^ step) Hb ltac:(lia)) as [(w & Ew & L')|(x' & e' & n' & E' & Hn & En & Be & Le)].
        -- left. eauto.
        -- right. exists x', e', n'. split; [exact E'|]. split; [exact Hn|]. split; [exact En|]. lia.
      * left. exists w. rewrite Ew. split; [reflexivity|]. rewrite E.
        pose proof (Z.pow_pos_nonneg 5 step ltac:(lia) ltac:(lia)).
        assert (n * 5 ^ step * 1 <= n * 5 ^ step * 5 ^ (e - step)) by (apply Z.mul_le_mono_nonneg_l; nia). lia.
    + right. exists x, e, n. split; [reflexivity|]. split; [exact H|]. split; [reflexivity|]. lia.
Qed.

Lemma POWER5_nth e : 0 < e < 13 ->
  in_range (e - 1) (Z.of_nat (length POWER5)) = true /\ nth (Z.to_nat (e - 1)) POWER5 0 = 5 ^ e /\ 0 <= 5 ^ e < H32.
Proof.
  intros H. assert (e = 1 \/ e = 2 \/ e = 3 \/ e = 4 \/ e = 5 \/ e = 6 \/ e = 7 \/ e = 8 \/ e = 9 \/ e = 10 \/ e = 11 \/ e = 12) as C by lia.
  repeat (destruct C as [-> | C]; [repeat split; discriminate|]). subst. repeat split; discriminate.
Qed.

Lemma mulPow5_ok cc b n e : holds b n -> 0 <= e -> exact_or_throw (mulPow5 cc b e) (n * 5 ^ e).
Proof.
  intros H He. unfold mulPow5. destruct (Z.eqb_spec e 0) as [->|N].
  { apply (exact_holds _ b); [reflexivity|]. rewrite Z.pow_0_r, Z.mul_1_r. exact H. }
  destruct (pow5_loop_ok (fun x => mul_word cc x 0x6765C793FA10079D) 27 ltac:(lia)) with (fuel := Z.to_nat e) (x := b) (e := e) (n := n)
    as [(w & Ew & L)|(x1 & e1 & n1 & E1 & H1 & V1 & B1 & L1)]; [|exact H|lia| |].
  { intros b' n' H'. apply (mul_word_ok cc b' n' (5 ^ 27) H'). split; [discriminate|reflexivity]. }
  { right. split; [exact L|]. rewrite Ew. eexists. reflexivity. }
  rewrite E1. cbn [bind]. rewrite <- V1.
  destruct (pow5_loop_ok (fun x => mul_word32 x 1220703125) 13 ltac:(lia)) with (fuel := Z.to_nat e) (x := x1) (e := e1) (n := n1)
    as [(w & Ew & L)|(x2 & e2 & n2 & E2 & H2 & V2 & B2 & L2)]; [|exact H1|lia| |].
  { intros b' n' H'. apply (mul_word32_ok b' n' (5 ^ 13) H'). split; [discriminate|reflexivity]. }
  { right. split; [exact L|]. rewrite Ew. eexists. reflexivity. }
  rewrite E2. cbn [bind]. rewrite <- V2. destruct (Z.ltb_spec 0 e2) as [P|P].
  - destruct (POWER5_nth e2 ltac:(lia)) as (I & -> & B). rewrite I. apply mul_word32_ok; assumption.
  - assert (e2 = 0) by lia. subst e2. rewrite Z.pow_0_r, Z.mul_1_r. apply (exact_holds _ x2); [reflexivity|exact H2].
Qed.

(** ** Decimal text *)

Lemma parse_ok p : forall r, Forall is_digit p -> 0 <= r -> r * 10 ^ Z.of_nat (length p) + numeral_value p < W ->
  parse r p = Ok (r * 10 ^ Z.of_nat (length p) + numeral_value p).
Proof.
  induction p as [|c p IH]; intros r F Hr B; cbn [parse length].
  - f_equal. change (numeral_value []) with 0. change (10 ^ Z.of_nat 0) with 1. lia.
  - inversion F as [|? ? Hc Fp]; subst. unfold is_digit in Hc.
    destruct (Z.leb_spec 48 (code c)); [|lia]. destruct (Z.leb_spec (code c) 57); [|lia]. cbn [andb].
    assert (E : r * 10 ^ Z.of_nat (S (length p)) + numeral_value (c :: p) = (r * 10 + (code c - 48)) * 10 ^ Z.of_nat (length p) + numeral_value p).
    { change (c :: p) with ([c] ++ p). rewrite numeral_value_app. change (numeral_value [c]) with (10 * 0 + digit_value c). unfold digit_value.
      rewrite Nat2Z.inj_succ, Z.pow_succ_r by lia. ring. }
    cbn [length] in B. rewrite E in *.
    pose proof (numeral_value_bounds p Fp) as NB. pose proof (Z.pow_pos_nonneg 10 (Z.of_nat (length p)) ltac:(lia) ltac:(lia)) as P.
    assert (S : r * 10 + (code c - 48) < W) by nia.
    rewrite (u64_W (r * 10)), (Z.mod_small (r * 10)) by lia. rewrite u64_W, Z.mod_small by lia.
    apply IH; [exact Fp|lia|exact B].
Qed.

Lemma parse_bad a c t : Forall is_digit a -> ~ is_digit c -> forall r, exists w, parse r (a ++ c :: t) = Throw w.
Proof.
  intros F N. induction F as [|x a Hx F IH]; intros r; cbn [app parse].
  - unfold is_digit in N. destruct (Z.leb_spec 48 (code c)); destruct (Z.leb_spec (code c) 57); cbn [andb]; try (exfalso; apply N; lia); eauto.
  - unfold is_digit in Hx. destruct (Z.leb_spec 48 (code x)); [|lia]. destruct (Z.leb_spec (code x) 57); [|lia]. cbn [andb]. apply IH.
Qed.

Lemma exact_below (o : outcome BigInteger) n : exact_or_throw o n -> n < LIMIT -> exists b, o = Ok b /\ holds b n.
Proof. intros [(_ & X)|(L & _)] B; [exact X|lia]. Qed.

Lemma LIMIT_415 : LIMIT = W * Wp 415.
Proof. rewrite LIMIT_Wp. rewrite <- Wp_S. f_equal. Qed.

Lemma below_415 b n : holds b n -> n < Wp 415 -> count_ b < capacity.
Proof.
  intros H B. destruct (count_bounds b n H) as (m & C & L & U & NZ & P). destruct capacity_nat as [C1 C2].
  destruct (Z.eq_dec n 0) as [->|N].
  - apply holds_rep in H. destruct H as (ws & (rest & _ & _ & Cw & Nw & Fw) & NM & V).
    destruct (normal_lower ws Fw Nw NM) as [[_ X]|X]; [rewrite X in Cw; cbn [length] in Cw; lia|]. pose proof (Wp_pos (Nat.pred (length ws))). lia.
  - specialize (NZ N). rewrite C. destruct (Nat.lt_ge_cases m 415) as [X|X]; [lia|]. pose proof (Wp_le 415 m X). lia.
Qed.

Lemma digits_word p : Forall is_digit p -> (length p <= 19)%nat -> 0 <= numeral_value p < W.
Proof.
  intros F L. pose proof (numeral_value_bounds p F) as B. split; [lia|].
  assert (10 ^ Z.of_nat (length p) <= 10 ^ 19) by (apply Z.pow_le_mono_r; lia). assert (10 ^ 19 < W) by reflexivity. lia.
Qed.

Lemma parse_digits p : Forall is_digit p -> (length p <= 19)%nat -> parse 0 p = Ok (numeral_value p).
Proof.
  intros F L. rewrite parse_ok; [f_equal; lia|exact F|lia|]. pose proof (digits_word p F L). lia.
Qed.

(** Appending a group of digits. *)
Lemma add_ok cc b v p : holds b v -> Forall is_digit p -> (1 <= length p <= 19)%nat ->
  v * 5 ^ Z.of_nat (length p) < Wp 415 ->
  exists b', add cc b p = Ok b' /\ holds b' (v * 10 ^ Z.of_nat (length p) + numeral_value p).
Proof.
  intros H F L B. pose proof (digits_word p F ltac:(lia)) as NW. pose proof (holds_bounds b v H) as VB.
  unfold add. rewrite parse_digits by (assumption || lia). cbn [bind]. rewrite (big_isZero_ok b v H). cbn [bind].
  destruct (Z.eqb_spec v 0) as [->|NZ].
  { rewrite Z.mul_0_l, Z.add_0_l. apply holds_rep in H. destruct H as (ws & R & _). exact (assign_word_ok b ws _ R NW). }
  set (e := Z.of_nat (length p)) in *. assert (E10 : 10 ^ e = 5 ^ e * 2 ^ e) by (rewrite <- Z.pow_mul_l; reflexivity).
  pose proof (Z.pow_pos_nonneg 5 e ltac:(lia) ltac:(lia)) as P5. pose proof (Z.pow_pos_nonneg 2 e ltac:(lia) ltac:(lia)) as P2.
  assert (L2 : v * 5 ^ e * 1 <= v * 5 ^ e * 2 ^ e) by (apply Z.mul_le_mono_nonneg_l; nia).
  assert (L3 : v * 10 ^ e = v * 5 ^ e * 2 ^ e) by (rewrite E10; ring).
  assert (WP : Wp 415 < LIMIT) by (rewrite LIMIT_415; pose proof (Wp_pos 415); assert (1 < W) by reflexivity; nia).
  assert (TOP : v * 10 ^ e + numeral_value p < LIMIT).
  { rewrite L3, LIMIT_415. assert (2 ^ e <= 2 ^ 19) by (apply Z.pow_le_mono_r; lia).
    assert (v * 5 ^ e * 2 ^ e <= Wp 415 * 2 ^ 19) by (apply Z.mul_le_mono_nonneg; nia).
    assert (W <= Wp 415) by (pose proof (Wp_le 1 415 ltac:(lia)) as Q; rewrite Wp_S, Wp_0 in Q; lia).
    pose proof (Wp_pos 415). assert (2 ^ 19 + 1 < W) by reflexivity.
    assert ((2 ^ 19 + 1) * Wp 415 < W * Wp 415) by (apply Z.mul_lt_mono_pos_r; lia). lia. }
  destruct (exact_below _ _ (mulPow5_ok cc b v e H ltac:(lia)) ltac:(lia)) as (b1 & E1 & H1). rewrite E1. cbn [bind].
  assert (E64 : e / 64 = 0) by (apply Z.div_small; lia). assert (M64 : e mod 64 = e) by (apply Z.mod_small; lia).
  destruct (shift_inter b1 (v * 5 ^ e) e H1) as (b2 & E2 & H2); [nia|lia|lia|rewrite E64, Z.add_0_r; apply (below_415 _ _ H1); lia|].
  rewrite E2. cbn [bind]. rewrite <- L3 in H2. apply exact_below; [apply add_word_ok; [exact H2|exact NW]|exact TOP].
Qed.

Lemma five_ten v k n : 0 <= v -> 0 <= k -> v * 10 ^ k < n -> v * 5 ^ k < n.
Proof.
  intros V K H. assert (5 ^ k <= 10 ^ k) by (apply Z.pow_le_mono_l; lia). nia.
Qed.

Lemma decimals_ok cc : forall fuel b v s, holds b v -> Forall is_digit s -> (length s <= fuel)%nat ->
  v * 10 ^ Z.of_nat (length s) + numeral_value s < Wp 415 ->
  exists b', decimals_loop cc fuel b s = Ok b' /\ holds b' (v * 10 ^ Z.of_nat (length s) + numeral_value s).
Proof.
  induction fuel as [|fuel IH]; intros b v s H F L B.
  - destruct s as [|c s]; [|cbn in L; lia]. exists b. split; [reflexivity|]. change (numeral_value []) with 0. cbn [length]. change (10 ^ Z.of_nat 0) with 1.
    replace (v * 1 + 0) with v by lia. exact H.
  - cbn [decimals_loop]. unfold DIGITS_ITERATION. destruct (Z.leb_spec 19 (Z.of_nat (length s))) as [G|G].
    + change (Z.to_nat 19) with 19%nat. set (p := firstn 19 s) in *. set (t := skipn 19 s) in *. assert (ES : s = p ++ t) by (symmetry; apply firstn_skipn).
      assert (Lp : length p = 19%nat) by (unfold p; rewrite firstn_length; lia).
      assert (Lt : length s = (19 + length t)%nat) by (rewrite ES, app_length; lia).
      rewrite ES in F. apply Forall_app in F. destruct F as [Fp Ft].
      assert (EV : v * 10 ^ Z.of_nat (length s) + numeral_value s = (v * 10 ^ Z.of_nat (length p) + numeral_value p) * 10 ^ Z.of_nat (length t) + numeral_value t).
      { rewrite ES, numeral_value_app, app_length, Nat2Z.inj_add, Z.pow_add_r by lia. ring. }
      rewrite EV in *. pose proof (numeral_value_bounds t Ft) as Bt. pose proof (numeral_value_bounds p Fp) as Bp. pose proof (holds_bounds b v H) as Bv.
      pose proof (Z.pow_pos_nonneg 10 (Z.of_nat (length t)) ltac:(lia) ltac:(lia)) as Pt. pose proof (Z.pow_pos_nonneg 10 (Z.of_nat (length p)) ltac:(lia) ltac:(lia)) as Pp.
      destruct (add_ok cc b v p H Fp ltac:(lia)) as (b1 & E1 & H1); [apply five_ten; nia|].
      rewrite E1. cbn [bind]. apply IH; [exact H1|exact Ft|lia|exact B].
    + destruct (Z.ltb_spec 0 (Z.of_nat (length s))) as [Q|Q].
      * pose proof (numeral_value_bounds s F). pose proof (holds_bounds b v H). apply add_ok; [exact H|exact F|lia|apply five_ten; lia].
      * destruct s as [|c s]; [|cbn [length] in Q; lia]. exists b. split; [reflexivity|]. change (numeral_value []) with 0. cbn [length]. change (10 ^ Z.of_nat 0) with 1.
        replace (v * 1 + 0) with v by lia. exact H.
Qed.

Lemma decimals_bad cc c t : ~ is_digit c -> forall fuel b v a, holds b v -> Forall is_digit a -> (length a < fuel)%nat ->
  v * 10 ^ Z.of_nat (length a) + numeral_value a < Wp 415 ->
  exists w, decimals_loop cc fuel b (a ++ c :: t) = Throw w.
Proof.
  intros N. induction fuel as [|fuel IH]; intros b v a H F L B; [lia|]. cbn [decimals_loop]. unfold DIGITS_ITERATION.
  destruct (Z.leb_spec 19 (Z.of_nat (length (a ++ c :: t)))) as [G|G].
  - change (Z.to_nat 19) with 19%nat. destruct (Nat.lt_ge_cases (length a) 19) as [S|S].
    + replace (firstn 19 (a ++ c :: t)) with (a ++ c :: firstn (18 - length a) t).
      * unfold add. destruct (parse_bad a c (firstn (18 - length a) t) F N 0) as [w Ew]. rewrite Ew. eexists. reflexivity.
      * rewrite firstn_app. rewrite (firstn_all2 a) by lia. f_equal. destruct (19 - length a)%nat as [|k] eqn:K; [lia|]. cbn [firstn]. do 2 f_equal. lia.
    + assert (E1 : firstn 19 (a ++ c :: t) = firstn 19 a).
      { rewrite firstn_app. replace (19 - length a)%nat with 0%nat by lia. cbn [firstn]. apply app_nil_r. }
      assert (E2 : skipn 19 (a ++ c :: t) = skipn 19 a ++ c :: t).
      { rewrite skipn_app. replace (19 - length a)%nat with 0%nat by lia. reflexivity. }
      rewrite E1, E2. set (p := firstn 19 a) in *. set (q := skipn 19 a) in *. assert (ES : a = p ++ q) by (symmetry; apply firstn_skipn).
      assert (Lp : length p = 19%nat) by (unfold p; rewrite firstn_length; lia).
      assert (Lq : length a = (19 + length q)%nat) by (rewrite ES, app_length; lia).
      rewrite ES in F. apply Forall_app in F. destruct F as [Fp Ft].
      assert (EV : v * 10 ^ Z.of_nat (length a) + numeral_value a = (v * 10 ^ Z.of_nat (length p) + numeral_value p) * 10 ^ Z.of_nat (length q) + numeral_value q).
      { rewrite ES, numeral_value_app, app_length, Nat2Z.inj_add, Z.pow_add_r by lia. ring. }
      rewrite EV in *. pose proof (numeral_value_bounds q Ft) as Bt. pose proof (numeral_value_bounds p Fp) as Bp. pose proof (holds_bounds b v H) as Bv.
      pose proof (Z.pow_pos_nonneg 10 (Z.of_nat (length q)) ltac:(lia) ltac:(lia)) as Pt. pose proof (Z.pow_pos_nonneg 10 (Z.of_nat (length p)) ltac:(lia) ltac:(lia)) as Pp.
      destruct (add_ok cc b v p H Fp ltac:(lia)) as (b1 & Eb & H1); [apply five_ten; nia|].
      rewrite Eb. cbn [bind]. apply (IH b1 _ q H1); [exact Ft|lia|exact B].
  - destruct (Z.ltb_spec 0 (Z.of_nat (length (a ++ c :: t)))) as [Q|Q]; [|rewrite app_length in Q; cbn [length] in Q; lia].
    unfold add. destruct (parse_bad a c t F N 0) as [w Ew]. rewrite Ew. eexists. reflexivity.
Qed.

Lemma new_length : Z.of_nat (length new_digits) = capacity.
Proof. unfold new_digits. rewrite repeat_length. destruct capacity_nat; lia. Qed.

Lemma BigInteger_word_ok d : word d -> exists b, BigInteger_word d = Ok b /\ holds b d.
Proof.
  intros H. unfold BigInteger_word. pose proof new_length as NL. destruct capacity_nat as [_ C].
  change 0 with (Z.of_nat 0). rewrite word_write_in by lia. cbn [bind]. eexists. split; [reflexivity|]. apply holds_rep. exists [d]. split; [|split; [|cbn [words_value]; lia]].
  - exists (skipn 1 (set_nth new_digits 0 (Some d))). cbn [digits_ count_]. rewrite set_nth_length, NL.
    split; [|split; [reflexivity|split; [reflexivity|split; [discriminate|constructor; [exact H|constructor]]]]].
    destruct new_digits as [|x r]; [cbn [length] in NL; lia|]. reflexivity.
  - intros X. cbn in X. subst. reflexivity.
Qed.

Lemma decimals_exact cc s : Forall is_digit s -> numeral_value s < 2 ^ (64 * 415) ->
  exists b, BigInteger_decimals cc s = Ok b /\ holds b (numeral_value s).
Proof.
  intros F B. unfold BigInteger_decimals. destruct (BigInteger_word_ok 0 word_0) as (b & E & H). rewrite E. cbn [bind].
  destruct (decimals_ok cc (length s) b 0 s H F (le_n _)) as (b' & E' & H'); [rewrite Z.mul_0_l, Z.add_0_l, Wp_pow; exact B|].
  exists b'. split; [exact E'|]. rewrite Z.mul_0_l, Z.add_0_l in H'. exact H'.
Qed.

Lemma decimals_refused cc a c t : Forall is_digit a -> ~ is_digit c -> numeral_value a < 2 ^ (64 * 415) ->
  exists w, BigInteger_decimals cc (a ++ c :: t) = Throw w.
Proof.
  intros F N B. unfold BigInteger_decimals. destruct (BigInteger_word_ok 0 word_0) as (b & E & H). rewrite E. cbn [bind].
  apply (decimals_bad cc c t N _ b 0 a H F); [clear; rewrite app_length; cbn [length]; lia|]. rewrite Z.mul_0_l, Z.add_0_l, Wp_pow. exact B.
Qed.

(** Texts of at most 7999 digits, in groups of 19. *)
Lemma powers_below a b c n k q r N K : 0 < a -> 0 < b -> 0 <= c -> 0 <= n -> 0 <= k -> 0 <= q -> 0 <= r ->
  a ^ n <= b ^ k -> 0 <= K - k * q -> N = n * q + r -> a ^ r * c <= b ^ (K - k * q) -> a ^ N * c <= b ^ K.
Proof.
  intros Ha Hb Hc Hn Hk Hq Hr H HK -> H'. rewrite Z.pow_add_r, Z.pow_mul_r by (try apply Z.mul_nonneg_nonneg; assumption).
  replace K with (k * q + (K - k * q)) by ring. rewrite Z.pow_add_r, Z.pow_mul_r by (try apply Z.mul_nonneg_nonneg; assumption).
  rewrite <- Z.mul_assoc. apply Z.mul_le_mono_nonneg.
  - apply Z.pow_nonneg, Z.pow_nonneg. lia.
  - apply Z.pow_le_mono_l. split; [apply Z.pow_nonneg; lia|exact H].
  - apply Z.mul_nonneg_nonneg; [apply Z.pow_nonneg; lia|exact Hc].
  - exact H'.
Qed.

Lemma ten_7980 : 10 ^ (19 * 420) * 5 ^ 19 <= 2 ^ (64 * 415).
Proof. apply (powers_below 10 2 (5 ^ 19) 59 196 135 15 (19 * 420) (64 * 415)); vm_compute; discriminate || reflexivity. Qed.

Lemma group_fits v j e : 0 <= v < 10 ^ (19 * j) -> 0 <= j <= 420 -> 0 <= e <= 19 -> v * 5 ^ e < Wp 415.
Proof.
  intros V J E. rewrite Wp_pow. change (64 * Z.of_nat 415) with (64 * 415). eapply Z.lt_le_trans; [|exact ten_7980].
  assert (5 ^ e <= 5 ^ 19) by (apply Z.pow_le_mono_r; lia). pose proof (Z.pow_pos_nonneg 5 e ltac:(lia) ltac:(lia)).
  assert (T1 : 10 ^ (19 * j) <= 10 ^ (19 * 420)) by (apply Z.pow_le_mono_r; lia).
  revert T1. generalize (10 ^ (19 * 420)). intros T T1.
  apply Z.lt_le_trans with (T * 5 ^ e); [apply Z.mul_lt_mono_pos_r; lia|apply Z.mul_le_mono_nonneg_l; lia].
Qed.

Lemma group_next v j p : 0 <= v < 10 ^ (19 * j) -> 0 <= j -> Forall is_digit p -> length p = 19%nat ->
  0 <= v * 10 ^ Z.of_nat (length p) + numeral_value p < 10 ^ (19 * (j + 1)).
Proof.
  intros V J F L. pose proof (numeral_value_bounds p F) as B. rewrite L in *. change (Z.of_nat 19) with 19 in *.
  replace (19 * (j + 1)) with (19 * j + 19) by lia. rewrite Z.pow_add_r by lia. nia.
Qed.

Lemma decimals_long cc : forall fuel b v s j, holds b v -> Forall is_digit s -> (length s <= fuel)%nat ->
  v < 10 ^ (19 * j) -> 0 <= j -> 19 * j + Z.of_nat (length s) <= 7999 ->
  exists b', decimals_loop cc fuel b s = Ok b' /\ holds b' (v * 10 ^ Z.of_nat (length s) + numeral_value s).
Proof.
  induction fuel as [|fuel IH]; intros b v s j H F L V J B; pose proof (holds_bounds b v H) as VB.
  - destruct s as [|c s]; [|cbn in L; lia]. exists b. split; [reflexivity|]. change (numeral_value []) with 0. cbn [length]. change (10 ^ Z.of_nat 0) with 1.
    replace (v * 1 + 0) with v by lia. exact H.
  - cbn [decimals_loop]. unfold DIGITS_ITERATION. destruct (Z.leb_spec 19 (Z.of_nat (length s))) as [G|G].
    + change (Z.to_nat 19) with 19%nat. set (p := firstn 19 s) in *. set (t := skipn 19 s) in *. assert (ES : s = p ++ t) by (symmetry; apply firstn_skipn).
      assert (Lp : length p = 19%nat) by (unfold p; rewrite firstn_length; lia).
      assert (Lt : length s = (19 + length t)%nat) by (rewrite ES, app_length; lia).
      rewrite ES in F. apply Forall_app in F. destruct F as [Fp Ft].
      assert (EV : v * 10 ^ Z.of_nat (length s) + numeral_value s = (v * 10 ^ Z.of_nat (length p) + numeral_value p) * 10 ^ Z.of_nat (length t) + numeral_value t).
      { rewrite ES, numeral_value_app, app_length, Nat2Z.inj_add, Z.pow_add_r by lia. ring. }
      rewrite EV. destruct (add_ok cc b v p H Fp ltac:(lia)) as (b1 & E1 & H1); [apply (group_fits v j); lia|].
      rewrite E1. cbn [bind]. apply (IH _ _ _ (j + 1)); [exact H1|exact Ft|lia|apply group_next; (assumption || lia)|lia|lia].
    + destruct (Z.ltb_spec 0 (Z.of_nat (length s))) as [Q|Q].
      * apply add_ok; [exact H|exact F|lia|apply (group_fits v j); lia].
      * destruct s as [|c s]; [|cbn [length] in Q; lia]. exists b. split; [reflexivity|]. change (numeral_value []) with 0. cbn [length]. change (10 ^ Z.of_nat 0) with 1.
        replace (v * 1 + 0) with v by lia. exact H.
Qed.

(** Whole groups at the front are read first. *)
Lemma decimals_prefix cc t : forall k fuel b v p j, holds b v -> Forall is_digit p -> length p = (19 * k)%nat ->
  v < 10 ^ (19 * j) -> 0 <= j -> j + Z.of_nat k <= 421 ->
  exists b', decimals_loop cc (k + fuel) b (p ++ t) = decimals_loop cc fuel b' t /\ holds b' (v * 10 ^ Z.of_nat (length p) + numeral_value p).
Proof.
  induction k as [|k IH]; intros fuel b v s j H F L V J B; pose proof (holds_bounds b v H) as VB.
  - destruct s as [|c s]; [|cbn in L; lia]. exists b. split; [reflexivity|]. change (numeral_value []) with 0. cbn [length]. change (10 ^ Z.of_nat 0) with 1.
    replace (v * 1 + 0) with v by lia. exact H.
  - cbn [plus decimals_loop]. unfold DIGITS_ITERATION. destruct (Z.leb_spec 19 (Z.of_nat (length (s ++ t)))) as [G|G]; [|rewrite app_length in G; lia].
    change (Z.to_nat 19) with 19%nat. set (p := firstn 19 s) in *. set (q := skipn 19 s) in *. assert (ES : s = p ++ q) by (symmetry; apply firstn_skipn).
    assert (E1 : firstn 19 (s ++ t) = p) by (rewrite firstn_app; replace (19 - length s)%nat with 0%nat by lia; cbn [firstn]; apply app_nil_r).
    assert (E2 : skipn 19 (s ++ t) = q ++ t) by (rewrite skipn_app; replace (19 - length s)%nat with 0%nat by lia; reflexivity).
    rewrite E1, E2.
    assert (Lp : length p = 19%nat) by (unfold p; rewrite firstn_length; lia).
    assert (Lq : length s = (19 + length q)%nat) by (rewrite ES, app_length; lia).
    rewrite ES in F. apply Forall_app in F. destruct F as [Fp Ft].
    assert (EV : v * 10 ^ Z.of_nat (length s) + numeral_value s = (v * 10 ^ Z.of_nat (length p) + numeral_value p) * 10 ^ Z.of_nat (length q) + numeral_value q).
    { rewrite ES, numeral_value_app, app_length, Nat2Z.inj_add, Z.pow_add_r by lia. ring. }
    rewrite EV. destruct (add_ok cc b v p H Fp ltac:(lia)) as (b1 & Eb & H1); [apply (group_fits v j); lia|].
    rewrite Eb. cbn [bind]. apply (IH _ _ _ _ (j + 1)); [exact H1|exact Ft|lia|apply group_next; (assumption || lia)|lia|lia].
Qed.

Lemma decimals_start cc s : exists b, holds b 0 /\ BigInteger_decimals cc s = decimals_loop cc (length s) b s.
Proof.
  destruct (BigInteger_word_ok 0 word_0) as (b & E & H). exists b. split; [exact H|]. unfold BigInteger_decimals. rewrite E. reflexivity.
Qed.

(** A group with something else in it is refused. *)
Lemma group_bad cc fuel b a c t : Forall is_digit a -> ~ is_digit c -> (length a < 19)%nat ->
  exists w, decimals_loop cc (S fuel) b (a ++ c :: t) = Throw w.
Proof.
  intros F N S. cbn [decimals_loop]. unfold DIGITS_ITERATION.
  destruct (Z.leb_spec 19 (Z.of_nat (length (a ++ c :: t)))) as [G|G].
  - change (Z.to_nat 19) with 19%nat. replace (firstn 19 (a ++ c :: t)) with (a ++ c :: firstn (18 - length a) t).
    + unfold add. destruct (parse_bad a c (firstn (18 - length a) t) F N 0) as [w Ew]. rewrite Ew. eexists. reflexivity.
    + rewrite firstn_app. rewrite (firstn_all2 a) by lia. f_equal. destruct (19 - length a)%nat as [|k] eqn:K; [lia|]. cbn [firstn]. do 2 f_equal. lia.
  - destruct (Z.ltb_spec 0 (Z.of_nat (length (a ++ c :: t)))) as [Q|Q]; [|rewrite app_length in Q; cbn [length] in Q; lia].
    unfold add. destruct (parse_bad a c t F N 0) as [w Ew]. rewrite Ew. eexists. reflexivity.
Qed.

Lemma decimals_long_bad cc a c t : Forall is_digit a -> ~ is_digit c -> Z.of_nat (length a) <= 7999 ->
  exists w, BigInteger_decimals cc (a ++ c :: t) = Throw w.
Proof.
  intros F N L. destruct (decimals_start cc (a ++ c :: t)) as (b & H & ->).
  set (k := (length a / 19)%nat). pose proof (Nat.div_mod (length a) 19 ltac:(discriminate)) as DM. fold k in DM.
  pose proof (Nat.mod_upper_bound (length a) 19 ltac:(discriminate)) as MB.
  set (p := firstn (19 * k) a). set (q := skipn (19 * k) a). assert (ES : a = p ++ q) by (symmetry; apply firstn_skipn).
  assert (Lp : length p = (19 * k)%nat) by (unfold p; rewrite firstn_length; lia).
  assert (Lq : (length q < 19)%nat) by (unfold q; rewrite skipn_length; lia).
  assert (LL : length (a ++ c :: t) = (k + S (18 * k + length q + length t))%nat) by (rewrite ES, !app_length; cbn [length]; lia).
  rewrite LL. rewrite ES in F. apply Forall_app in F. destruct F as [Fp Fq].
  replace (a ++ c :: t) with (p ++ (q ++ c :: t)) by (rewrite ES, <- app_assoc; reflexivity).
  destruct (decimals_prefix cc (q ++ c :: t) k (S (18 * k + length q + length t)) b 0 p 0 H Fp Lp) as (b' & -> & _); [reflexivity|lia|lia|].
  apply group_bad; assumption.
Qed.

(** Every text is digits, or digits and then something else. *)
Lemma digits_or s : Forall is_digit s \/ exists a c t, s = a ++ c :: t /\ Forall is_digit a /\ ~ is_digit c.
Proof.
  induction s as [|x s [F|(a & c & t & -> & F & N)]].
  - left. constructor.
  - destruct (Z.leb_spec 48 (code x)); [destruct (Z.leb_spec (code x) 57)|].
    + left. constructor; [split; assumption|exact F].
    + right. exists [], x, s. split; [reflexivity|]. split; [constructor|]. unfold is_digit. lia.
    + right. exists [], x, s. split; [reflexivity|]. split; [constructor|]. unfold is_digit. lia.
  - destruct (Z.leb_spec 48 (code x)); [destruct (Z.leb_spec (code x) 57)|].
    + right. exists (x :: a), c, t. split; [reflexivity|]. split; [constructor; [split; assumption|exact F]|exact N].
    + right. exists [], x, (a ++ c :: t). split; [reflexivity|]. split; [constructor|]. unfold is_digit. lia.
    + right. exists [], x, (a ++ c :: t). split; [reflexivity|]. split; [constructor|]. unfold is_digit. lia.
Qed.

Lemma decimals_any cc s : Z.of_nat (length s) <= 7999 ->
  (Forall is_digit s -> exists b, BigInteger_decimals cc s = Ok b /\ holds b (numeral_value s)) /\
  (~ Forall is_digit s -> exists w, BigInteger_decimals cc s = Throw w).
Proof.
  intros L. split.
  - intros F. destruct (decimals_start cc s) as (b & H & ->).
    destruct (decimals_long cc (length s) b 0 s 0 H F (le_n _)) as (b' & E' & H'); [reflexivity|lia|lia|].
    exists b'. split; [exact E'|]. rewrite Z.mul_0_l, Z.add_0_l in H'. exact H'.
  - intros N. destruct (digits_or s) as [F|(a & c & t & -> & F & NC)]; [contradiction|]. apply decimals_long_bad; [exact F|exact NC|].
    rewrite app_length in L. lia.
Qed.

(** One more digit can overrun the array. *)
Lemma add_overrun cc b v p : holds b v -> v <> 0 -> Forall is_digit p -> (1 <= length p <= 19)%nat ->
  Wp 415 <= v * 5 ^ Z.of_nat (length p) < LIMIT -> exists w, add cc b p = UB w.
Proof.
  intros H NZ F L B. unfold add. rewrite parse_digits by (assumption || lia). cbn [bind]. rewrite (big_isZero_ok b v H). cbn [bind].
  destruct (Z.eqb_spec v 0); [contradiction|]. set (e := Z.of_nat (length p)) in *. pose proof (holds_bounds b v H) as VB.
  destruct (exact_below _ _ (mulPow5_ok cc b v e H ltac:(lia)) ltac:(lia)) as (b1 & E1 & H1). rewrite E1. cbn [bind].
  assert (E64 : e / 64 = 0) by (apply Z.div_small; lia). assert (M64 : e mod 64 = e) by (apply Z.mod_small; lia).
  pose proof (Wp_pos 415) as P.
  destruct (shift_overrun b1 (v * 5 ^ e) e H1) as (w & E2); [lia|lia|lia| |rewrite E2; eexists; reflexivity].
  rewrite E64, Z.add_0_r. destruct (count_bounds b1 _ H1) as (m & C & Lm & U & _ & _). destruct capacity_nat as [C1 C2]. rewrite C.
  destruct (Nat.lt_ge_cases m 415) as [X|X]; [|lia]. pose proof (Wp_le (S m) 415 ltac:(lia)). lia.
Qed.

Lemma decimals_overrun cc a d : Forall is_digit a -> length a = (19 * Z.to_nat 421)%nat -> is_digit d ->
  Wp 415 <= numeral_value a * 5 < LIMIT -> exists w, BigInteger_decimals cc (a ++ [d]) = UB w.
Proof.
  intros F L D B. destruct (decimals_start cc (a ++ [d])) as (b & H & ->).
  assert (K : exists k, Z.of_nat k = 421 /\ length a = (19 * k)%nat) by (exists (Z.to_nat 421); split; [reflexivity|exact L]).
  clear L. destruct K as (k & K & L).
  replace (length (a ++ [d])) with (k + S (18 * k))%nat by (rewrite app_length, L; cbn [length]; lia).
  destruct (decimals_prefix cc [d] k (S (18 * k)) b 0 a 0 H F L) as (b' & -> & H'); [reflexivity|lia|lia|].
  rewrite Z.mul_0_l, Z.add_0_l in H'. cbn [decimals_loop]. change (DIGITS_ITERATION <=? Z.of_nat (length [d])) with false. change (0 <? Z.of_nat (length [d])) with true. cbn iota.
  apply (add_overrun cc b' (numeral_value a)); [exact H'| |constructor; [exact D|constructor]|cbn; clear; lia|].
  - intros X. rewrite X in B. pose proof (Wp_pos 415) as P. clear - B P. lia.
  - exact B.
Qed.

(** ** Single words, comparison, equality *)

Lemma wv_nth ws : Forall word ws -> forall j, (j < length ws)%nat -> nth j ws 0 = (words_value ws / Wp j) mod W.
Proof.
  intros F. induction F as [|x r Hx F IH]; intros [|j] L; cbn [length] in L; try lia; cbn [nth]; rewrite wv_cons.
  - rewrite Wp_0, Z.div_1_r, Z.mul_comm, Z_mod_plus_full. symmetry. apply Z.mod_small. exact Hx.
  - rewrite IH by lia. f_equal. rewrite Wp_S. rewrite <- Z.div_div by (discriminate || (pose proof (Wp_pos j); lia)).
    f_equal. rewrite Z.mul_comm, Z.div_add by discriminate. rewrite Z.div_small by exact Hx. lia.
Qed.

Lemma digit_ok b n i : holds b n -> 0 <= i ->
  (i < count_ b -> digit b i = Ok ((n / 2 ^ (64 * i)) mod 2 ^ 64)) /\ (count_ b <= i -> exists w, digit b i = Throw w).
Proof.
  intros H Hi. apply holds_rep in H. destruct H as (ws & R & N & V). destruct R as (rest & A & B & C & D & E).
  unfold digit. split; intros L.
  - destruct (Z.ltb_spec i (count_ b)); [|lia]. rewrite <- (Z2Nat.id i) by lia. set (j := Z.to_nat i).
    rewrite <- Wp_pow, <- V. fold W. change (2 ^ 64) with W. rewrite <- (wv_nth ws E j) by lia.
    apply word_read_nth; [rewrite A, app_length, map_length; lia|]. rewrite A. apply nth_words. lia.
  - destruct (Z.ltb_spec i (count_ b)); [lia|]. eauto.
Qed.

Definition sign_of (c : comparison) : Z := match c with Lt => -1 | Eq => 0 | Gt => 1 end.

Lemma compare_loop_ok u : forall v r1 r2, Forall word u -> Forall word v -> length u = length v ->
  compare_loop (length u) (map Some u ++ r1) (map Some v ++ r2) = Ok (sign_of (words_value u ?= words_value v)).
Proof.
  induction u as [|a u IH] using rev_ind; intros v r1 r2 Fu Fv L.
  - destruct v; [reflexivity|discriminate L].
  - destruct (exists_last (l := v)) as (v' & b & ->); [intros ->; rewrite app_length in L; cbn in L; lia|].
    rewrite !app_length in L. cbn [length] in L. assert (L' : length u = length v') by lia.
    apply Forall_app in Fu. destruct Fu as [Fu Fa]. apply Forall_app in Fv. destruct Fv as [Fv Fb].
    rewrite app_length. cbn [length]. rewrite Nat.add_1_r. cbn [compare_loop].
    rewrite (word_read_words u a [] r1) by reflexivity. rewrite (word_read_words v' b [] r2) by lia. cbn [bind].
    rewrite !map_app, <- !app_assoc. cbn [map app]. rewrite (IH v' (Some a :: r1) (Some b :: r2) Fu Fv L').
    rewrite !wv_app. rewrite <- L'. cbn [words_value]. rewrite !Z.mul_0_r, !Z.add_0_r.
    pose proof (wv_bounds u Fu) as B1. pose proof (wv_bounds v' Fv) as B2. rewrite <- L' in B2.
    destruct (Z.eqb_spec a b) as [->|Nab].
    + do 2 f_equal. destruct (Z.compare_spec (words_value u) (words_value v')); destruct (Z.compare_spec (words_value u + Wp (length u) * b) (words_value v' + Wp (length u) * b)); (reflexivity || lia).
    + pose proof (Wp_pos (length u)). destruct (Z.ltb_spec a b).
      * assert (Q : words_value u + Wp (length u) * a < words_value v' + Wp (length u) * b) by nia. apply Z.compare_lt_iff in Q. rewrite Q. reflexivity.
      * assert (Q : words_value v' + Wp (length u) * b < words_value u + Wp (length u) * a) by nia. apply Z.compare_gt_iff in Q. rewrite Q. reflexivity.
Qed.

(** More words, larger number. *)
Lemma longer u v : Forall word u -> Forall word v -> v <> [] -> normal v -> (length u < length v)%nat -> u <> [] -> words_value u < words_value v.
Proof.
  intros Fu Fv Nv NM L Nu. destruct (normal_lower v Fv Nv NM) as [[_ X]|X].
  - rewrite X in L. destruct u; [contradiction|cbn in L; lia].
  - pose proof (wv_bounds u Fu). pose proof (Wp_le (length u) (Nat.pred (length v)) ltac:(lia)). lia.
Qed.

Lemma compare_ok x y n m : holds x n -> holds y m -> compare x y = Ok (sign_of (n ?= m)).
Proof.
  intros Hx Hy. apply holds_rep in Hx. destruct Hx as (u & (r1 & A1 & B1 & C1 & D1 & E1) & N1 & V1).
  apply holds_rep in Hy. destruct Hy as (v & (r2 & A2 & B2 & C2 & D2 & E2) & N2 & V2).
  unfold compare. subst n m. destruct (Z.eqb_spec (count_ x) (count_ y)) as [E|E].
  - rewrite A1, A2, C1, Nat2Z.id. apply compare_loop_ok; [exact E1|exact E2|lia].
  - destruct (Z.ltb_spec (count_ x) (count_ y)).
    + assert (Q : words_value u < words_value v) by (apply longer; try assumption; lia). apply Z.compare_lt_iff in Q. rewrite Q. reflexivity.
    + assert (Q : words_value v < words_value u) by (apply longer; try assumption; lia). apply Z.compare_gt_iff in Q. rewrite Q. reflexivity.
Qed.

Lemma words_equal_ok u v : length u = length v -> forall p q r1 r2, length p = length q ->
  words_equal (map Some (p ++ u) ++ r1) (map Some (q ++ v) ++ r2) (Z.of_nat (length p)) (length u) = Ok (if list_eq_dec Z.eq_dec u v then true else false).
Proof.
  revert v. induction u as [|a u IH]; intros [|b v] L p q r1 r2 LP; try discriminate L.
  - destruct (list_eq_dec Z.eq_dec [] []); [reflexivity|contradiction].
  - cbn [length words_equal]. rewrite (word_read_words p a u) by reflexivity. rewrite (word_read_words q b v) by lia. cbn [bind].
    replace (p ++ a :: u) with ((p ++ [a]) ++ u) by (rewrite <- app_assoc; reflexivity).
    replace (q ++ b :: v) with ((q ++ [b]) ++ v) by (rewrite <- app_assoc; reflexivity).
    replace (Z.of_nat (length p) + 1) with (Z.of_nat (length (p ++ [a]))) by (rewrite app_length; cbn; lia).
    injection L as L. rewrite (IH v L) by (rewrite !app_length; cbn; lia). cbn [bind].
    destruct (Z.eqb_spec a b) as [->|N]; destruct (list_eq_dec Z.eq_dec u v) as [->|M]; destruct (list_eq_dec Z.eq_dec _ _) as [X|X]; try reflexivity; exfalso;
      try (apply X; reflexivity); injection X; intros; congruence.
Qed.

Lemma equal_ok x y n m : holds x n -> holds y m -> equal x y = Ok (n =? m).
Proof.
  intros Hx Hy. apply holds_rep in Hx. destruct Hx as (u & (r1 & A1 & B1 & C1 & D1 & E1) & N1 & V1).
  apply holds_rep in Hy. destruct Hy as (v & (r2 & A2 & B2 & C2 & D2 & E2) & N2 & V2).
  unfold equal. subst n m. destruct (Z.eqb_spec (count_ x) (count_ y)) as [E|E].
  - rewrite A1, A2, C1, Nat2Z.id. pose proof (words_equal_ok u v ltac:(lia) [] [] r1 r2 eq_refl) as Q. cbn [app length] in Q. change (Z.of_nat 0) with 0 in Q. rewrite Q.
    f_equal. destruct (Z.eqb_spec (words_value u) (words_value v)) as [V|V]; destruct (list_eq_dec Z.eq_dec u v) as [X|N]; try reflexivity.
    + exfalso. apply N. apply wv_inj; try assumption. lia.
    + exfalso. apply V. rewrite X. reflexivity.
  - f_equal. symmetry. apply Z.eqb_neq. intros V. apply E. rewrite C1, C2. f_equal.
    destruct (Nat.lt_trichotomy (length u) (length v)) as [T|[T|T]]; [|exact T|].
    + pose proof (longer u v E1 E2 D2 N2 T D1). lia.
    + pose proof (longer v u E2 E1 D1 N1 T D2). lia.
Qed.

(** ** Copies *)

Lemma words_copy_ok d ws rest : (length ws <= length d)%nat ->
  words_copy d (map Some ws ++ rest) (Z.of_nat (length ws)) = Ok (map Some ws ++ skipn (length ws) d).
Proof.
  intros L. unfold words_copy. rewrite app_length, map_length.
  rewrite (proj2 (Z.leb_le 0 (Z.of_nat (length ws)))) by lia. rewrite (proj2 (Z.leb_le (Z.of_nat (length ws)) (Z.of_nat (length d)))) by lia.
  rewrite (proj2 (Z.leb_le (Z.of_nat (length ws)) (Z.of_nat (length ws + length rest)))) by lia. cbn [andb]. rewrite Nat2Z.id.
  rewrite firstn_words by lia. rewrite firstn_all. reflexivity.
Qed.

Lemma copy_holds d ws n : Z.of_nat (length d) = capacity -> (length ws <= length d)%nat -> ws <> [] -> Forall word ws -> normal ws -> words_value ws = n ->
  holds (Big (map Some ws ++ skipn (length ws) d) (Z.of_nat (length ws))) n.
Proof.
  intros L LW N F NM V. apply holds_rep. exists ws. split; [|auto]. exists (skipn (length ws) d). cbn [digits_ count_].
  split; [reflexivity|]. split; [rewrite app_length, map_length, skipn_length; lia|]. auto.
Qed.

Lemma copy_ok b n : holds b n -> exists c, BigInteger_copy b = Ok c /\ holds c n.
Proof.
  intros H. apply holds_rep in H. destruct H as (ws & R & N & V). destruct (rep_length _ _ R) as [_ L]. destruct R as (rest & A & B & C & D & E).
  pose proof new_length as NL. unfold BigInteger_copy. rewrite A, C. rewrite words_copy_ok by lia. cbn [bind].
  eexists. split; [reflexivity|]. apply copy_holds; try assumption. lia.
Qed.

Lemma assign_ok x b n : Z.of_nat (length (digits_ x)) = capacity -> holds b n -> exists c, assign x b = Ok c /\ holds c n.
Proof.
  intros LX H. apply holds_rep in H. destruct H as (ws & R & N & V). destruct (rep_length _ _ R) as [_ L]. destruct R as (rest & A & B & C & D & E).
  unfold assign. rewrite A, C. rewrite words_copy_ok by lia. cbn [bind].
  eexists. split; [reflexivity|]. apply copy_holds; try assumption. lia.
Qed.

(** ** Difference *)

Definition word_of (n : Z) (j : nat) : Z := (n / Wp j) mod W.

Lemma mod_step n j : n mod Wp (S j) = n mod Wp j + Wp j * word_of n j.
Proof. rewrite Wp_S, Z.mul_comm. apply Z.rem_mul_r; [pose proof (Wp_pos j); lia|reflexivity]. Qed.

Lemma word_of_word n j : word (word_of n j).
Proof. apply Z.mod_pos_bound. reflexivity. Qed.

(** No borrow arrives at an all-ones word of [m], subtracted from [n]. *)
Definition no_loss (n m : Z) (i : nat) : Prop :=
  forall j, (j < i)%nat -> word_of m j = W - 1 -> m mod Wp j <= n mod Wp j.

(** The words written so far; the last nonzero one sets the count. *)
Definition counted (R : list Z) (c : Z) : Prop :=
  exists R1 k, R = R1 ++ repeat 0 k /\ (R1 = [] \/ (last R1 0 <> 0 /\ c = Z.of_nat (length R1))).

Lemma counted_snoc R c d : counted R c -> counted (R ++ [d]) (if d =? 0 then c else Z.of_nat (length R) + 1).
Proof.
  intros (R1 & k & -> & H). destruct (Z.eqb_spec d 0) as [->|N].
  - exists R1, (S k). split; [|exact H]. rewrite <- app_assoc. f_equal. rewrite <- repeat_cons. reflexivity.
  - exists ((R1 ++ repeat 0 k) ++ [d]), 0%nat. split; [cbn [repeat]; rewrite app_nil_r; reflexivity|]. right.
    rewrite last_last. split; [exact N|]. rewrite (app_length (R1 ++ _)). cbn [length]. lia.
Qed.

Lemma sub_word a b k : word a -> word b -> 0 <= k <= 1 ->
  let d := u64 (u64 (a - k) - b) in
  word d /\ if (k =? 1) && (b =? W - 1) then d = a else d - W * (if a <? d then 1 else 0) = a - b - k.
Proof.
  intros Ha Hb Hk. cbn zeta. assert (E : u64 (u64 (a - k) - b) = (a - k - b) mod W).
  { rewrite !u64_W. apply Zminus_mod_idemp_l. }
  rewrite E. split; [apply Z.mod_pos_bound; reflexivity|]. unfold word in *.
  destruct (Z.eqb_spec k 1) as [->|]; destruct (Z.eqb_spec b (W - 1)) as [->|]; cbn [andb].
  - replace (a - 1 - (W - 1)) with (a + (-1) * W) by lia. rewrite Z_mod_plus_full. apply Z.mod_small. exact Ha.
  - destruct (Z.lt_ge_cases (a - 1 - b) 0).
    + replace ((a - 1 - b) mod W) with (a - 1 - b + W); [destruct (Z.ltb_spec a (a - 1 - b + W)); lia|].
      rewrite <- (Z_mod_plus_full (a - 1 - b) 1 W). symmetry. rewrite Z.mod_small by lia. lia.
    + rewrite Z.mod_small by lia. destruct (Z.ltb_spec a (a - 1 - b)); lia.
  - replace (a - k - (W - 1)) with (a - (W - 1)) by lia. destruct (Z.lt_ge_cases (a - (W - 1)) 0).
    + replace ((a - (W - 1)) mod W) with (a - (W - 1) + W); [destruct (Z.ltb_spec a (a - (W - 1) + W)); lia|].
      rewrite <- (Z_mod_plus_full (a - (W - 1)) 1 W). symmetry. rewrite Z.mod_small by lia. lia.
    + rewrite Z.mod_small by lia. destruct (Z.ltb_spec a (a - (W - 1))); lia.
  - destruct (Z.lt_ge_cases (a - k - b) 0).
    + replace ((a - k - b) mod W) with (a - k - b + W); [destruct (Z.ltb_spec a (a - k - b + W)); lia|].
      rewrite <- (Z_mod_plus_full (a - k - b) 1 W). symmetry. rewrite Z.mod_small by lia. lia.
    + rewrite Z.mod_small by lia. destruct (Z.ltb_spec a (a - k - b)); lia.
Qed.

Lemma nth_word_of ws j : Forall word ws -> nth j ws 0 = word_of (words_value ws) j.
Proof.
  intros F. destruct (Nat.lt_ge_cases j (length ws)) as [L|L]; [apply wv_nth; assumption|].
  rewrite nth_overflow by exact L. unfold word_of. pose proof (wv_bounds ws F). pose proof (Wp_le _ _ L). rewrite Z.div_small by lia. reflexivity.
Qed.

Definition balance (n m : Z) (i : nat) (R : list Z) (borrow L : Z) : Prop :=
  words_value R - borrow * Wp i = n mod Wp i - m mod Wp i + L.

Lemma difference_loop_ok A B ra rb n m : Forall word A -> Forall word B -> words_value A = n -> words_value B = m ->
  (length B <= length A)%nat -> (length A <= Z.to_nat capacity)%nat ->
  forall fuel i R rest c borrow L, (i + length rest = Z.to_nat capacity)%nat -> (i <= length A)%nat -> (length A - i <= fuel)%nat ->
  length R = i -> Forall word R -> 0 <= borrow <= 1 -> 0 <= L -> (L = 0 <-> no_loss n m i) -> counted R c ->
  balance n m i R borrow L ->
  exists R' rest' c' borrow' L',
    difference_loop fuel Apart (Big (map Some A ++ ra) (Z.of_nat (length A))) (Big (map Some B ++ rb) (Z.of_nat (length B)))
      (Big (map Some R ++ rest) c) (Z.of_nat i) borrow = Ok (Big (map Some R' ++ rest') c') /\
    length R' = length A /\ (length A + length rest' = Z.to_nat capacity)%nat /\ Forall word R' /\ 0 <= borrow' <= 1 /\ 0 <= L' /\
    (L' = 0 <-> no_loss n m (length A)) /\ counted R' c' /\
    balance n m (length A) R' borrow' L'.
Proof.
  intros FA FB VA VB LBA LAC. induction fuel as [|fuel IH]; intros i R rest c borrow L Lr Li Lf LR FR Bb BL IL CR EV.
  - assert (i = length A) as EI by lia. cbn [difference_loop count_]. destruct (Z.ltb_spec (Z.of_nat i) (Z.of_nat (length A))); [clear - EI H; lia|].
    exists R, rest, c, borrow, L. rewrite <- EI. split; [reflexivity|]. repeat (split; [assumption|]). exact EV.
  - destruct (Nat.eq_dec i (length A)) as [EI|NI].
    + cbn [difference_loop count_]. destruct (Z.ltb_spec (Z.of_nat i) (Z.of_nat (length A))); [clear - EI H; lia|].
      exists R, rest, c, borrow, L. rewrite <- EI. split; [reflexivity|]. repeat (split; [assumption|]). exact EV.
    + cbn [difference_loop count_ digits_]. destruct (Z.ltb_spec (Z.of_nat i) (Z.of_nat (length A))); [|lia].
      rewrite (word_read_nth _ i (nth i A 0)); [|rewrite app_length, map_length; lia|apply nth_words; lia]. cbn [bind].
      set (a := nth i A 0). set (b := nth i B 0).
      assert (EB : (let* d := if Z.of_nat i <? Z.of_nat (length B)
                   then let* bi := word_read (map Some B ++ rb) (Z.of_nat i) in Ok (u64 (u64 (a - borrow) - bi))
                   else Ok (u64 (a - borrow)) in Ok d) = Ok (u64 (u64 (a - borrow) - b))).
      { destruct (Z.ltb_spec (Z.of_nat i) (Z.of_nat (length B))).
        - rewrite (word_read_nth _ i b); [reflexivity|rewrite app_length, map_length; lia|apply nth_words; lia].
        - cbn [bind]. unfold b. rewrite nth_overflow by lia. rewrite Z.sub_0_r. f_equal. rewrite !u64_W. symmetry. apply Z.mod_mod. discriminate. }
      assert (Ea : a = word_of n i) by (rewrite <- VA; apply nth_word_of; exact FA). assert (Eb : b = word_of m i) by (rewrite <- VB; apply nth_word_of; exact FB).
      assert (Wa : word a) by (rewrite Ea; apply word_of_word). assert (Wb : word b) by (rewrite Eb; apply word_of_word).
      destruct (if Z.of_nat i <? Z.of_nat (length B)
                   then let* bi := word_read (map Some B ++ rb) (Z.of_nat i) in Ok (u64 (u64 (a - borrow) - bi))
                   else Ok (u64 (a - borrow))) as [d0|?|?|] ; try discriminate EB. cbn [bind] in EB. injection EB as ->. cbn [bind].
      destruct (sub_word a b borrow Wa Wb Bb) as [Wd Ed]. cbn zeta in Ed. set (d := u64 (u64 (a - borrow) - b)) in *.
      destruct rest as [|x rest]; [cbn [length] in Lr; lia|].
      assert (EW : word_write (map Some R ++ x :: rest) (Z.of_nat i) d = Ok (map Some (R ++ [d]) ++ rest)).
      { rewrite <- LR, <- (map_length Some R). rewrite word_write_app. rewrite map_app, <- app_assoc. reflexivity. }
      rewrite EW. cbn [bind]. replace (Z.of_nat i + 1) with (Z.of_nat (S i)) by lia.
      assert (CD : counted (R ++ [d]) (if d =? 0 then c else Z.of_nat (S i))).
      { replace (Z.of_nat (S i)) with (Z.of_nat (length R) + 1) by lia. apply counted_snoc. exact CR. }
      set (c' := if d =? 0 then c else Z.of_nat (S i)) in *.
      pose proof (mod_step n i) as Mn. pose proof (mod_step m i) as Mm. rewrite <- Ea in Mn. rewrite <- Eb in Mm.
      pose proof (Wp_pos i) as PW. pose proof (Wp_S i) as WS. pose proof (wv_bounds R FR) as BR. rewrite LR in BR.
      assert (VR : words_value (R ++ [d]) = words_value R + Wp i * d).
      { rewrite wv_app, LR. cbn [words_value]. rewrite Z.mul_0_r, Z.add_0_r. reflexivity. }
      assert (NS : no_loss n m (S i) <-> no_loss n m i /\ (b = W - 1 -> m mod Wp i <= n mod Wp i)).
      { rewrite Eb. split.
        - intros Q. split; [intros j Hj; apply Q; lia|]. apply Q. lia.
        - intros [Q1 Q2] j Hj. destruct (Nat.eq_dec j i) as [->|]; [exact Q2|]. apply Q1. lia. }
      destruct ((borrow =? 1) && (b =? W - 1)) eqn:LOSS.
      * (* the borrow is lost *)
        apply andb_prop in LOSS. destruct LOSS as [L1 L2]. apply Z.eqb_eq in L1. apply Z.eqb_eq in L2.
        destruct (IH (S i) (R ++ [d]) rest c' (if a <? d then 1 else 0) (L + Wp (S i))) as (R' & rest' & c'' & b' & L' & P); cbn [length] in Lr; try lia.
        -- rewrite app_length. cbn. lia.
        -- apply Forall_app. split; [exact FR|constructor; [exact Wd|constructor]].
        -- destruct (a <? d); lia.
        -- rewrite NS. clear - IL EV L1 L2 BL BR PW WS LR. unfold balance in EV. pose proof (Wp_pos (S i)). split; [lia|]. intros [Q1 Q2]. apply IL in Q1. specialize (Q2 L2). rewrite L1 in EV. lia.
        -- exact CD.
        -- unfold balance in *. rewrite VR, Ed, Z.ltb_irrefl, Mn, Mm, WS, L2. rewrite L1 in EV. clear - EV. nia.
        -- exists R', rest', c'', b', L'. exact P.
      * destruct (IH (S i) (R ++ [d]) rest c' (if a <? d then 1 else 0) L) as (R' & rest' & c'' & b' & L' & P); cbn [length] in Lr; try lia.
        -- rewrite app_length. cbn. lia.
        -- apply Forall_app. split; [exact FR|constructor; [exact Wd|constructor]].
        -- destruct (a <? d); lia.
        -- rewrite NS, <- IL. split; [|tauto]. intros ->. split; [reflexivity|]. intros Q. rewrite Q, Z.eqb_refl, andb_true_r in LOSS. apply Z.eqb_neq in LOSS.
           assert (borrow = 0) by (clear - Bb LOSS; lia). subst borrow. unfold balance in EV. clear - EV BR. lia.
        -- exact CD.
        -- unfold balance in *. rewrite VR, Mn, Mm, WS. set (k := if a <? d then 1 else 0) in *. clearbody k d a b. clear - Ed EV.
           replace (words_value R + Wp i * d - k * (W * Wp i)) with (words_value R + Wp i * (d - W * k)) by ring. rewrite Ed.
           replace (words_value R + Wp i * (a - b - borrow)) with ((words_value R - borrow * Wp i) + Wp i * (a - b)) by ring. rewrite EV. ring.
        -- exists R', rest', c'', b', L'. exact P.
Qed.

(** The whole subtraction: the output holds n - m plus what was lost. *)
Lemma difference_words a b out n m : holds a n -> holds b m -> m < n -> Z.of_nat (length (digits_ out)) = capacity ->
  exists o r, difference_loop (Z.to_nat capacity) Apart a b out 0 0 = Ok o /\ holds o r /\ n - m <= r /\
    (r = n - m <-> no_loss n m (Z.to_nat (count_ a))).
Proof.
  intros Ha Hb Lt LO. apply holds_rep in Ha. destruct Ha as (A & RA & NA & VA). apply holds_rep in Hb. destruct Hb as (B & RB & NB & VB).
  destruct (rep_length _ _ RA) as [LA1 LA2]. destruct RA as (ra & A1 & A2 & A3 & A4 & A5). destruct RB as (rb & B1 & B2 & B3 & B4 & B5).
  destruct a as [da ca]; destruct b as [db cb]; destruct out as [dout co]; cbn [digits_ count_] in *. subst da ca db cb.
  destruct capacity_nat as [CN1 CN2].
  assert (LBA : (length B <= length A)%nat).
  { destruct (Nat.le_gt_cases (length B) (length A)) as [X|X]; [exact X|]. pose proof (longer A B A5 B5 B4 NB X A4). lia. }
  destruct (difference_loop_ok A B ra rb n m A5 B5 VA VB LBA ltac:(lia) (Z.to_nat capacity) 0 [] dout co 0 0) as (R & rest & c & k & L & E & LR & Lr & FR & Bk & BL & IL & CR & EV);
    [cbn [plus]; lia|lia|lia|reflexivity|apply Forall_nil|lia|lia| | |unfold balance; rewrite Wp_0, !Z.mod_1_r; reflexivity|].
  { split; [intros _ j Hj; lia|reflexivity]. }
  { exists [], 0%nat. split; [reflexivity|left; reflexivity]. }
  cbn [map app] in E. change (Z.of_nat 0) with 0 in E.
  pose proof (wv_bounds A A5) as BA. pose proof (wv_bounds B B5) as BB. rewrite VA in BA. rewrite VB in BB.
  unfold balance in EV. rewrite !Z.mod_small in EV by lia. pose proof (wv_bounds R FR) as BR. rewrite LR in BR. pose proof (Wp_pos (length A)) as P.
  assert (K0 : L = 0 -> k = 0) by (intros ->; nia).
  destruct CR as (R1 & z & ER & [->|[NZ EC]]).
  { exfalso. rewrite ER in EV. cbn [app] in EV. rewrite wv_zeros in EV. nia. }
  exists (Big (map Some R ++ rest) c), (words_value R). split; [exact E|]. split; [|split; [nia|]].
  - apply holds_rep. exists R1. split; [|split].
    + exists (map Some (repeat 0 z) ++ rest). cbn [digits_ count_]. split; [rewrite ER, map_app, <- app_assoc; reflexivity|].
      split; [rewrite app_length, map_length; lia|]. split; [exact EC|]. split; [intros ->; apply NZ; reflexivity|].
      rewrite ER in FR. apply Forall_app in FR. apply FR.
    + intros X. contradiction.
    + rewrite ER, wv_app, wv_zeros, Z.mul_0_r, Z.add_0_r. reflexivity.
  - rewrite Nat2Z.id, <- IL. split; [|intros X; specialize (K0 X); nia]. intros X. nia.
Qed.
