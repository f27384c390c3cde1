(** BigInteger: statements at the level of the class, and witnesses. *)
From Verif Require Import Machine LibMachine SpecDecimal SpecInt SpecBig ModelDiyfp ModelBigint ProofBig ProofBig2 ProofBig3.
Ltac Zify.zify_post_hook ::= idtac.

(** ** Every number that fits is held by some object *)

Definition big_of (ws : list Z) : BigInteger :=
  Big (map Some ws ++ repeat None (Z.to_nat capacity - length ws)) (Z.of_nat (length ws)).

Lemma big_of_holds ws : Forall word ws -> ws <> [] -> normal ws -> (length ws <= Z.to_nat capacity)%nat -> holds (big_of ws) (words_value ws).
Proof.
  intros F N NM L. apply holds_rep. exists ws. split; [|auto]. eexists. cbn [digits_ count_]. split; [reflexivity|].
  unfold big_of. cbn [digits_ count_]. rewrite app_length, map_length, repeat_length. destruct capacity_nat. split; [lia|]. auto.
Qed.

Fixpoint words_of (k : nat) (n : Z) : list Z :=
  match k with
  | O => []
  | S k => if n =? 0 then [] else n mod W :: words_of k (n / W)
  end.

Lemma words_of_ok k : forall n, 0 <= n < Wp k ->
  Forall word (words_of k n) /\ words_value (words_of k n) = n /\ (length (words_of k n) <= k)%nat /\ (n <> 0 -> words_of k n <> [] /\ last (words_of k n) 0 <> 0).
Proof.
  induction k as [|k IH]; intros n Hn; cbn [words_of].
  - rewrite Wp_0 in Hn. assert (n = 0) by lia. subst. split; [apply Forall_nil|]. split; [reflexivity|]. split; [cbn; lia|contradiction].
  - destruct (Z.eqb_spec n 0) as [->|N].
    + split; [apply Forall_nil|]. split; [reflexivity|]. split; [cbn; lia|contradiction].
    + rewrite Wp_S in Hn. pose proof W_pos as P.
      assert (B : 0 <= n / W < Wp k) by (split; [apply Z.div_pos; lia|apply Z.div_lt_upper_bound; lia]).
      destruct (IH (n / W) B) as (F & V & L & NZ). pose proof (Z.div_mod n W ltac:(lia)) as DM. pose proof (Z.mod_pos_bound n W P) as M.
      split; [constructor; assumption|]. split; [rewrite wv_cons, V; lia|]. split; [cbn [length]; lia|]. intros _. split; [discriminate|].
      destruct (Z.eq_dec (n / W) 0) as [Q|Q].
      * rewrite Q. destruct k; cbn [words_of last Z.eqb]; lia.
      * destruct (NZ Q) as [N1 N2]. destruct (words_of k (n / W)); [contradiction|exact N2].
Qed.

Lemma every_number n : 0 <= n < LIMIT -> exists b, holds b n.
Proof.
  intros H. destruct (Z.eq_dec n 0) as [->|N].
  - exists (big_of [0]). apply (big_of_holds [0]); [constructor; [exact word_0|apply Forall_nil]|discriminate|intros _; reflexivity|destruct capacity_nat; cbn [length]; lia].
  - rewrite LIMIT_Wp in H. destruct (words_of_ok _ n H) as (F & V & L & NZ). destruct (NZ N) as [N1 N2].
    exists (big_of (words_of (Z.to_nat capacity) n)). rewrite <- V at 2. apply big_of_holds; [exact F|exact N1|intros X; contradiction|exact L].
Qed.

(** ** Shifts *)

Lemma shift_aligned b n shift : holds b n -> n <> 0 -> 0 < shift -> shift mod 64 = 0 -> n < W -> exact_or_throw (shift_left b shift) (n * 2 ^ shift).
Proof.
  intros H NZ HS HI HN. pose proof (Z.div_mod shift 64 ltac:(lia)) as DM. rewrite HI, Z.add_0_r in DM.
  set (o := Z.to_nat (shift / 64)). assert (Eo : shift / 64 = Z.of_nat o) by (unfold o; rewrite Z2Nat.id; [reflexivity|apply Z.div_pos; lia]).
  assert (E2 : 2 ^ shift = Wp o) by (rewrite Wp_pow, <- Eo, <- DM; reflexivity).
  assert (O1 : (1 <= o)%nat) by lia.
  pose proof (holds_bounds b n H) as NB. pose proof H as H0. destruct capacity_nat as [CN1 CN2].
  apply holds_rep in H. destruct H as (ws & (rest & A & B & C & D & E) & NM & V).
  assert (LW : length ws = 1%nat).
  { destruct (normal_lower ws E D NM) as [[_ X]|X]; [rewrite X; reflexivity|]. destruct ws as [|w [|w2 r]]; [contradiction|reflexivity|].
    exfalso. cbn [length Nat.pred] in X. rewrite Wp_S in X. pose proof (Wp_pos (length r)). pose proof W_pos. nia. }
  destruct ws as [|w [|? ?]]; try discriminate LW. rewrite wv_cons in V. cbn [words_value] in V. rewrite Z.mul_0_r, Z.add_0_r in V. subst w.
  destruct (Z.lt_ge_cases capacity (count_ b + shift / 64)) as [Far|Near].
  { right. split; [|apply (shift_too_far b n); (assumption || lia)]. rewrite C in Far. cbn [length] in Far.
    rewrite E2, LIMIT_Wp. pose proof (Wp_le (Z.to_nat capacity) o ltac:(lia)). pose proof (Wp_pos o). nia. }
  assert (R : exists b', shift_left b shift = Ok b' /\ holds b' (n * 2 ^ shift)).
  { unfold shift_left. rewrite (big_isZero_ok b n H0). cbn [bind]. destruct (Z.eqb_spec n 0); [contradiction|].
    destruct (Z.eqb_spec shift 0); [lia|]. cbn [orb]. change INT64_BYTE with 64. rewrite HI, Eo. rewrite Eo in Near.
    destruct (Z.leb_spec (count_ b + Z.of_nat o) capacity); [|lia]. cbn [Z.eqb].
    rewrite C. cbn [length]. change (Z.of_nat 1 - 1) with 0. rewrite C in Near. cbn [length] in Near.
    destruct b as [ds c]; cbn [digits_ count_] in *. subst c. unfold words_memmove.
    assert (Ld : length ds = Z.to_nat capacity) by lia.
    rewrite (proj2 (Z.leb_le 0 (Z.of_nat 1))) by lia. rewrite (proj2 (Z.leb_le 0 (0 + Z.of_nat o))) by lia.
    rewrite (proj2 (Z.leb_le (0 + Z.of_nat o + Z.of_nat 1) _)) by lia. rewrite (proj2 (Z.leb_le 0 0)) by lia.
    rewrite (proj2 (Z.leb_le (0 + Z.of_nat 1) _)) by lia. cbn [andb bind digits_ count_].
    change (Z.to_nat 0) with 0%nat. change (Z.to_nat (Z.of_nat 1)) with 1%nat. cbn [skipn].
    replace (Z.to_nat (0 + Z.of_nat o)) with o by lia. replace (Z.to_nat (0 + Z.of_nat o + Z.of_nat 1)) with (S o) by lia.
    assert (M1 : firstn 1 ds = [Some n]) by (rewrite A; reflexivity). rewrite M1. set (d1 := firstn o ds ++ [Some n] ++ skipn (S o) ds).
    assert (Lf : length (firstn o ds) = o) by (rewrite firstn_length; lia).
    assert (L1 : length d1 = length ds) by (unfold d1; rewrite !app_length, skipn_length, Lf; cbn [length]; lia).
    unfold words_clear. rewrite (proj2 (Z.leb_le 0 (Z.of_nat o))) by lia. rewrite (proj2 (Z.leb_le (Z.of_nat o) _)) by lia. cbn [andb bind].
    rewrite Nat2Z.id.
    assert (SK : skipn o d1 = Some n :: skipn (S o) ds).
    { unfold d1. rewrite skipn_app, Lf, Nat.sub_diag. rewrite skipn_all2 by lia. reflexivity. }
    rewrite SK. eexists. split; [reflexivity|]. apply holds_rep. exists (repeat 0 o ++ [n]). split; [|split].
    - exists (skipn (S o) ds). cbn [digits_ count_]. split; [|split; [|split; [|split]]].
      + rewrite map_app, <- app_assoc. f_equal. clear. induction o as [|o IH]; cbn; [reflexivity|f_equal; exact IH].
      + rewrite app_length, repeat_length. cbn [length]. rewrite skipn_length. lia.
      + rewrite app_length, repeat_length. cbn [length]. lia.
      + destruct o; discriminate.
      + apply Forall_app. split; [apply zeros_words|]. constructor; [split; lia|apply Forall_nil].
    - intros X. rewrite last_last in X. contradiction.
    - rewrite wv_app, wv_zeros, repeat_length, E2. cbn [words_value]. ring. }
  destruct R as (b' & Eb & Hb). exact (exact_holds _ b' _ Eb Hb).
Qed.

(** All shifts except whole words of longer numbers, and those reaching the last word. *)
Lemma shift_ok b n shift : holds b n -> 0 <= shift ->
  (shift mod 64 = 0 -> n < W \/ shift = 0) -> (shift mod 64 <> 0 -> n = 0 \/ count_ b + shift / 64 <> capacity) ->
  exact_or_throw (shift_left b shift) (n * 2 ^ shift).
Proof.
  intros H HS H0 H1. destruct (Z.eq_dec n 0) as [->|NZ].
  { apply (exact_holds _ b); [apply (shift_nothing b 0); [exact H|left; reflexivity]|exact H]. }
  destruct (Z.eq_dec shift 0) as [->|SZ].
  { apply (exact_holds _ b); [apply (shift_nothing b n); [exact H|right; reflexivity]|]. rewrite Z.pow_0_r, Z.mul_1_r. exact H. }
  destruct (Z.eq_dec (shift mod 64) 0) as [HI|HI].
  { apply shift_aligned; try assumption; [lia|]. destruct (H0 HI); [assumption|contradiction]. }
  destruct (H1 HI) as [X|X]; [contradiction|].
  destruct (Z.lt_ge_cases (count_ b + shift / 64) capacity) as [L|L].
  { destruct (shift_inter b n shift H NZ HS HI L) as (b' & E & Hb). exact (exact_holds _ b' _ E Hb). }
  right. split; [|apply (shift_too_far b n); (assumption || lia)].
  destruct (inter_facts shift HS HI) as (o & s & Eo & Es & Bs & E2). destruct (count_bounds b n H) as (m & C & Lm & U & Lo & P). specialize (Lo NZ).
  destruct capacity_nat as [CN1 CN2]. rewrite E2, LIMIT_Wp. rewrite C, Eo in *.
  pose proof (Wp_le (Z.to_nat capacity) (m + o) ltac:(lia)) as Q. rewrite Wp_add in Q. pose proof (Wp_pos o). pose proof (Wp_pos m).
  pose proof (Z.pow_pos_nonneg 2 s ltac:(lia) ltac:(lia)).
  assert (Wp m * Wp o <= n * Wp o) by (apply Z.mul_le_mono_nonneg_r; lia).
  assert (n * Wp o * 1 <= n * Wp o * 2 ^ s) by (apply Z.mul_le_mono_nonneg_l; nia). lia.
Qed.

(** ** Difference *)

Lemma borrow_free_loss n m k : 0 <= m < Wp k -> borrow_free n m <-> no_loss n m k.
Proof.
  intros Hm. unfold borrow_free, no_loss, nth_word, word_of. split.
  - intros H j Hj E. specialize (H (Z.of_nat j)). rewrite <- Wp_pow in H. apply H; [lia|exact E].
  - intros H j Hj E. destruct (Z.lt_ge_cases j (Z.of_nat k)) as [L|L].
    + specialize (H (Z.to_nat j)). rewrite Wp_pow, Z2Nat.id in H by lia. apply H; [clear - L Hj; lia|exact E].
    + exfalso. assert (W <= 0); [|pose proof W_pos; lia].
      replace (m / 2 ^ (64 * j)) with 0 in E; [discriminate E|]. symmetry. apply Z.div_small. split; [lia|].
      eapply Z.lt_le_trans; [apply Hm|]. rewrite Wp_pow. apply Z.pow_le_mono_r; lia.
Qed.

Lemma difference_ok x y out n m : holds x n -> holds y m -> Z.of_nat (length (digits_ out)) = capacity -> n <> m ->
  exists o r, difference x y (OutApart out) = Ok (o, n <? m) /\ holds o r /\ Z.abs (n - m) <= r /\
    (r = Z.abs (n - m) <-> borrow_free (Z.max n m) (Z.min n m)).
Proof.
  intros Hx Hy LO N. unfold difference. rewrite (compare_ok x y n m Hx Hy). cbn [bind].
  destruct capacity_nat as [CN1 CN2].
  assert (G : forall a b p q, holds a p -> holds b q -> q < p -> exists o r, difference_loop (Z.to_nat capacity) Apart a b out 0 0 = Ok o /\ holds o r /\ p - q <= r /\ (r = p - q <-> borrow_free p q)).
  { intros a b p q Ha Hb L. destruct (difference_words a b out p q Ha Hb L LO) as (o & r & E & Ho & Lr & I). exists o, r.
    split; [exact E|]. split; [exact Ho|]. split; [exact Lr|]. rewrite I. symmetry. apply borrow_free_loss.
    destruct (count_bounds a p Ha) as (k & C & _ & U & _ & _). rewrite C, Nat2Z.id. pose proof (holds_bounds b q Hb). lia. }
  destruct (Z.compare_spec n m) as [E|L|L]; [contradiction| |]; cbn [sign_of Z.eqb Z.ltb Z.compare].
  - destruct (G y x m n Hy Hx L) as (o & r & E & Ho & Lr & I). rewrite E. cbn [bind]. exists o, r.
    rewrite (proj2 (Z.ltb_lt n m) L). replace (Z.abs (n - m)) with (m - n) by lia. rewrite Z.max_r, Z.min_l by lia. auto.
  - destruct (G x y n m Hx Hy L) as (o & r & E & Ho & Lr & I). rewrite E. cbn [bind]. exists o, r.
    rewrite (proj2 (Z.ltb_ge n m)) by lia. replace (Z.abs (n - m)) with (n - m) by lia. rewrite Z.max_l, Z.min_r by lia. auto.
Qed.

Lemma difference_same x y out n : holds x n -> holds y n -> exists w, difference x y out = Throw w.
Proof.
  intros Hx Hy. unfold difference. rewrite (compare_ok x y n n Hx Hy), Z.compare_refl. cbn. eauto.
Qed.

(** Numbers of one word. *)
Lemma one_word b n : holds b n -> n < W -> exists rest, b = Big (Some n :: rest) 1 /\ Z.of_nat (length (Some n :: rest)) = capacity /\ 0 <= n.
Proof.
  intros H L. pose proof (holds_bounds b n H). apply holds_rep in H. destruct H as (ws & (rest & A & B & C & D & E) & NM & V).
  assert (LW : length ws = 1%nat).
  { destruct (normal_lower ws E D NM) as [[_ X]|X]; [rewrite X; reflexivity|]. destruct ws as [|w [|w2 r]]; [contradiction|reflexivity|].
    exfalso. cbn [length Nat.pred] in X. rewrite Wp_S in X. pose proof (Wp_pos (length r)). pose proof W_pos. nia. }
  destruct ws as [|w [|? ?]]; try discriminate LW. rewrite wv_cons in V. cbn [words_value] in V. rewrite Z.mul_0_r, Z.add_0_r in V. subst w.
  destruct b as [ds c]; cbn [digits_ count_] in *. subst ds c. exists rest. split; [reflexivity|]. split; [exact B|lia].
Qed.

Lemma one_word_holds n rest : word n -> Z.of_nat (length (Some n :: rest)) = capacity -> holds (Big (Some n :: rest) 1) n.
Proof.
  intros H L. apply holds_rep. exists [n]. split; [|split; [|rewrite wv_cons; cbn [words_value]; lia]].
  - exists rest. cbn [digits_ count_]. split; [reflexivity|]. split; [exact L|]. split; [reflexivity|]. split; [discriminate|]. constructor; [exact H|apply Forall_nil].
  - intros X. cbn in X. subst. reflexivity.
Qed.

Lemma loop_one t p q ra rb x ro co k fuel : 0 <= q -> q < p -> p < W -> (2 <= fuel)%nat ->
  (t = Larger -> x :: ro = Some p :: ra /\ co = 1) -> (t = Smaller -> x :: ro = Some q :: rb /\ co = 1) ->
  k = 1 -> difference_loop fuel t (Big (Some p :: ra) 1) (Big (Some q :: rb) 1) (Big (x :: ro) co) 0 0 = Ok (Big (Some (p - q) :: ro) k).
Proof.
  intros Hq Hpq Hp Hf T1 T2 ->. destruct fuel as [|[|fuel]]; try lia. cbn [difference_loop count_ digits_]. cbn [Z.ltb Z.compare].
  assert (R : forall w l, word_read (Some w :: l) 0 = Ok w).
  { intros w l. unfold word_read. rewrite in_range_true by (cbn [length]; lia). reflexivity. }
  rewrite !R. cbn [bind]. rewrite Z.sub_0_r. rewrite (u64_W p), (Z.mod_small p) by lia. rewrite (u64_W (p - q)), (Z.mod_small (p - q)) by lia.
  assert (Wr : forall w l v, word_write (w :: l) 0 v = Ok (Some v :: l)).
  { intros w l v. unfold word_write. rewrite in_range_true by (cbn [length]; lia). reflexivity. }
  rewrite Wr. cbn [bind]. destruct (Z.eqb_spec (p - q) 0); [lia|]. cbn [Z.add].
  destruct t; [| |]; reflexivity.
Qed.

Lemma difference_alias x y o n m : holds x n -> holds y m -> n < W -> m < W -> n <> m -> (o = OutThis \/ o = OutOther) ->
  exists r, difference x y o = Ok (r, n <? m) /\ holds r (Z.abs (n - m)).
Proof.
  intros Hx Hy Ln Lm N HO. unfold difference. rewrite (compare_ok x y n m Hx Hy). cbn [bind].
  destruct (one_word x n Hx Ln) as (rx & -> & Lx & Nx). destruct (one_word y m Hy Lm) as (ry & -> & Ly & Ny).
  assert (FU : (2 <= Z.to_nat capacity)%nat) by (destruct capacity_nat; lia).
  assert (HH : forall v r, Z.of_nat (length (Some v :: r)) = capacity -> Z.of_nat (length (Some (Z.abs (n - m)) :: r)) = capacity) by (intros v r Q; exact Q).
  assert (WD : word (Z.abs (n - m))) by (unfold word; lia).
  destruct (Z.compare_spec n m) as [E|L|L]; [contradiction| |]; cbn [sign_of Z.eqb Z.ltb Z.compare].
  - rewrite (proj2 (Z.ltb_lt n m) L). destruct HO as [-> | ->].
    + rewrite (loop_one Smaller m n ry rx (Some n) rx 1 1) by (first [assumption|reflexivity|discriminate|split; reflexivity]). cbn [bind]. eexists. split; [reflexivity|].
      replace (m - n) with (Z.abs (n - m)) by lia. apply one_word_holds; [exact WD|exact (HH _ _ Lx)].
    + rewrite (loop_one Larger m n ry rx (Some m) ry 1 1) by (first [assumption|reflexivity|discriminate|split; reflexivity]). cbn [bind]. eexists. split; [reflexivity|].
      replace (m - n) with (Z.abs (n - m)) by lia. apply one_word_holds; [exact WD|exact (HH _ _ Ly)].
  - rewrite (proj2 (Z.ltb_ge n m)) by lia. destruct HO as [-> | ->].
    + rewrite (loop_one Larger n m rx ry (Some n) rx 1 1) by (first [assumption|reflexivity|discriminate|split; reflexivity]). cbn [bind]. eexists. split; [reflexivity|].
      rewrite Z.abs_eq in * by lia. apply one_word_holds; [exact WD|exact (HH _ _ Lx)].
    + rewrite (loop_one Smaller n m rx ry (Some m) ry 1 1) by (first [assumption|reflexivity|discriminate|split; reflexivity]). cbn [bind]. eexists. split; [reflexivity|].
      rewrite Z.abs_eq in * by lia. apply one_word_holds; [exact WD|exact (HH _ _ Ly)].
Qed.

(** ** Witnesses *)

(** 5 + 2^64, shifted by one word. *)
Lemma shift_wrong : exists b n shift b' r, holds b n /\ 0 <= shift /\ n * 2 ^ shift < LIMIT /\
  shift_left b shift = Ok b' /\ holds b' r /\ r <> n * 2 ^ shift.
Proof.
  exists (big_of [5; 1]), (words_value [5; 1]), 64, (big_of [0; 1; 1]), (words_value [0; 1; 1]).
  assert (F : forall l, forallb (fun w => (0 <=? w) && (w <? W)) l = true -> Forall word l).
  { intros l H. apply Forall_forall. intros w Hw. rewrite forallb_forall in H. specialize (H w Hw). unfold word. lia. }
  assert (H2 : holds (big_of [0; 1; 1]) (words_value [0; 1; 1])).
  { apply big_of_holds; [apply F; reflexivity|discriminate|discriminate|destruct capacity_nat; cbn [length]; lia]. }
  split. { apply big_of_holds; [apply F; reflexivity|discriminate|discriminate|destruct capacity_nat; cbn [length]; lia]. }
  split; [lia|]. split; [|split; [vm_compute; reflexivity|split; [exact H2|vm_compute; discriminate]]].
  rewrite LIMIT_Wp. eapply Z.lt_le_trans; [|apply (Wp_le 4); destruct capacity_nat; lia]. reflexivity.
Qed.

(** 2^(64 * 415), shifted by one bit: the result would fit. *)
Lemma shift_overruns : exists b n shift w, holds b n /\ 0 <= shift /\ n * 2 ^ shift < LIMIT /\ shift_left b shift = UB w.
Proof.
  pose proof LIMIT_415 as LE. pose proof (Wp_pos 415) as P. assert (W2 : 2 < W) by reflexivity.
  destruct (every_number (Wp 415)) as (b & H); [rewrite LE; clear - P W2; nia|].
  destruct (shift_overrun b (Wp 415) 1 H) as (w & E); [lia|lia|discriminate| |].
  - destruct (count_bounds b _ H) as (m & C & Lm & U & _ & _). destruct capacity_nat as [C1 C2]. rewrite C. change (1 / 64) with 0.
    destruct (Nat.lt_ge_cases m 415) as [X|X]; [|lia]. pose proof (Wp_le (S m) 415 ltac:(lia)). lia.
  - exists b, (Wp 415), 1, w. split; [exact H|]. split; [lia|]. split; [rewrite LE; clear - P W2; nia|exact E].
Qed.

(** 2^128 - (2^128 - 2^64 + 1): the borrow from the low word is lost. *)
Lemma difference_wrong : exists x y out n m o r, holds x n /\ holds y m /\ Z.of_nat (length (digits_ out)) = capacity /\ n <> m /\
  difference x y (OutApart out) = Ok (o, n <? m) /\ holds o r /\ r <> Z.abs (n - m).
Proof.
  assert (F : forall l, forallb (fun w => (0 <=? w) && (w <? W)) l = true -> Forall word l).
  { intros l H. apply Forall_forall. intros w Hw. rewrite forallb_forall in H. specialize (H w Hw). unfold word. lia. }
  assert (HX : holds (big_of [0; 0; 1]) (words_value [0; 0; 1])).
  { apply big_of_holds; [apply F; reflexivity|discriminate|discriminate|destruct capacity_nat; cbn [length]; lia]. }
  assert (HY : holds (big_of [1; W - 1]) (words_value [1; W - 1])).
  { apply big_of_holds; [apply F; reflexivity|discriminate|discriminate|destruct capacity_nat; cbn [length]; lia]. }
  assert (HO : holds (big_of [W - 1; 0; 1]) (words_value [W - 1; 0; 1])).
  { apply big_of_holds; [apply F; reflexivity|discriminate|discriminate|destruct capacity_nat; cbn [length]; lia]. }
  exists (big_of [0; 0; 1]), (big_of [1; W - 1]), (big_of [0]), (words_value [0; 0; 1]), (words_value [1; W - 1]), (big_of [W - 1; 0; 1]), (words_value [W - 1; 0; 1]).
  split; [exact HX|]. split; [exact HY|]. split; [reflexivity|]. split; [vm_compute; discriminate|]. split; [vm_compute; reflexivity|].
  split; [exact HO|vm_compute; discriminate].
Qed.

(** (5 + 2^64) - 3 into the left operand itself: the upper word is dropped. *)
Lemma alias_wrong : exists x y n m o r, holds x n /\ holds y m /\ n <> m /\ borrow_free (Z.max n m) (Z.min n m) /\
  difference x y OutThis = Ok (o, n <? m) /\ holds o r /\ r <> Z.abs (n - m).
Proof.
  assert (F : forall l, forallb (fun w => (0 <=? w) && (w <? W)) l = true -> Forall word l).
  { intros l H. apply Forall_forall. intros w Hw. rewrite forallb_forall in H. specialize (H w Hw). unfold word. lia. }
  assert (HX : holds (big_of [5; 1]) (words_value [5; 1])).
  { apply big_of_holds; [apply F; reflexivity|discriminate|discriminate|destruct capacity_nat; cbn [length]; lia]. }
  assert (HY : holds (big_of [3]) (words_value [3])).
  { apply big_of_holds; [apply F; reflexivity|discriminate|discriminate|destruct capacity_nat; cbn [length]; lia]. }
  exists (big_of [5; 1]), (big_of [3]), (words_value [5; 1]), (words_value [3]), (Big (digits_ (big_of [2; 1])) 1), 2.
  split; [exact HX|]. split; [exact HY|]. split; [vm_compute; discriminate|]. split.
  - change (Z.max (words_value [5; 1]) (words_value [3])) with (words_value [5; 1]). change (Z.min (words_value [5; 1]) (words_value [3])) with 3.
    apply (borrow_free_loss _ _ 1); [split; [lia|reflexivity]|]. intros j Hj. assert (j = 0%nat) by lia. subst j. vm_compute. discriminate.
  - split; [vm_compute; reflexivity|]. split; [|vm_compute; discriminate].
    apply (one_word_holds 2); [split; [lia|reflexivity]|reflexivity].
Qed.

(** 1 followed by 7999 zeros. *)
Lemma ten_7998 : Wp 415 <= 10 ^ 7998 * 5 /\ 10 ^ 7998 * 5 < Wp 416.
Proof.
  rewrite !Wp_pow. split.
  - eapply Z.le_trans; [|apply (Z.le_mul_diag_r (10 ^ 7998) 5); [apply Z.pow_pos_nonneg; reflexivity || discriminate|discriminate]].
    pose proof (powers_below 2 10 1 93 28 285 55 (64 * Z.of_nat 415) 7998) as P. rewrite Z.mul_1_r in P.
    apply P; vm_compute; discriminate || reflexivity.
  - apply Z.le_lt_trans with (2 ^ 26600); [|apply Z.pow_lt_mono_r; reflexivity || discriminate].
    apply (powers_below 10 2 5 59 196 135 33); vm_compute; discriminate || reflexivity.
Qed.

Lemma ten_7999 : 10 ^ 7998 * 10 + 0 < Wp (Z.to_nat capacity).
Proof.
  rewrite Z.add_0_r, Wp_pow. apply Z.le_lt_trans with (2 ^ 26600); [|apply Z.pow_lt_mono_r; reflexivity || discriminate].
  apply (powers_below 10 2 10 59 196 135 33); vm_compute; discriminate || reflexivity.
Qed.

Lemma zeros_value z : numeral_value (repeat "0"%char z) = 0.
Proof.
  induction z as [|z IH]; [reflexivity|]. cbn [repeat]. change ("0"%char :: repeat "0"%char z) with (["0"%char] ++ repeat "0"%char z).
  rewrite numeral_value_app, IH. reflexivity.
Qed.

Lemma ten_value z : numeral_value ("1"%char :: repeat "0"%char z) = 10 ^ Z.of_nat z.
Proof.
  change ("1"%char :: repeat "0"%char z) with (["1"%char] ++ repeat "0"%char z). rewrite numeral_value_app, zeros_value, repeat_length.
  change (numeral_value ["1"%char]) with 1. lia.
Qed.

Lemma zeros_digits z : Forall is_digit (repeat "0"%char z).
Proof. apply Forall_forall. intros c H. apply repeat_spec in H. subst. split; discriminate. Qed.

Lemma digits_overrun cc : exists s w, Forall is_digit s /\ numeral_value s < LIMIT /\ BigInteger_decimals cc s = UB w.
Proof.
  assert (E : exists z, Z.of_nat z = 7998 /\ S z = (19 * Z.to_nat 421)%nat) by (exists (Z.to_nat 7998); split; reflexivity).
  destruct E as (z & Ez & Sz). destruct (decimals_overrun cc ("1"%char :: repeat "0"%char z) "0"%char) as (w & E).
  - constructor; [split; discriminate|apply zeros_digits].
  - cbn [length]. rewrite repeat_length. exact Sz.
  - split; discriminate.
  - rewrite ten_value, Ez, LIMIT_Wp. exact ten_7998.
  - exists (("1"%char :: repeat "0"%char z) ++ ["0"%char]), w. split; [apply Forall_app; split; [constructor; [split; discriminate|apply zeros_digits]|constructor; [split; discriminate|apply Forall_nil]]|].
    split; [|exact E]. rewrite numeral_value_app, ten_value, Ez. change (10 ^ Z.of_nat (length ["0"%char])) with 10. change (numeral_value ["0"%char]) with 0.
    rewrite LIMIT_Wp. apply ten_7999.
Qed.

(** ** Forms used in the statements *)

Lemma exact_split (o : outcome BigInteger) n : exact_or_throw o n ->
  (n < LIMIT -> exists b, o = Ok b /\ holds_number (digits_ b) (count_ b) n) /\ (LIMIT <= n -> exists w, o = Throw w).
Proof.
  intros [(L & b & E & H)|(L & w & E)]; split; intros Q; try lia; eauto.
Qed.

Lemma add_word_split b n d : holds_number (digits_ b) (count_ b) n -> 0 <= d < 2 ^ 64 ->
  (n + d < LIMIT -> exists b', add_word b d = Ok b' /\ holds_number (digits_ b') (count_ b') (n + d)) /\ (LIMIT <= n + d -> exists w, add_word b d = Throw w).
Proof. intros H D. apply exact_split, add_word_ok; assumption. Qed.

Lemma mul_word_split cc b n d : holds_number (digits_ b) (count_ b) n -> 0 <= d < 2 ^ 64 ->
  (n * d < LIMIT -> exists b', mul_word cc b d = Ok b' /\ holds_number (digits_ b') (count_ b') (n * d)) /\ (LIMIT <= n * d -> exists w, mul_word cc b d = Throw w).
Proof. intros H D. apply exact_split, mul_word_ok; assumption. Qed.

Lemma mul_word32_split b n d : holds_number (digits_ b) (count_ b) n -> 0 <= d < 2 ^ 32 ->
  (n * d < LIMIT -> exists b', mul_word32 b d = Ok b' /\ holds_number (digits_ b') (count_ b') (n * d)) /\ (LIMIT <= n * d -> exists w, mul_word32 b d = Throw w).
Proof. intros H D. apply exact_split, mul_word32_ok; assumption. Qed.

Lemma mulPow5_split cc b n e : holds_number (digits_ b) (count_ b) n -> 0 <= e ->
  (n * 5 ^ e < LIMIT -> exists b', mulPow5 cc b e = Ok b' /\ holds_number (digits_ b') (count_ b') (n * 5 ^ e)) /\ (LIMIT <= n * 5 ^ e -> exists w, mulPow5 cc b e = Throw w).
Proof. intros H D. apply exact_split, mulPow5_ok; assumption. Qed.

Lemma shift_split b n shift : holds_number (digits_ b) (count_ b) n -> 0 <= shift ->
  (shift mod 64 = 0 -> n < 2 ^ 64 \/ shift = 0) -> (shift mod 64 <> 0 -> n = 0 \/ count_ b + shift / 64 <> 416) ->
  (n * 2 ^ shift < LIMIT -> exists b', shift_left b shift = Ok b' /\ holds_number (digits_ b') (count_ b') (n * 2 ^ shift)) /\
  (LIMIT <= n * 2 ^ shift -> exists w, shift_left b shift = Throw w).
Proof. intros H S A B. apply exact_split, shift_ok; assumption. Qed.

Lemma shift_last_word b n shift : holds_number (digits_ b) (count_ b) n -> n <> 0 -> 0 <= shift -> shift mod 64 <> 0 -> count_ b + shift / 64 = 416 ->
  exists w, shift_left b shift = UB w.
Proof. exact (shift_overrun b n shift). Qed.

Lemma word_starts d : 0 <= d < 2 ^ 64 ->
  (exists b, BigInteger_word d = Ok b /\ holds_number (digits_ b) (count_ b) d) /\
  (forall x n, holds_number (digits_ x) (count_ x) n -> exists b, assign_word x d = Ok b /\ holds_number (digits_ b) (count_ b) d).
Proof.
  intros D. split; [apply BigInteger_word_ok; exact D|]. intros x n H. apply holds_rep in H. destruct H as (ws & R & _). exact (assign_word_ok x ws d R D).
Qed.

Lemma queries b n : holds_number (digits_ b) (count_ b) n ->
  big_isZero b = Ok (n =? 0) /\ (forall d, 0 <= d < 2 ^ 64 -> equal_word b d = Ok (n =? d)) /\
  (forall i, 0 <= i < count b -> digit b i = Ok (nth_word n i)) /\
  (forall i, count b <= i -> exists w, digit b i = Throw w) /\
  1 <= count b <= 416 /\ n < 2 ^ (64 * count b) /\ (n <> 0 -> 2 ^ (64 * (count b - 1)) <= n).
Proof.
  intros H. split; [exact (big_isZero_ok b n H)|]. split.
  { intros d D. pose proof H as H'. apply holds_rep in H'. destruct H' as (ws & R & N & <-). exact (equal_word_ok b ws d R N D). }
  destruct (count_bounds b n H) as (m & C & Lm & U & Lo & P). unfold count. destruct capacity_nat as [C1 C2].
  split; [intros i I; apply (digit_ok b n i H); lia|]. split.
  { intros i I. destruct (digit_ok b n i H) as [_ Q]; [lia|]. exact (Q I). }
  split; [rewrite C; clear - C1 Lm; lia|]. rewrite C. split; [rewrite <- Wp_pow; exact U|]. intros NZ.
  replace (Z.of_nat (S m) - 1) with (Z.of_nat m) by lia. rewrite <- Wp_pow. exact (Lo NZ).
Qed.

Lemma copies b n : holds_number (digits_ b) (count_ b) n ->
  (exists c, BigInteger_copy b = Ok c /\ holds_number (digits_ c) (count_ c) n) /\
  (forall x k, holds_number (digits_ x) (count_ x) k -> exists c, assign x b = Ok c /\ holds_number (digits_ c) (count_ c) n).
Proof.
  intros H. split; [exact (copy_ok b n H)|]. intros x k (ws & rest & A & L & _). exact (assign_ok x b n L H).
Qed.
