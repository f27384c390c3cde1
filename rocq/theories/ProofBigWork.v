(** Proofs about the work of the BigInteger operations. *)
From Verif Require Import Machine LibMachine SpecDecimal SpecInt SpecBig SpecBigWork ModelDiyfp ModelBigint ModelBigWork
  ProofBig ProofBig2 ProofBig3 ProofBig4 ProofBigStore.
Ltac Zify.zify_post_hook ::= idtac.
Open Scope Z_scope.

(** ** Records *)

Lemma taken_app a t u : taken a (t ++ u) = taken a t + taken a u.
Proof. induction t as [|b t IH]; cbn [app taken]; [reflexivity|]. rewrite IH. lia. Qed.
Lemma taken_nonneg a t : 0 <= taken a t.
Proof. induction t as [|b t IH]; cbn [taken]; [lia|]. destruct (work_eqb a b); lia. Qed.
Lemma taken_repeat a b n : taken a (repeat b n) = if work_eqb a b then Z.of_nat n else 0.
Proof. induction n as [|n IH]; cbn [repeat taken]; [destruct (work_eqb a b); reflexivity|]. rewrite IH. destruct (work_eqb a b); lia. Qed.

Lemma fst_next {A B} (m : logged A) (f : A -> logged B) : fst (next m f) = (let* x := fst m in fst (f x)).
Proof. unfold next. destruct (fst m); reflexivity. Qed.
Lemma fst_turn {A} a (m : logged A) : fst (turn_in a m) = fst m.
Proof. reflexivity. Qed.
Lemma fst_still {A} (m : outcome A) : fst (still m) = m.
Proof. reflexivity. Qed.
Lemma bind_same {A B} (m : outcome A) (f g : A -> outcome B) : (forall x, f x = g x) -> bind m f = bind m g.
Proof. intros H. destruct m; cbn [bind]; [apply H|reflexivity..]. Qed.
Lemma bind_two {A B} (m m' : outcome A) (f g : A -> outcome B) : m = m' -> (forall x, f x = g x) -> bind m f = bind m' g.
Proof. intros -> H. apply bind_same, H. Qed.
Lemma bind_assoc {A B C} (m : outcome A) (f : A -> outcome B) (g : B -> outcome C) :
  (let* y := (let* x := m in f x) in g y) = (let* x := m in let* y := f x in g y).
Proof. destruct m; reflexivity. Qed.

Lemma snd_still_next {A B} (m : outcome A) (f : A -> logged B) :
  snd (next (still m) f) = match m with Ok x => snd (f x) | _ => [] end.
Proof. unfold next, still. cbn [fst snd]. destruct m; reflexivity. Qed.
Lemma snd_turn {A} a (m : logged A) : snd (turn_in a m) = a :: snd m.
Proof. reflexivity. Qed.
Lemma snd_next {A B} (m : logged A) (f : A -> logged B) :
  snd (next m f) = snd m ++ match fst m with Ok x => snd (f x) | _ => [] end.
Proof. unfold next. destruct (fst m); cbn [snd]; rewrite ?app_nil_r; reflexivity. Qed.

(** ** The record changes nothing *)

Lemma parse_same p : forall r, fst (l_parse r p) = parse r p.
Proof.
  induction p as [|c p IH]; intros r; cbn [l_parse parse]; [reflexivity|]. rewrite fst_turn. destruct (_ && _); [apply IH|reflexivity].
Qed.

Lemma add_loop_same n : forall x i b, fst (l_add_loop n x i b) = add_loop n x i b.
Proof.
  induction n as [|n IH]; intros x i b; cbn [l_add_loop add_loop]; [reflexivity|]. rewrite fst_turn, fst_next, fst_still.
  apply bind_same. intros d. destruct (b <=? d); [reflexivity|]. rewrite fst_next, fst_still. apply bind_same. intros b'.
  rewrite fst_next, fst_still. apply bind_same. intros ds. apply IH.
Qed.

Lemma add_word_same x d : fst (l_add_word x d) = add_word x d.
Proof.
  unfold l_add_word, add_word. rewrite fst_next, fst_still. apply bind_same. intros b. rewrite fst_next, fst_still. apply bind_same. intros ds.
  apply add_loop_same.
Qed.

Lemma mul_loop_same step n : forall d i k, fst (l_mul_loop step n d i k) = mul_loop step n d i k.
Proof.
  induction n as [|n IH]; intros d i k; cbn [l_mul_loop mul_loop]; [reflexivity|]. rewrite fst_turn, fst_next, fst_still.
  apply bind_same. intros w. destruct (step w k) as [lo hi]. rewrite fst_next, fst_still. apply bind_same. intros ds. apply IH.
Qed.

Lemma multiply_same step x d : fst (l_multiply step x d) = multiply step x d.
Proof.
  unfold l_multiply, multiply. destruct (d =? 0); [reflexivity|]. destruct (d =? 1); [reflexivity|]. rewrite fst_next, fst_still.
  apply bind_same. intros [|]; [reflexivity|]. rewrite fst_next, mul_loop_same. apply bind_same. intros [ds k]. reflexivity.
Qed.

Lemma shift_loop_same n : forall d o s, fst (l_shift_loop n d o s) = shift_loop n d o s.
Proof.
  induction n as [|n IH]; intros d o s; cbn [l_shift_loop shift_loop]; [reflexivity|]. rewrite fst_turn, fst_next, fst_still, !bind_assoc.
  apply bind_same. intros a. rewrite !bind_assoc. apply bind_same. intros b. rewrite !bind_assoc. apply bind_same. intros hi. rewrite !bind_assoc.
  apply bind_same. intros lo. apply bind_same. intros ds. apply IH.
Qed.

Lemma shift_left_same x s : fst (l_shift_left x s) = shift_left x s.
Proof.
  unfold l_shift_left, shift_left. rewrite fst_next, fst_still. apply bind_same. intros z. destruct (z || (s =? 0)); [reflexivity|].
  cbv zeta. destruct (_ <=? capacity); [|reflexivity]. rewrite fst_next. apply bind_two; [|intros; reflexivity].
  destruct (_ =? 0); [reflexivity|]. rewrite fst_next, fst_still. apply bind_same. intros d. rewrite fst_next, shift_loop_same. reflexivity.
Qed.

Lemma pow5_loop_same lm m step : (forall x, fst (lm x) = m x) -> forall fuel x e, fst (l_pow5_loop lm step fuel x e) = pow5_loop m step fuel x e.
Proof.
  intros S. induction fuel as [|fuel IH]; intros x e; cbn [l_pow5_loop pow5_loop]; (destruct (step <=? e); [|reflexivity]); [reflexivity|].
  rewrite fst_turn, fst_next, S. apply bind_same. intros x'. apply IH.
Qed.

Lemma mulPow5_same cc x e : fst (l_mulPow5 cc x e) = mulPow5 cc x e.
Proof.
  unfold l_mulPow5, mulPow5. destruct (e =? 0); [reflexivity|]. cbv zeta. rewrite fst_next.
  rewrite (pow5_loop_same _ (fun x => mul_word cc x 0x6765C793FA10079D)) by (intros; apply multiply_same). apply bind_same. intros [x1 e1].
  rewrite fst_next, (pow5_loop_same _ (fun x => mul_word32 x 1220703125)) by (intros; apply multiply_same). apply bind_same. intros [x2 e2].
  destruct (0 <? e2); [|reflexivity]. destruct (in_range _ _); [|reflexivity]. apply multiply_same.
Qed.

Lemma add_same cc x p : fst (l_add cc x p) = add cc x p.
Proof.
  unfold l_add, add. rewrite fst_next, parse_same. apply bind_same. intros d. rewrite fst_next, fst_still. apply bind_same. intros [|]; [reflexivity|].
  cbv zeta. rewrite fst_next, mulPow5_same. apply bind_same. intros y. rewrite fst_next, shift_left_same. apply bind_same. intros z. apply add_word_same.
Qed.

Lemma decimals_loop_same cc fuel : forall x s, fst (l_decimals_loop cc fuel x s) = decimals_loop cc fuel x s.
Proof.
  induction fuel as [|fuel IH]; intros x s; cbn [l_decimals_loop decimals_loop]; (destruct (_ <=? _); [|destruct (0 <? _); [apply add_same|reflexivity]]); [reflexivity|].
  rewrite fst_turn, fst_next, add_same. apply bind_same. intros y. apply IH.
Qed.

Lemma decimals_same cc s : fst (l_BigInteger_decimals cc s) = BigInteger_decimals cc s.
Proof. unfold l_BigInteger_decimals, BigInteger_decimals. rewrite fst_next, fst_still. apply bind_same. intros x. apply decimals_loop_same. Qed.

Lemma compare_loop_same n : forall d s, fst (l_compare_loop n d s) = compare_loop n d s.
Proof.
  induction n as [|n IH]; intros d s; cbn [l_compare_loop compare_loop]; [reflexivity|]. rewrite fst_turn, fst_next, fst_still.
  apply bind_same. intros a. rewrite fst_next, fst_still. apply bind_same. intros b. destruct (a =? b); [apply IH|reflexivity].
Qed.

Lemma compare_same x y : fst (l_compare x y) = compare x y.
Proof. unfold l_compare, compare. destruct (_ =? _); [apply compare_loop_same|reflexivity]. Qed.

Lemma difference_loop_same fuel : forall t a b out i k, fst (l_difference_loop fuel t a b out i k) = difference_loop fuel t a b out i k.
Proof.
  induction fuel as [|fuel IH]; intros t a b out i k; cbn [l_difference_loop difference_loop]; (destruct (i <? count_ a); [|reflexivity]); [reflexivity|].
  rewrite fst_turn, fst_next, fst_still. apply bind_same. intros ai. cbv zeta. rewrite fst_next, fst_still. apply bind_same. intros d.
  rewrite fst_next, fst_still. apply bind_same. intros ds. apply IH.
Qed.

Lemma difference_same_result x y o : fst (l_difference x y o) = difference x y o.
Proof.
  unfold l_difference, difference. rewrite fst_next, compare_same. apply bind_same. intros c. destruct (c =? 0); [reflexivity|]. cbv zeta.
  destruct (match o with OutApart out => (Apart, out) | OutThis => (if c <? 0 then Smaller else Larger, x) | OutOther => (if c <? 0 then Larger else Smaller, y) end) as [t out].
  rewrite fst_next, difference_loop_same. apply bind_same. intros; reflexivity.
Qed.

Lemma all_same cc :
  (forall x d, fst (l_add_word x d) = add_word x d) /\
  (forall x d, fst (l_mul_word cc x d) = mul_word cc x d) /\
  (forall x d, fst (l_mul_word32 x d) = mul_word32 x d) /\
  (forall x s, fst (l_shift_left x s) = shift_left x s) /\
  (forall x e, fst (l_mulPow5 cc x e) = mulPow5 cc x e) /\
  (forall s, fst (l_BigInteger_decimals cc s) = BigInteger_decimals cc s) /\
  (forall x y, fst (l_compare x y) = compare x y) /\
  (forall x y o, fst (l_difference x y o) = difference x y o).
Proof.
  split; [exact add_word_same|]. split; [intros; apply multiply_same|]. split; [intros; apply multiply_same|]. split; [exact shift_left_same|].
  split; [apply mulPow5_same|]. split; [apply decimals_same|]. split; [exact compare_same|exact difference_same_result].
Qed.

(** ** Multiplication *)

Lemma mul_turns step n : forall d i k, exists j, snd (l_mul_loop step n d i k) = repeat Word j /\ (j <= n)%nat /\
  (forall r, fst (l_mul_loop step n d i k) = Ok r -> j = n).
Proof.
  induction n as [|n IH]; intros d i k; cbn [l_mul_loop]; [exists 0%nat; split; [reflexivity|]; split; [lia|reflexivity]|].
  rewrite snd_turn, snd_still_next, fst_turn, fst_next, fst_still.
  destruct (word_read d i) as [w| | |]; cbn [bind]; try (exists 1%nat; split; [reflexivity|]; split; [lia|]; discriminate).
  destruct (step w k) as [lo hi]. rewrite snd_still_next, fst_next, fst_still.
  destruct (word_write d i lo) as [ds| | |]; cbn [bind]; try (exists 1%nat; split; [reflexivity|]; split; [lia|]; discriminate).
  destruct (IH ds (i + 1) hi) as (j & E & L & X). exists (S j). rewrite E. split; [reflexivity|]. split; [lia|]. intros r R. f_equal. exact (X r R).
Qed.

Lemma multiply_turns step x d : exists j, snd (l_multiply step x d) = repeat Word j /\ Z.of_nat j <= Z.max 0 (count_ x).
Proof.
  unfold l_multiply. destruct (d =? 0); [exists 0%nat; split; [reflexivity|lia]|]. destruct (d =? 1); [exists 0%nat; split; [reflexivity|lia]|].
  rewrite snd_still_next. destruct (equal_word x 1) as [[|]| | |]; try (exists 0%nat; split; [reflexivity|lia]).
  rewrite snd_next. destruct (mul_turns step (Z.to_nat (count_ x)) (digits_ x) 0 0) as (j & E & L & _). exists j. rewrite E.
  split; [|lia]. destruct (fst _) as [[ds k]| | |]; cbn [still snd]; apply app_nil_r.
Qed.

Lemma multiply_exact step x n d : good_step d step -> holds x n -> word d ->
  snd (l_multiply step x d) = repeat Word (if (d =? 0) || (d =? 1) || (n =? 1) then 0%nat else Z.to_nat (count_ x)).
Proof.
  intros G H W. unfold l_multiply. destruct (Z.eqb_spec d 0) as [|D0]; [reflexivity|]. destruct (Z.eqb_spec d 1) as [|D1]; [reflexivity|]. cbn [orb].
  rewrite snd_still_next. pose proof H as H0. apply holds_rep in H. destruct H as (ws & R & N & V).
  rewrite (equal_word_ok x ws 1 R N) by (split; [lia|reflexivity]). rewrite V. destruct (Z.eqb_spec n 1); [reflexivity|].
  rewrite snd_next. destruct (mul_turns step (Z.to_nat (count_ x)) (digits_ x) 0 0) as (j & E & L & X). rewrite mul_loop_same in *.
  destruct R as (rest & A & B & C & ND & F). unfold word in W.
  destruct (mul_loop_ok d step ltac:(lia) G ws [] 0 rest F ltac:(lia)) as (r & h & Lr & Hr & Hh & Vr & Er).
  change (Z.of_nat (length [])) with 0 in Er. cbn [app] in Er. rewrite <- A in Er. replace (length ws) with (Z.to_nat (count_ x)) in Er by lia.
  rewrite Er in *. rewrite E, (X _ eq_refl). cbn [still snd]. apply app_nil_r.
Qed.

(** ** Addition *)

Lemma add_turns_any n : forall x i b, exists j, snd (l_add_loop n x i b) = repeat Word j /\ (j <= n)%nat.
Proof.
  induction n as [|n IH]; intros x i b; cbn [l_add_loop]; [exists 0%nat; split; [reflexivity|lia]|].
  rewrite snd_turn, snd_still_next. destruct (word_read (digits_ x) i) as [w| | |]; try (exists 1%nat; split; [reflexivity|lia]).
  destruct (b <=? w); [exists 1%nat; split; [reflexivity|lia]|]. rewrite snd_still_next.
  destruct (word_read (digits_ x) (i + 1)) as [v| | |]; try (exists 1%nat; split; [reflexivity|lia]). rewrite snd_still_next.
  destruct (word_write _ _ _) as [ds| | |]; try (exists 1%nat; split; [reflexivity|lia]).
  destruct (IH (Big ds (count_ x)) (i + 1) v) as (j & E & L). exists (S j). rewrite E. split; [reflexivity|lia].
Qed.

Lemma add_word_turns x d : exists j, snd (l_add_word x d) = repeat Word j /\ Z.of_nat j <= Z.max 0 (count_ x - 1).
Proof.
  unfold l_add_word. rewrite snd_still_next. destruct (word_read _ _); try (exists 0%nat; split; [reflexivity|lia]).
  rewrite snd_still_next. destruct (word_write _ _ _); try (exists 0%nat; split; [reflexivity|lia]).
  destruct (add_turns_any (Z.to_nat (count_ x - 1)) (Big a0 (count_ x)) 0 a) as (j & E & L). exists j. split; [exact E|lia].
Qed.

Lemma add_turns q : forall p w backup rest c, word w -> word backup -> Forall word q ->
  let x := w + (if w <? backup then W else 0) in
  exists j, snd (l_add_loop (length q) (Big (map Some (p ++ w :: q) ++ rest) c) (Z.of_nat (length p)) backup) = repeat Word j /\
    (j <= length q)%nat /\ (q <> [] -> (1 <= j)%nat) /\
    (forall i, (S i < j)%nat -> Wp (S i) <= x + W * words_value (firstn i q)) /\
    (forall i, j = S i -> (j < length q)%nat -> x + W * words_value (firstn i q) < Wp (S i)).
Proof.
  induction q as [|v q IH]; intros p w backup rest c Hw Hb Hq x; cbn [length l_add_loop digits_ count_].
  { exists 0%nat. split; [reflexivity|]. split; [lia|]. split; [contradiction|]. split; intros i; lia. }
  inversion Hq as [|? ? Hv Hq']; subst. rewrite snd_turn, snd_still_next, (word_read_words p w) by reflexivity.
  destruct (Z.leb_spec backup w) as [C|C].
  { exists 1%nat. split; [reflexivity|]. split; [lia|]. split; [lia|]. split; [intros i; lia|]. intros i Ei _. assert (i = 0%nat) by lia. subst i.
    cbn [firstn words_value]. unfold x. destruct (Z.ltb_spec w backup); [lia|]. rewrite Wp_S, Wp_0. unfold word in Hw. lia. }
  rewrite snd_still_next.
  assert (E1 : word_read (map Some (p ++ w :: v :: q) ++ rest) (Z.of_nat (length p) + 1) = Ok v).
  { replace (p ++ w :: v :: q) with ((p ++ [w]) ++ v :: q) by (rewrite <- app_assoc; reflexivity).
    apply word_read_words. rewrite app_length. cbn. lia. }
  rewrite E1, snd_still_next.
  assert (E2 : word_write (map Some (p ++ w :: v :: q) ++ rest) (Z.of_nat (length p) + 1) (u64 (v + 1)) =
               Ok (map Some ((p ++ [w]) ++ u64 (v + 1) :: q) ++ rest)).
  { replace (p ++ w :: v :: q) with ((p ++ [w]) ++ v :: q) by (rewrite <- app_assoc; reflexivity).
    apply word_write_words. rewrite app_length. cbn. lia. }
  rewrite E2. pose proof (add_carry v 1 Hv ltac:(unfold word; split; [lia|reflexivity])) as [Hs Es].
  replace (Z.of_nat (length p) + 1) with (Z.of_nat (length (p ++ [w]))) by (rewrite app_length; cbn; lia).
  destruct (IH (p ++ [w]) (u64 (v + 1)) v rest c Hs Hv Hq') as (j & E & L & P & Q & R). rewrite <- Es in Q, R.
  exists (S j). rewrite E. split; [reflexivity|]. split; [lia|]. split; [lia|].
  assert (X : x = w + W) by (unfold x; destruct (Z.ltb_spec w backup); [reflexivity|lia]). unfold word in Hw. split.
  - intros [|i] Hi; [cbn [firstn words_value]; rewrite X, Wp_S, Wp_0; lia|].
    cbn [firstn]. rewrite wv_cons, Wp_S. specialize (Q i ltac:(lia)). rewrite X. nia.
  - intros i Ei Lj. assert (i = j) by lia. subst i. destruct j as [|i].
    + destruct q; [cbn in Lj; lia|]. specialize (P ltac:(discriminate)). lia.
    + cbn [firstn]. rewrite wv_cons, Wp_S. specialize (R i eq_refl ltac:(lia)). rewrite X. nia.
Qed.

Lemma mod_Wp ws i : Forall word ws -> (i <= length ws)%nat -> words_value ws mod Wp i = words_value (firstn i ws).
Proof.
  intros F L. rewrite <- (firstn_skipn i ws) at 1. rewrite wv_app, firstn_length, Nat.min_l by exact L. rewrite Z.mul_comm, Z_mod_plus_full.
  apply Z.mod_small. assert (Forall word (firstn i ws)) as X by (rewrite <- (firstn_skipn i ws) in F; apply Forall_app in F; apply F).
  apply wv_bounds in X. rewrite firstn_length, Nat.min_l in X by exact L. exact X.
Qed.

Lemma add_work b n d : holds_number (digits_ b) (count_ b) n -> 0 <= d < 2 ^ 64 ->
  exists k, snd (l_add_word b d) = repeat Word (Z.to_nat k) /\ 0 <= k <= count_ b - 1 /\ (1 < count_ b -> 1 <= k) /\
    (forall j, 1 <= j < k -> 2 ^ (64 * j) <= n mod 2 ^ (64 * j) + d) /\
    (k < count_ b - 1 -> n mod 2 ^ (64 * k) + d < 2 ^ (64 * k)).
Proof.
  intros H Hd. fold (holds b n) in H. apply holds_rep in H. destruct H as (ws & (rest & A & B & C & D & E) & N & V).
  destruct b as [ds c]; cbn [digits_ count_] in *. subst ds c. destruct ws as [|w q]; [contradiction|]. inversion E as [|? ? Hw Hq]; subst.
  unfold l_add_word. cbn [digits_ count_]. rewrite snd_still_next. change (w :: q) with ([] ++ w :: q) at 1. rewrite (word_read_words [] w q rest 0 eq_refl).
  rewrite snd_still_next. change (w :: q) with ([] ++ w :: q) at 1. rewrite (word_write_words [] w q rest _ 0 eq_refl).
  cbn [length]. replace (Z.to_nat (Z.of_nat (S (length q)) - 1)) with (length q) by lia.
  destruct (add_carry w d Hw Hd) as [Hs Es].
  destruct (add_turns q [] (u64 (w + d)) w rest (Z.of_nat (S (length q))) Hs Hw Hq) as (j & EJ & L & P & Q & R).
  change (Z.of_nat (length [])) with 0 in EJ. cbn [app length] in *. rewrite <- Es in Q, R. exists (Z.of_nat j). rewrite Nat2Z.id.
  split; [exact EJ|]. split; [lia|]. split; [intros X; destruct q; [cbn in X; lia|]; specialize (P ltac:(discriminate)); lia|].
  assert (M : forall i, (i <= length q)%nat -> words_value (w :: q) mod 2 ^ (64 * Z.of_nat (S i)) + d = w + d + W * words_value (firstn i q)).
  { intros i Hi. rewrite <- Wp_pow, mod_Wp by (exact E || (cbn [length]; lia)). cbn [firstn]. rewrite wv_cons. lia. }
  split.
  - intros i Hi. replace i with (Z.of_nat (S (Z.to_nat (i - 1)))) by lia. rewrite M by lia. rewrite <- Wp_pow. apply Q. lia.
  - intros X. destruct j as [|i]; [destruct q; [cbn in X; lia|]; specialize (P ltac:(discriminate)); lia|].
    rewrite M by lia. rewrite <- Wp_pow. apply R; [reflexivity|lia].
Qed.

(** ** Shift *)

Lemma shift_turns n : forall d o s, exists j, snd (l_shift_loop n d o s) = repeat Word j /\ (j <= n)%nat /\
  (forall r, fst (l_shift_loop n d o s) = Ok r -> j = n).
Proof.
  induction n as [|n IH]; intros d o s; cbn [l_shift_loop]; [exists 0%nat; split; [reflexivity|]; split; [lia|reflexivity]|].
  rewrite snd_turn, snd_still_next, fst_turn, fst_next, fst_still.
  match goal with |- context [bind ?M (fun d0 => fst (l_shift_loop n d0 o s))] => destruct M as [ds| | |] end; cbn [bind];
    try (exists 1%nat; split; [reflexivity|]; split; [lia|]; discriminate).
  destruct (IH ds o s) as (j & E & L & X). exists (S j). rewrite E. split; [reflexivity|]. split; [lia|]. intros r R. f_equal. exact (X r R).
Qed.

Lemma shift_left_turns x s : exists j, snd (l_shift_left x s) = repeat Word j /\ Z.of_nat j <= Z.max 0 (count_ x) /\
  (s mod 64 = 0 -> j = 0%nat) /\
  (forall y, big_isZero x = Ok false -> s mod 64 <> 0 -> shift_left x s = Ok y -> j = Z.to_nat (count_ x)).
Proof.
  rewrite <- shift_left_same. unfold l_shift_left. rewrite snd_still_next, fst_next, fst_still.
  destruct (big_isZero x) as [z| | |]; cbn [bind]; try (exists 0%nat; split; [reflexivity|]; split; [lia|]; split; [reflexivity|]; discriminate).
  destruct (z || (s =? 0)) eqn:Z0.
  { exists 0%nat. split; [reflexivity|]. split; [lia|]. split; [reflexivity|]. intros y Ez M _. exfalso. injection Ez as ->. cbn [orb] in Z0.
    apply Z.eqb_eq in Z0. subst s. apply M. reflexivity. }
  cbv zeta. destruct (_ <=? capacity) eqn:CAP; [|exists 0%nat; split; [reflexivity|]; split; [lia|]; split; [reflexivity|]; discriminate].
  rewrite snd_next, fst_next. change INT64_BYTE with 64. destruct (Z.eqb_spec (s mod 64) 0) as [M|M].
  { exists 0%nat. split; [|split; [lia|]; split; [reflexivity|]; intros; contradiction]. cbn [still fst snd app]. destruct (bind _ _); reflexivity. }
  rewrite snd_still_next, fst_next, fst_still. destruct (word_write _ _ _) as [ds| | |]; cbn [bind];
    try (exists 0%nat; split; [reflexivity|]; split; [lia|]; split; [reflexivity|]; discriminate).
  rewrite snd_next, fst_next. destruct (shift_turns (Z.to_nat (count_ x)) ds (s / 64) (s mod 64)) as (j & E & L & X). rewrite E.
  exists j. split; [|split; [lia|]; split; [contradiction|]].
  - destruct (fst (l_shift_loop _ _ _ _)); cbn [bind still fst snd]; rewrite ?app_nil_r; try reflexivity.
    destruct (bind _ _); apply app_nil_r.
  - intros y _ _ R. destruct (fst (l_shift_loop _ _ _ _)) as [r| | |]; try discriminate R. exact (X r eq_refl).
Qed.

Lemma shift_work b n s : holds_number (digits_ b) (count_ b) n -> 0 <= s ->
  (taken Word (snd (l_shift_left b s)) <= count_ b) /\
  (count_ b + s / 64 <> 416 ->
    snd (l_shift_left b s) = repeat Word (if (n =? 0) || (s mod 64 =? 0) || (416 <? count_ b + s / 64) then 0%nat else Z.to_nat (count_ b))).
Proof.
  intros H S. fold (holds b n) in H. destruct (count_of b n H) as (C & _). destruct (shift_left_turns b s) as (j & E & L & M & X). rewrite E. split.
  { rewrite taken_repeat. cbn [work_eqb]. lia. }
  intros NC. f_equal. pose proof (big_isZero_ok b n H) as Z0. destruct (Z.eqb_spec n 0) as [->|NZ]; cbn [orb].
  { unfold l_shift_left in E. rewrite snd_still_next, Z0 in E. cbn in E. destruct j; [reflexivity|discriminate E]. }
  destruct (Z.eqb_spec (s mod 64) 0) as [MZ|MZ]; [exact (M MZ)|]. cbn [orb]. destruct (Z.ltb_spec 416 (count_ b + s / 64)) as [G|G].
  { unfold l_shift_left in E. rewrite snd_still_next, Z0 in E. cbn [orb] in E. destruct (s =? 0); [destruct j; [reflexivity|discriminate E]|].
    cbv zeta in E. change INT64_BYTE with 64 in E. change capacity with 416 in E. destruct (Z.leb_spec (count_ b + s / 64) 416); [lia|]. destruct j; [reflexivity|discriminate E]. }
  destruct (shift_inter b n s H NZ S MZ) as (y & Ey & _); [change capacity with 416; lia|]. exact (X y Z0 MZ Ey).
Qed.

(** ** Comparison *)

Lemma compare_turns u : forall v r1 r2, length u = length v ->
  exists j, snd (l_compare_loop (length u) (map Some u ++ r1) (map Some v ++ r2)) = repeat Word j /\
    (j <= length u)%nat /\ (u <> [] -> (1 <= j)%nat) /\
    (forall i, (length u - j < i < length u)%nat -> nth i u 0 = nth i v 0) /\
    ((1 <= j < length u)%nat -> nth (length u - j) u 0 <> nth (length u - j) v 0).
Proof.
  induction u as [|a u IH] using rev_ind; intros v r1 r2 L.
  - exists 0%nat. split; [reflexivity|]. split; [lia|]. split; [contradiction|]. split; [cbn; lia|lia].
  - destruct (exists_last (l := v)) as (v' & b & ->); [intros ->; rewrite app_length in L; cbn in L; lia|].
    rewrite !app_length in L. cbn [length] in L. assert (L' : length u = length v') by lia.
    rewrite app_length. cbn [length]. rewrite Nat.add_1_r. cbn [l_compare_loop]. rewrite snd_turn, snd_still_next.
    rewrite (word_read_words u a [] r1) by reflexivity. rewrite snd_still_next. rewrite (word_read_words v' b [] r2) by lia.
    rewrite !map_app, <- !app_assoc. cbn [map app]. destruct (IH v' (Some a :: r1) (Some b :: r2) L') as (j & E & LJ & P & Q & R).
    destruct (Z.eqb_spec a b) as [->|Nab].
    + exists (S j). rewrite E. split; [reflexivity|]. split; [lia|]. split; [lia|]. split.
      * intros i Hi. destruct (Nat.eq_dec i (length u)) as [->|NE]; [rewrite app_nth2, L', app_nth2, !Nat.sub_diag by lia; reflexivity|].
        rewrite !app_nth1 by lia. apply Q. lia.
      * intros Hj. destruct j as [|j]; [destruct u; [cbn in Hj; lia|]; specialize (P ltac:(discriminate)); lia|].
        replace (S (length u) - S (S j))%nat with (length u - S j)%nat by lia. rewrite !app_nth1 by lia. apply R. lia.
    + exists 1%nat. split; [reflexivity|]. split; [lia|]. split; [lia|]. split; [intros i Hi; lia|]. intros _.
      replace (S (length u) - 1)%nat with (length u) by lia. rewrite app_nth2, L', app_nth2, !Nat.sub_diag by lia. exact Nab.
Qed.

Lemma nth_word_nth ws n i : Forall word ws -> words_value ws = n -> 0 <= i -> nth_word n i = nth (Z.to_nat i) ws 0.
Proof. intros F <- I. rewrite nth_word_of by exact F. unfold nth_word, word_of. rewrite Wp_pow, Z2Nat.id by exact I. reflexivity. Qed.

Lemma compare_work x y n m : holds_number (digits_ x) (count_ x) n -> holds_number (digits_ y) (count_ y) m ->
  (count_ x <> count_ y -> snd (l_compare x y) = []) /\
  (count_ x = count_ y -> exists k, snd (l_compare x y) = repeat Word (Z.to_nat k) /\ 1 <= k <= count_ x /\
     (forall i, count_ x - k < i < count_ x -> nth_word n i = nth_word m i) /\
     (k < count_ x -> nth_word n (count_ x - k) <> nth_word m (count_ x - k))).
Proof.
  intros Hx Hy. fold (holds x n) in Hx. fold (holds y m) in Hy.
  apply holds_rep in Hx. destruct Hx as (u & (r1 & A1 & B1 & C1 & D1 & E1) & N1 & V1).
  apply holds_rep in Hy. destruct Hy as (v & (r2 & A2 & B2 & C2 & D2 & E2) & N2 & V2).
  unfold l_compare. split; intros E.
  - destruct (Z.eqb_spec (count_ x) (count_ y)); [contradiction|]. reflexivity.
  - destruct (Z.eqb_spec (count_ x) (count_ y)); [|contradiction]. rewrite A1, A2, C1, Nat2Z.id.
    destruct (compare_turns u v r1 r2 ltac:(lia)) as (j & EJ & L & P & Q & R). specialize (P D1). exists (Z.of_nat j). rewrite Nat2Z.id.
    split; [exact EJ|]. split; [lia|]. split.
    + intros i Hi. rewrite (nth_word_nth u n), (nth_word_nth v m) by (assumption || lia). apply Q. lia.
    + intros Hj. rewrite (nth_word_nth u n), (nth_word_nth v m) by (assumption || lia).
      replace (Z.to_nat (Z.of_nat (length u) - Z.of_nat j)) with (length u - j)%nat by lia. apply R. lia.
Qed.

(** ** Difference *)

Lemma difference_turns fuel : forall t a b out i k, (t = Larger -> count_ out = count_ a) ->
  exists j, snd (l_difference_loop fuel t a b out i k) = repeat Word j /\ Z.of_nat j <= Z.max 0 (count_ a - i) /\
    (t <> Larger -> forall r, fst (l_difference_loop fuel t a b out i k) = Ok r -> Z.of_nat j = Z.max 0 (count_ a - i)).
Proof.
  induction fuel as [|fuel IH]; intros t a b out i k T; cbn [l_difference_loop]; (destruct (Z.ltb_spec i (count_ a)) as [G|G];
    [|exists 0%nat; split; [reflexivity|]; split; [lia|]; intros; lia]).
  { exists 0%nat. split; [reflexivity|]. split; [lia|]. discriminate. }
  rewrite snd_turn, snd_still_next, fst_turn, fst_next, fst_still.
  destruct (word_read (digits_ a) i) as [ai| | |]; cbn [bind]; try (exists 1%nat; split; [reflexivity|]; split; [lia|]; discriminate).
  cbv zeta. rewrite snd_still_next, fst_next, fst_still.
  remember (if i <? count_ b then (let* bi := word_read (digits_ b) i in Ok (u64 (u64 (ai - k) - bi))) else Ok (u64 (ai - k))) as M eqn:EM. clear EM.
  destruct M as [d| | |]; cbn [bind]; try (exists 1%nat; split; [reflexivity|]; split; [lia|]; discriminate).
  rewrite snd_still_next, fst_next, fst_still.
  destruct (word_write (digits_ out) i d) as [ds| | |]; cbn [bind]; try (exists 1%nat; split; [reflexivity|]; split; [lia|]; discriminate).
  set (out' := Big ds (if d =? 0 then count_ out else i + 1)). set (kk := if ai <? d then 1 else 0).
  destruct (IH t (match t with Larger => out' | _ => a end) (match t with Smaller => out' | _ => b end) out' (i + 1) kk) as (j & E & L & X).
  { intros ->. reflexivity. }
  exists (S j). rewrite E. split; [reflexivity|]. split.
  - destruct t; try lia. specialize (T eq_refl). unfold out' in L. cbn [count_] in L. destruct (d =? 0); lia.
  - intros NT r R. specialize (X NT r R). destruct t; try contradiction; lia.
Qed.

Lemma count_mono x y n m : holds x n -> holds y m -> m <= n -> count_ y <= count_ x.
Proof.
  intros Hx Hy L. destruct (count_of x n Hx) as (C1 & U1 & _ & _). destruct (count_of y m Hy) as (C2 & _ & Z2 & L2).
  destruct (Z.eq_dec m 0) as [E|E]; [rewrite (Z2 E); lia|]. specialize (L2 E).
  assert (2 ^ (64 * (count_ y - 1)) < 2 ^ (64 * count_ x)) as Q by lia. apply Z.pow_lt_mono_r_iff in Q; lia.
Qed.

Lemma difference_work x y out n m : holds_number (digits_ x) (count_ x) n -> holds_number (digits_ y) (count_ y) m -> n <> m ->
  Z.of_nat (length (digits_ out)) = 416 ->
  snd (l_difference x y (OutApart out)) = snd (l_compare x y) ++ repeat Word (Z.to_nat (Z.max (count_ x) (count_ y))).
Proof.
  intros Hx Hy N LO. unfold l_difference. rewrite snd_next, compare_same, (compare_ok x y n m Hx Hy). f_equal.
  assert (S0 : (sign_of (n ?= m) =? 0) = false /\ (sign_of (n ?= m) <? 0) = (n <? m)).
  { destruct (Z.compare_spec n m); [contradiction| |]; destruct (Z.ltb_spec n m); try lia; split; reflexivity. }
  destruct S0 as [-> ->]. cbv zeta. rewrite snd_next.
  set (a := if n <? m then y else x). set (b := if n <? m then x else y).
  destruct (difference_turns (Z.to_nat capacity) Apart a b out 0 0 ltac:(discriminate)) as (j & E & L & X). rewrite E, difference_loop_same in *.
  assert (R : exists r, difference_loop (Z.to_nat capacity) Apart a b out 0 0 = Ok r).
  { unfold a, b. destruct (Z.ltb_spec n m).
    - destruct (difference_words y x out m n Hy Hx ltac:(lia) LO) as (o & r & Eo & _). eauto.
    - destruct (difference_words x y out n m Hx Hy ltac:(lia) LO) as (o & r & Eo & _). eauto. }
  destruct R as (r & Er). rewrite Er in *. specialize (X ltac:(discriminate) r eq_refl). cbn [still snd]. rewrite app_nil_r. f_equal.
  destruct (count_of x n Hx) as (C1 & _). destruct (count_of y m Hy) as (C2 & _).
  unfold a in X. destruct (Z.ltb_spec n m).
  - pose proof (count_mono y x m n Hy Hx ltac:(lia)). lia.
  - pose proof (count_mono x y n m Hx Hy ltac:(lia)). lia.
Qed.

Lemma difference_bound x y o : taken Word (snd (l_difference x y o)) <= 2 * Z.max 0 (Z.max (count_ x) (count_ y)).
Proof.
  assert (CW : exists j, snd (l_compare x y) = repeat Word j /\ Z.of_nat j <= Z.max 0 (count_ x)).
  { unfold l_compare. destruct (_ =? _); [|exists 0%nat; split; [reflexivity|lia]].
    enough (forall n d s, exists j, snd (l_compare_loop n d s) = repeat Word j /\ (j <= n)%nat) as G.
    { destruct (G (Z.to_nat (count_ x)) (digits_ x) (digits_ y)) as (j & E & L). exists j. split; [exact E|lia]. }
    induction n as [|n IH]; intros d s; cbn [l_compare_loop]; [exists 0%nat; split; [reflexivity|lia]|].
    rewrite snd_turn, snd_still_next. destruct (word_read d _); try (exists 1%nat; split; [reflexivity|lia]).
    rewrite snd_still_next. destruct (word_read s _); try (exists 1%nat; split; [reflexivity|lia]).
    destruct (_ =? _); [|exists 1%nat; split; [reflexivity|lia]]. destruct (IH d s) as (j & E & L). exists (S j). rewrite E. split; [reflexivity|lia]. }
  destruct CW as (j & E & L). unfold l_difference. rewrite snd_next, taken_app, E, taken_repeat. cbn [work_eqb].
  destruct (fst (l_compare x y)) as [c| | |]; cbn [taken]; try lia. destruct (c =? 0); [cbn [still snd taken]; lia|]. cbv zeta.
  set (a := if c <? 0 then y else x). set (b := if c <? 0 then x else y).
  enough (forall t out, (t = Larger -> count_ out = count_ a) ->
    taken Word (snd (next (l_difference_loop (Z.to_nat capacity) t a b out 0 0) (fun out => still (Ok (out, c <? 0))))) <= Z.max 0 (Z.max (count_ x) (count_ y))) as G.
  { destruct o as [out| |]; cbn iota.
    - pose proof (G Apart out ltac:(discriminate)). lia.
    - pose proof (G (if c <? 0 then Smaller else Larger) x) as Q. specialize (Q ltac:(intros X; unfold a; destruct (c <? 0); [discriminate X|reflexivity])). lia.
    - pose proof (G (if c <? 0 then Larger else Smaller) y) as Q. specialize (Q ltac:(intros X; unfold a; destruct (c <? 0); [reflexivity|discriminate X])). lia. }
  intros t out T. rewrite snd_next, taken_app. destruct (difference_turns (Z.to_nat capacity) t a b out 0 0 T) as (i & EI & LI & _). rewrite EI, taken_repeat.
  cbn [work_eqb]. unfold a in LI. destruct (fst _); cbn [still snd taken]; destruct (c <? 0); lia.
Qed.

(** ** Powers of five *)

Lemma multiply_kinds step x d w : w <> Word -> taken w (snd (l_multiply step x d)) = 0.
Proof. intros N. destruct (multiply_turns step x d) as (j & -> & _). rewrite taken_repeat. destruct w; (reflexivity || contradiction). Qed.

Lemma multiply_words step x d : taken Word (snd (l_multiply step x d)) <= Z.max 0 (count_ x).
Proof. destruct (multiply_turns step x d) as (j & -> & L). rewrite taken_repeat. exact L. Qed.

Lemma pow5_turns lm m step : 1 <= step -> (forall x, fst (lm x) = m x) ->
  (forall x, taken Power (snd (lm x)) = 0) -> (forall b n, holds b n -> taken Word (snd (lm b)) <= 416) ->
  (forall b n, holds b n -> exact_or_throw (m b) (n * 5 ^ step)) ->
  forall fuel x e n, holds x n -> 0 <= e ->
  let r := l_pow5_loop lm step fuel x e in
  taken Power (snd r) <= e / step /\ taken Word (snd r) <= 416 * taken Power (snd r) /\
  (forall x' e', fst r = Ok (x', e') -> taken Power (snd r) = e / step /\ e' = e mod step /\ exists n', holds x' n').
Proof.
  intros S1 SM P0 W1 EX. induction fuel as [|fuel IH]; intros x e n H He r; unfold r; clear r; cbn [l_pow5_loop];
    (destruct (Z.leb_spec step e) as [L|L];
     [|rewrite Z.div_small, Z.mod_small by lia; cbn [still snd fst taken]; split; [lia|]; split; [lia|]; intros x' e' E; injection E as <- <-; split; [reflexivity|]; split; [reflexivity|]; exists n; exact H]).
  { cbn [still snd fst taken]. assert (0 <= e / step) by (apply Z.div_pos; lia). split; [lia|]. split; [lia|]. discriminate. }
  assert (D : e / step = 1 + (e - step) / step).
  { replace e with (e - step + 1 * step) at 1 by lia. rewrite Z.div_add by lia. lia. }
  assert (M : e mod step = (e - step) mod step).
  { replace e with (e - step + 1 * step) at 1 by lia. apply Z.mod_add. lia. }
  assert (D0 : 0 <= (e - step) / step) by (apply Z.div_pos; lia).
  pose proof (W1 x n H) as WX. rewrite snd_turn, snd_next, fst_turn, fst_next. cbn [taken work_eqb]. rewrite !taken_app, P0, SM.
  destruct (EX x n H) as [(_ & b & Eb & Hb)|(_ & w & Ew)].
  - rewrite Eb. cbn [bind]. destruct (IH b (e - step) _ Hb ltac:(lia)) as (A & B & C). rewrite D, M. split; [lia|]. split; [lia|].
    intros x' e' E. destruct (C x' e' E) as (C1 & C2 & C3). split; [lia|]. split; [exact C2|exact C3].
  - rewrite Ew. cbn [bind taken]. rewrite D. split; [lia|]. split; [lia|]. discriminate.
Qed.

Lemma power_work cc b n e : holds_number (digits_ b) (count_ b) n -> 0 <= e ->
  let t := snd (l_mulPow5 cc b e) in
  taken Power t <= e / 27 + e mod 27 / 13 /\ taken Word t <= 416 * (taken Power t + 1) /\
  (forall b', mulPow5 cc b e = Ok b' -> taken Power t = e / 27 + e mod 27 / 13).
Proof.
  intros H He t. unfold t. clear t. fold (holds b n) in H. rewrite <- mulPow5_same. unfold l_mulPow5.
  destruct (Z.eqb_spec e 0) as [->|NZ]; [cbn [still snd fst taken]; split; [discriminate|]; split; [lia|reflexivity]|]. cbv zeta.
  assert (CB : forall b n, holds b n -> Z.max 0 (count_ b) <= 416) by (intros b' n' H'; destruct (count_of b' n' H') as (C & _); lia).
  pose proof (pow5_turns (fun x => l_mul_word cc x 0x6765C793FA10079D) (fun x => mul_word cc x 0x6765C793FA10079D) 27 ltac:(lia)
    ltac:(intros; apply multiply_same) ltac:(intros; apply multiply_kinds; discriminate)
    ltac:(intros b' n' H'; pose proof (CB b' n' H'); eapply Z.le_trans; [apply multiply_words|]; assumption)
    ltac:(intros b' n' H'; apply (mul_word_ok cc b' n' (5 ^ 27) H'); split; [discriminate|reflexivity])
    (Z.to_nat e) b e n H He) as (A1 & B1 & C1).
  cbv zeta in C1. set (r := l_pow5_loop _ 27 _ b e) in *. clearbody r.
  assert (M1 : 0 <= e mod 27 < 27) by (apply Z.mod_pos_bound; lia). assert (M2 : 0 <= e mod 27 / 13) by (apply Z.div_pos; lia).
  rewrite snd_next, fst_next, !taken_app. destruct (fst r) as [[x1 e1]| | |]; cbn [bind taken];
    try (split; [lia|]; split; [lia|]; discriminate).
  destruct (C1 x1 e1 eq_refl) as (C2 & -> & n1 & H1).
  pose proof (pow5_turns (fun x => l_mul_word32 x 1220703125) (fun x => mul_word32 x 1220703125) 13 ltac:(lia)
    ltac:(intros; apply multiply_same) ltac:(intros; apply multiply_kinds; discriminate)
    ltac:(intros b' n' H'; pose proof (CB b' n' H'); eapply Z.le_trans; [apply multiply_words|]; assumption)
    ltac:(intros b' n' H'; apply (mul_word32_ok b' n' (5 ^ 13) H'); split; [discriminate|reflexivity])
    (Z.to_nat e) x1 (e mod 27) n1 H1 ltac:(lia)) as (A3 & B3 & C3).
  cbv zeta in C3. set (r2 := l_pow5_loop _ 13 _ x1 (e mod 27)) in *. clearbody r2.
  rewrite snd_next, fst_next, !taken_app. destruct (fst r2) as [[x2 e2]| | |]; cbn [bind taken];
    try (split; [lia|]; split; [lia|]; discriminate).
  destruct (C3 x2 e2 eq_refl) as (C4 & -> & n2 & H2).
  destruct (0 <? _); [|cbn [still snd fst taken]; split; [lia|]; split; [lia|]; intros; lia].
  destruct (in_range _ _); [|cbn [still snd fst taken]; split; [lia|]; split; [lia|]; discriminate].
  unfold l_mul_word32. rewrite multiply_kinds by discriminate.
  pose proof (multiply_words (mul32_step (nth (Z.to_nat (e mod 27 mod 13 - 1)) POWER5 0)) x2 (nth (Z.to_nat (e mod 27 mod 13 - 1)) POWER5 0)) as MW. pose proof (CB x2 n2 H2).
  split; [lia|]. split; [lia|]. intros; lia.
Qed.

(** ** Decimal text *)

Lemma count_below b n k : holds b n -> 1 <= k -> n < 2 ^ (64 * k) -> count_ b <= k.
Proof.
  intros H K L. destruct (count_of b n H) as (C & _ & Z0 & Lw). destruct (Z.eq_dec n 0) as [E|E]; [rewrite (Z0 E); lia|]. specialize (Lw E).
  assert (2 ^ (64 * (count_ b - 1)) < 2 ^ (64 * k)) as Q by lia. apply Z.pow_lt_mono_r_iff in Q; lia.
Qed.

Lemma count_times b n b' f : holds b n -> holds b' (n * f) -> 0 <= f <= 2 ^ 64 -> count_ b' <= count_ b + 1.
Proof.
  intros H H' F. destruct (count_of b n H) as (C & U & _ & _). apply (count_below b' (n * f)); [exact H'|lia|].
  replace (64 * (count_ b + 1)) with (64 * count_ b + 64) by lia. rewrite Z.pow_add_r by lia.
  pose proof (holds_bounds b n H). assert (0 < 2 ^ 64) by reflexivity. nia.
Qed.

Lemma parse_turns p : forall r, exists j, snd (l_parse r p) = repeat Char j /\ (j <= length p)%nat /\
  (forall v, parse r p = Ok v -> j = length p /\ Forall is_digit p).
Proof.
  induction p as [|c p IH]; intros r; cbn [l_parse parse].
  { exists 0%nat. split; [reflexivity|]. split; [cbn; lia|]. intros; split; [reflexivity|constructor]. }
  rewrite snd_turn. destruct (Z.leb_spec 48 (code c)) as [A|A]; destruct (Z.leb_spec (code c) 57) as [B|B]; cbn [andb];
    try (exists 1%nat; split; [reflexivity|]; split; [cbn; lia|]; discriminate).
  destruct (IH (u64 (u64 (r * 10) + (code c - 48)))) as (j & E & L & X). exists (S j). rewrite E. split; [reflexivity|]. split; [cbn [length]; lia|].
  intros v V. destruct (X v V) as [-> F]. split; [reflexivity|]. constructor; [unfold is_digit; lia|exact F].
Qed.

(** A multiplication by 5^e with e up to 19 is one or two passes over the words. *)
Lemma small_power cc x n e : holds x n -> 1 <= e <= 19 ->
  let t := snd (l_mulPow5 cc x e) in
  taken Word t <= 2 * count_ x + 1 /\ taken Power t <= 1 /\ taken Char t = 0 /\ taken Group t = 0.
Proof.
  intros H E t. unfold t. clear t. destruct (count_of x n H) as (C & _). unfold l_mulPow5. destruct (Z.eqb_spec e 0); [lia|]. cbv zeta.
  destruct (Z.to_nat e) as [|fuel] eqn:F; [lia|]. cbn [l_pow5_loop]. destruct (Z.leb_spec 27 e); [lia|]. rewrite snd_still_next. cbn beta iota.
  destruct (Z.leb_spec 13 e) as [G|G].
  - rewrite snd_next, !taken_app, snd_turn, fst_turn, !snd_next, fst_next. cbn [taken work_eqb]. rewrite !taken_app.
    pose proof (multiply_words (mul32_step 1220703125) x 1220703125) as M1. fold (l_mul_word32 x 1220703125) in M1.
    assert (K : forall y d w, w <> Word -> taken w (snd (l_mul_word32 y d)) = 0) by (intros; apply multiply_kinds; assumption).
    rewrite (K x _ Char), (K x _ Power), (K x _ Group) by discriminate. change (fst (l_mul_word32 x 1220703125)) with (fst (l_multiply (mul32_step 1220703125) x 1220703125)). rewrite multiply_same.
    fold (mul_word32 x 1220703125).
    destruct (mul_word32_ok x n (5 ^ 13) H ltac:(split; [discriminate|reflexivity])) as [(_ & b & Eb & Hb)|(_ & w & Ew)].
    + change (5 ^ 13) with 1220703125 in *. rewrite Eb. pose proof (count_times x n b 1220703125 H Hb ltac:(lia)) as CB. destruct (count_of b _ Hb) as (C' & _).
      destruct fuel as [|fuel]; cbn [l_pow5_loop]; (destruct (Z.leb_spec 13 (e - 13)); [lia|]); cbn [still fst snd bind taken];
        (destruct (0 <? e - 13); [|cbn [still snd taken]; lia]); (destruct (in_range _ _); [|cbn [still snd taken]; lia]); rewrite (K b _ Char), (K b _ Power), (K b _ Group) by discriminate;
        match goal with |- context [taken Word (snd (l_mul_word32 b ?d))] => pose proof (multiply_words (mul32_step d) b d) as M2; fold (l_mul_word32 b d) in M2 end; lia.
    + change (5 ^ 13) with 1220703125 in *. rewrite Ew. cbn [bind taken]. lia.
  - rewrite snd_still_next. destruct (0 <? e); [|cbn [still snd taken]; lia]. destruct (in_range _ _); [|cbn [still snd taken]; lia].
    set (d := nth _ _ _). unfold l_mul_word32. pose proof (multiply_words (mul32_step d) x d).
    rewrite (multiply_kinds _ _ _ Char), (multiply_kinds _ _ _ Power), (multiply_kinds _ _ _ Group) by discriminate. lia.
Qed.

Lemma shift_kinds x s w : w <> Word -> taken w (snd (l_shift_left x s)) = 0.
Proof. intros N. destruct (shift_left_turns x s) as (j & -> & _). rewrite taken_repeat. destruct w; (reflexivity || contradiction). Qed.
Lemma add_word_kinds x d w : w <> Word -> taken w (snd (l_add_word x d)) = 0.
Proof. intros N. destruct (add_word_turns x d) as (j & -> & _). rewrite taken_repeat. destruct w; (reflexivity || contradiction). Qed.
Lemma shift_words x s : taken Word (snd (l_shift_left x s)) <= Z.max 0 (count_ x).
Proof. destruct (shift_left_turns x s) as (j & -> & L & _). rewrite taken_repeat. exact L. Qed.
Lemma add_word_words x d : taken Word (snd (l_add_word x d)) <= Z.max 0 (count_ x - 1).
Proof. destruct (add_word_turns x d) as (j & -> & L). rewrite taken_repeat. exact L. Qed.

(** One group of digits. *)
Lemma group_work cc x v p : holds x v -> (1 <= length p <= 19)%nat ->
  let t := snd (l_add cc x p) in
  taken Word t <= (if v =? 0 then 0 else 4 * count_ x + 2) /\ taken Power t <= 1 /\ taken Char t <= Z.of_nat (length p) /\ taken Group t = 0 /\
  (forall y, add cc x p = Ok y -> taken Char t = Z.of_nat (length p) /\ Forall is_digit p /\ holds y (v * 10 ^ Z.of_nat (length p) + numeral_value p)).
Proof.
  intros H L t. unfold t. clear t. destruct (count_of x v H) as (C & _). pose proof (holds_bounds x v H) as VB.
  assert (PL : 0 <= (if v =? 0 then 0 else 4 * count_ x + 2)) by (destruct (v =? 0); lia).
  unfold l_add, add. rewrite snd_next, !taken_app, parse_same. destruct (parse_turns p 0) as (j & E & LJ & X). rewrite E, !taken_repeat. cbn [work_eqb].
  destruct (parse 0 p) as [d| | |] eqn:EP; cbn [bind taken]; try (split; [lia|]; split; [lia|]; split; [lia|]; split; [lia|]; discriminate).
  destruct (X d eq_refl) as [-> F]. clear X. rewrite parse_digits in EP by (assumption || lia). injection EP as <-.
  pose proof (digits_word p F ltac:(lia)) as NW. rewrite snd_still_next, (big_isZero_ok x v H). cbn [bind].
  destruct (Z.eqb_spec v 0) as [->|NZ].
  { cbn [still snd taken]. split; [lia|]. split; [lia|]. split; [lia|]. split; [lia|]. intros y Ey. split; [lia|]. split; [exact F|].
    rewrite Z.mul_0_l, Z.add_0_l. apply holds_rep in H. destruct H as (ws & R & _). destruct (assign_word_ok x ws _ R NW) as (b' & Eb & Hb). congruence. }
  cbv zeta. set (e := Z.of_nat (length p)) in *. assert (BE : 1 <= e <= 19) by (unfold e; lia).
  destruct (small_power cc x v e H BE) as (S1 & S2 & S3 & S4). rewrite snd_next, !taken_app, mulPow5_same.
  assert (T10 : 10 ^ e = 5 ^ e * 2 ^ e) by (rewrite <- Z.pow_mul_l; reflexivity).
  assert (L10 : 10 ^ e <= 10 ^ 19) by (apply Z.pow_le_mono_r; lia). assert (L64 : 10 ^ 19 < 2 ^ 64) by reflexivity.
  pose proof (Z.pow_pos_nonneg 5 e ltac:(lia) ltac:(lia)) as Q5. pose proof (Z.pow_pos_nonneg 2 e ltac:(lia) ltac:(lia)) as Q2.
  assert (F5 : 0 <= 5 ^ e <= 2 ^ 64) by (clear - T10 L10 L64 Q5 Q2; nia). assert (F10 : 0 <= 5 ^ e * 2 ^ e <= 2 ^ 64) by (clear - T10 L10 L64 Q5 Q2; nia).
  destruct (mulPow5_ok cc x v e H ltac:(lia)) as [(_ & b & Eb & Hb)|(_ & w & Ew)].
  2: { rewrite Ew. cbn [bind taken]. split; [lia|]. split; [lia|]. split; [lia|]. split; [lia|]. discriminate. }
  rewrite Eb. cbn [bind]. pose proof (count_times x v b _ H Hb F5) as CB. destruct (count_of b _ Hb) as (C' & _).
  rewrite snd_next, !taken_app, shift_left_same. pose proof (shift_words b e) as W1.
  rewrite (shift_kinds b e Char), (shift_kinds b e Power), (shift_kinds b e Group) by discriminate.
  assert (NB : v * 5 ^ e <> 0) by (apply Z.neq_mul_0; lia).
  assert (S0 : e / 64 = 0) by (apply Z.div_small; lia). assert (S64 : e mod 64 = e) by (apply Z.mod_small; lia).
  destruct (Z.eq_dec (count_ b) capacity) as [FULL|ROOM].
  { destruct (shift_overrun b (v * 5 ^ e) e Hb NB ltac:(lia) ltac:(lia) ltac:(lia)) as (w & Ew). rewrite Ew. cbn [bind taken].
    split; [lia|]. split; [lia|]. split; [lia|]. split; [lia|]. discriminate. }
  destruct (shift_ok b (v * 5 ^ e) e Hb ltac:(lia) ltac:(lia) ltac:(lia)) as [(_ & b2 & E2 & H2)|(_ & w & Ew)].
  2: { rewrite Ew. cbn [bind taken]. split; [lia|]. split; [lia|]. split; [lia|]. split; [lia|]. discriminate. }
  rewrite E2. cbn [bind]. rewrite <- Z.mul_assoc in H2. pose proof (count_times x v b2 _ H H2 F10) as CB2. destruct (count_of b2 _ H2) as (C2 & _).
  pose proof (add_word_words b2 (numeral_value p)) as W2.
  rewrite (add_word_kinds b2 _ Char), (add_word_kinds b2 _ Power), (add_word_kinds b2 _ Group) by discriminate.
  split; [lia|]. split; [lia|]. split; [lia|]. split; [lia|]. intros y Ey. split; [lia|]. split; [exact F|].
  destruct (add_word_ok b2 _ _ H2 NW) as [(_ & b3 & E3 & H3)|(_ & w & Ew)]; [|congruence]. rewrite T10. congruence.
Qed.

(** The groups since the first one that is not zero: a value of j groups has at most j words. *)
Definition since (j v : Z) : Prop := (j = 0 /\ v = 0) \/ (1 <= j /\ 10 ^ (19 * (j - 1)) <= v < 10 ^ (19 * j)).

Lemma limit_groups : LIMIT <= 10 ^ (19 * 422).
Proof.
  assert (LIMIT = 2 ^ (64 * 416)) as -> by (rewrite LIMIT_Wp, Wp_pow; f_equal). replace (64 * 416) with (694 * 38 + 252) by reflexivity. replace (19 * 422) with (209 * 38 + 76) by reflexivity.
  rewrite !Z.pow_add_r, !Z.pow_mul_r by lia. apply Z.mul_le_mono_nonneg; [apply Z.pow_nonneg; apply Z.pow_nonneg; lia| |apply Z.pow_nonneg; lia|apply Z.leb_le; vm_compute; reflexivity].
  apply Z.pow_le_mono_l. split; [apply Z.pow_nonneg; lia|apply Z.leb_le; vm_compute; reflexivity].
Qed.

Lemma since_few j x v : since j v -> holds x v -> 0 <= j <= 422.
Proof.
  intros [[-> _]|(L & A & _)] H; [lia|]. pose proof (holds_bounds x v H) as B. pose proof limit_groups as G. clear H.
  destruct (Z.le_gt_cases j 422) as [X|X]; [clear - L X; lia|exfalso].
  assert (Q : 10 ^ (19 * 422) <= 10 ^ (19 * (j - 1))) by (apply Z.pow_le_mono_r; clear - X; lia).
  set (T := 10 ^ (19 * 422)) in *. clearbody T. set (U := 10 ^ (19 * (j - 1))) in *. clearbody U. clear - A B G Q. lia.
Qed.

Lemma since_count j x v : since j v -> holds x v -> v <> 0 -> count_ x <= j.
Proof.
  intros [[_ ->]|(L & _ & B)] H NZ; [contradiction|]. apply (count_below x v j H L). apply Z.lt_le_trans with (1 := B).
  rewrite (Z.pow_mul_r 10 19 j), (Z.pow_mul_r 2 64 j) by lia.
  assert (T : 0 <= 10 ^ 19 <= 2 ^ 64) by (split; apply Z.leb_le; vm_compute; reflexivity). exact (Z.pow_le_mono_l _ _ j T).
Qed.

Lemma since_next j v d : since j v -> 0 <= d < 10 ^ 19 -> exists k, since k (v * 10 ^ 19 + d) /\ 0 <= k <= j + 1 /\ (v <> 0 -> k = j + 1).
Proof.
  intros S D. destruct S as [[-> ->]|(L & A & B)].
  - destruct (Z.eq_dec d 0) as [->|N]; [exists 0|exists 1]; (split; [|lia]); [left; lia|right].
    split; [lia|]. change (19 * (1 - 1)) with 0. change (19 * 1) with 19. rewrite Z.pow_0_r. lia.
  - exists (j + 1). split; [right|lia]. split; [lia|]. replace (19 * (j + 1 - 1)) with (19 * (j - 1) + 19) by lia. replace (19 * (j + 1)) with (19 * j + 19) by lia.
    rewrite !Z.pow_add_r by lia. assert (H : 0 < 10 ^ 19) by reflexivity. set (T := 10 ^ 19) in *. clearbody T. clear - A B D H. nia.
Qed.

Lemma groups_next l : 19 <= l -> groups l = groups (l - 19) + 1.
Proof. intros. unfold groups. replace (l + 18) with (l - 19 + 18 + 1 * 19) by lia. rewrite Z.div_add by lia. lia. Qed.
Lemma groups_last l : 1 <= l < 19 -> groups l = 1.
Proof. intros. unfold groups. symmetry. apply Z.div_unique with (r := l - 1); lia. Qed.
Lemma groups_nonneg l : 0 <= l -> 0 <= groups l.
Proof. intros. unfold groups. apply Z.div_pos; lia. Qed.

Lemma decimals_turns cc : forall fuel j x v s, since j v -> holds x v ->
  let t := snd (l_decimals_loop cc fuel x s) in let n := Z.of_nat (length s) in let g := groups n in
  taken Word t <= 2 * (Z.min (j + g) 423) ^ 2 - 2 * j ^ 2 /\ taken Power t <= g /\ taken Char t <= n /\ taken Group t <= n / 19 /\
  (forall y, fst (l_decimals_loop cc fuel x s) = Ok y -> taken Char t = n /\ taken Group t = n / 19).
Proof.
  induction fuel as [|fuel IH]; intros j x v s S H; cbv zeta; pose proof (since_few j x v S H) as J.
  all: set (n := Z.of_nat (length s)); assert (N0 : 0 <= n) by (unfold n; lia); pose proof (groups_nonneg n N0) as G0.
  all: assert (D19 : 0 <= n / 19) by (apply Z.div_pos; lia).
  all: assert (PJ : 0 <= 2 * (Z.min (j + groups n) 423) ^ 2 - 2 * j ^ 2) by (clear - J G0; destruct (Z.min_spec (j + groups n) 423) as [[? ->]|[? ->]]; nia).
  all: assert (CJ : (if v =? 0 then 0 else 4 * count_ x + 2) <= (if v =? 0 then 0 else 4 * j + 2)) by (destruct (Z.eqb_spec v 0); [lia|pose proof (since_count j x v S H); lia]).
  all: cbn [l_decimals_loop]; change DIGITS_ITERATION with 19; fold n; destruct (Z.leb_spec 19 n) as [A|A].
  - cbn [still snd fst taken]. split; [lia|]. split; [lia|]. split; [lia|]. split; [lia|]. discriminate.
  - destruct (Z.ltb_spec 0 n) as [B|B].
    + destruct (group_work cc x v s H ltac:(unfold n in *; lia)) as (W1 & W2 & W3 & W4 & W5). fold n in W3, W5. rewrite (groups_last n) in * by lia.
      assert (Q : (if v =? 0 then 0 else 4 * j + 2) <= 2 * Z.min (j + 1) 423 ^ 2 - 2 * j ^ 2) by (rewrite Z.min_l by lia; destruct (v =? 0); clear - J; nia).
      split; [lia|]. split; [lia|]. split; [lia|]. rewrite Z.div_small by lia. split; [lia|]. intros y Ey. rewrite add_same in Ey. destruct (W5 y Ey). lia.
    + cbn [still snd fst taken]. assert (n = 0) as -> by lia. split; [lia|]. split; [lia|]. split; [lia|]. split; [lia|]. intros. split; reflexivity.
  - rewrite snd_turn, fst_turn. change (Z.to_nat 19) with 19%nat. set (p := firstn 19 s). set (q := skipn 19 s).
    assert (Lp : length p = 19%nat) by (unfold p; rewrite firstn_length; unfold n in A; lia).
    assert (Lq : Z.of_nat (length q) = n - 19) by (unfold q, n; rewrite skipn_length; unfold n in A; lia).
    destruct (group_work cc x v p H ltac:(lia)) as (W1 & W2 & W3 & W4 & W5). rewrite Lp in W3, W5. change (Z.of_nat 19) with 19 in W3, W5.
    rewrite fst_next, snd_next. cbn [taken work_eqb]. rewrite !taken_app, add_same. rewrite (groups_next n A) in *.
    pose proof (groups_nonneg (n - 19) ltac:(lia)) as G1.
    assert (ND : n / 19 = (n - 19) / 19 + 1) by (replace n with (n - 19 + 1 * 19) at 1 by lia; rewrite Z.div_add by lia; lia).
    assert (D1 : 0 <= (n - 19) / 19) by (apply Z.div_pos; lia).
    assert (Q : (if v =? 0 then 0 else 4 * j + 2) <= 2 * Z.min (j + (groups (n - 19) + 1)) 423 ^ 2 - 2 * j ^ 2).
    { destruct (v =? 0); [exact PJ|]. assert ((j + 1) ^ 2 <= Z.min (j + (groups (n - 19) + 1)) 423 ^ 2) by (apply Z.pow_le_mono_l; lia). clear - H0. nia. }
    destruct (add cc x p) as [y| | |] eqn:EA; cbn [bind taken]; try (split; [lia|]; split; [lia|]; split; [lia|]; split; [lia|]; discriminate).
    destruct (W5 y eq_refl) as (C1 & F & Hy). pose proof (numeral_value_bounds p F) as NB. rewrite Lp in NB. change (Z.of_nat 19) with 19 in NB.
    destruct (since_next j v (numeral_value p) S NB) as (k & Sk & K & KN). destruct (IH k y _ q Sk Hy) as (I1 & I2 & I3 & I4 & I5). rewrite Lq in *.
    assert (R : (if v =? 0 then 0 else 4 * j + 2) + (2 * Z.min (k + groups (n - 19)) 423 ^ 2 - 2 * k ^ 2) <= 2 * Z.min (j + (groups (n - 19) + 1)) 423 ^ 2 - 2 * j ^ 2).
    { assert (MM : Z.min (k + groups (n - 19)) 423 ^ 2 <= Z.min (j + (groups (n - 19) + 1)) 423 ^ 2) by (pose proof (since_few k y _ Sk Hy); apply Z.pow_le_mono_l; lia).
      destruct (Z.eqb_spec v 0) as [V0|V0].
      - assert (j ^ 2 <= k ^ 2); [|lia]. destruct S as [[-> _]|(L & X & _)]; [pose proof (Z.pow_nonneg k 2); clear - K; nia|]. pose proof (Z.pow_pos_nonneg 10 (19 * (j - 1)) ltac:(lia) ltac:(lia)). lia.
      - rewrite (KN V0) in *. clear - MM. nia. }
    split; [lia|]. split; [lia|]. split; [lia|]. split; [lia|]. intros z Ez. destruct (I5 z Ez). lia.
  - destruct (Z.ltb_spec 0 n) as [B|B].
    + destruct (group_work cc x v s H ltac:(unfold n in *; lia)) as (W1 & W2 & W3 & W4 & W5). fold n in W3, W5. rewrite (groups_last n) in * by lia.
      assert (Q : (if v =? 0 then 0 else 4 * j + 2) <= 2 * Z.min (j + 1) 423 ^ 2 - 2 * j ^ 2) by (rewrite Z.min_l by lia; destruct (v =? 0); clear - J; nia).
      split; [lia|]. split; [lia|]. split; [lia|]. rewrite Z.div_small by lia. split; [lia|]. intros y Ey. rewrite add_same in Ey. destruct (W5 y Ey). lia.
    + cbn [still snd fst taken]. assert (n = 0) as -> by lia. split; [lia|]. split; [lia|]. split; [lia|]. split; [lia|]. intros. split; reflexivity.
Qed.

Lemma decimals_work cc s :
  let t := snd (l_BigInteger_decimals cc s) in let n := Z.of_nat (length s) in
  taken Word t <= 2 * groups n ^ 2 /\ taken Word t <= 2 * 423 ^ 2 /\ taken Power t <= groups n /\ taken Char t <= n /\ taken Group t <= n / 19 /\
  (forall y, fst (l_BigInteger_decimals cc s) = Ok y -> taken Char t = n /\ taken Group t = n / 19).
Proof.
  cbv zeta. set (n := Z.of_nat (length s)). unfold l_BigInteger_decimals. rewrite snd_still_next, fst_next. destruct (BigInteger_word_ok 0) as (x & E & H); [split; [discriminate|reflexivity]|].
  rewrite E. cbn [still fst bind]. destruct (decimals_turns cc (length s) 0 x 0 s (or_introl (conj eq_refl eq_refl)) H) as (I1 & I2 & I3 & I4 & I5). fold n in I1, I2, I3, I4, I5.
  pose proof (groups_nonneg n ltac:(unfold n; lia)) as G. rewrite Z.add_0_l in I1.
  assert (Z.min (groups n) 423 ^ 2 <= groups n ^ 2) by (apply Z.pow_le_mono_l; lia). assert (Z.min (groups n) 423 ^ 2 <= 423 ^ 2) by (apply Z.pow_le_mono_l; lia).
  repeat split; try lia; eapply I5; eassumption.
Qed.

Lemma multiply_work cc b n d : holds_number (digits_ b) (count_ b) n -> 0 <= d < 2 ^ 64 ->
  let turns := repeat Word (if (d =? 0) || (d =? 1) || (n =? 1) then 0%nat else Z.to_nat (count_ b)) in
  snd (l_mul_word cc b d) = turns /\ (d < 2 ^ 32 -> snd (l_mul_word32 b d) = turns).
Proof.
  intros H Hd. split; [|intros L].
  - apply multiply_exact; [apply mulAdd_step; exact Hd|exact H|exact Hd].
  - apply multiply_exact; [apply mul32_ok; split; [lia|exact L]|exact H|exact Hd].
Qed.
