(** BigInteger: what a refused operation leaves behind. *)
From Verif Require Import Machine LibMachine SpecDecimal SpecBig SpecBigProgram SpecBigStore ModelDiyfp ModelBigint ModelThrown
  ProofBig ProofBig2 ProofBig3 ProofBig4 ProofBig5.
Ltac Zify.zify_post_hook ::= idtac.

(** ** Without the object left behind, it is the model of ModelBigint *)

Definition erase (a : attempt) : outcome BigInteger :=
  let* (x, thrown) := a in match thrown with None => Ok x | Some w => Throw w end.

Lemma erase_returned m : erase (returned m) = m.
Proof. destruct m; reflexivity. Qed.

Lemma erase_bind {A} (m : outcome A) k : erase (let* x := m in k x) = let* x := m in erase (k x).
Proof. destruct m; reflexivity. Qed.

Lemma erase_then a k : erase (then_ a k) = let* x := erase a in erase (k x).
Proof. destruct a as [[x [w|]]| | |]; reflexivity. Qed.

Lemma bind_ext {A B} (m : outcome A) (k k' : A -> outcome B) : (forall a, k a = k' a) -> bind m k = bind m k'.
Proof. destruct m; cbn [bind]; auto. Qed.

Lemma erase_push x d : erase (t_push_back x d) = push_back x d.
Proof. unfold t_push_back, push_back. destruct (count_ x <? capacity); [|reflexivity]. rewrite erase_bind. reflexivity. Qed.

Lemma erase_add_loop n : forall x i backup, erase (t_add_loop n x i backup) = add_loop n x i backup.
Proof.
  induction n as [|n IH]; intros x i backup; cbn [t_add_loop add_loop]; rewrite erase_bind; apply bind_ext; intros d.
  - destruct (d <? backup); [apply erase_push|reflexivity].
  - destruct (backup <=? d); [reflexivity|]. rewrite erase_bind. apply bind_ext. intros v. rewrite erase_bind. apply bind_ext. intros ds. apply IH.
Qed.

Lemma erase_add x d : erase (t_add_word x d) = add_word x d.
Proof.
  unfold t_add_word, add_word. rewrite erase_bind. apply bind_ext. intros v. rewrite erase_bind. apply bind_ext. intros ds. apply erase_add_loop.
Qed.

Lemma erase_multiply step x d : erase (t_multiply step x d) = multiply step x d.
Proof.
  unfold t_multiply, multiply. destruct (d =? 0); [apply erase_returned|]. destruct (d =? 1); [reflexivity|].
  rewrite erase_bind. apply bind_ext. intros [|]; [apply erase_returned|]. rewrite erase_bind. apply bind_ext. intros [ds k].
  destruct (0 <? k); [apply erase_push|reflexivity].
Qed.

Lemma erase_shift x s : erase (t_shift_left x s) = shift_left x s.
Proof.
  unfold t_shift_left. rewrite erase_bind. unfold shift_left at 2. destruct (big_isZero x) as [zero| | |] eqn:Z0; cbn [bind]; try reflexivity.
  destruct (zero || (s =? 0)) eqn:E1; cbn [orb].
  - rewrite erase_returned. unfold shift_left. rewrite Z0. cbn [bind]. rewrite E1. reflexivity.
  - destruct (count_ x + s / INT64_BYTE <=? capacity) eqn:E2; [|reflexivity].
    rewrite erase_returned. unfold shift_left. rewrite Z0. cbn [bind]. rewrite E1, E2. reflexivity.
Qed.

Lemma erase_pow5_loop mult mult' step : (forall x, erase (mult x) = mult' x) -> forall fuel x e k,
  erase (t_pow5_loop mult step fuel x e k) = let* (x, e) := pow5_loop mult' step fuel x e in erase (k x e).
Proof.
  intros M. induction fuel as [|fuel IH]; intros x e k; cbn [t_pow5_loop pow5_loop]; destruct (step <=? e); try reflexivity.
  rewrite erase_then, M. destruct (mult' x); cbn [bind]; try reflexivity. apply IH.
Qed.

Lemma erase_mulPow5 cc x e : erase (t_mulPow5 cc x e) = mulPow5 cc x e.
Proof.
  unfold t_mulPow5, mulPow5. destruct (e =? 0); [reflexivity|].
  rewrite (erase_pow5_loop _ (fun x => mul_word cc x 0x6765C793FA10079D)) by (intros; apply erase_multiply). apply bind_ext. intros [y i].
  rewrite (erase_pow5_loop _ (fun x => mul_word32 x 1220703125)) by (intros; apply erase_multiply). apply bind_ext. intros [z j].
  destruct (0 <? j); [|reflexivity]. destruct (in_range (j - 1) (Z.of_nat (length POWER5))); [apply erase_multiply|reflexivity].
Qed.

Lemma erase_difference x y o :
  (let* (c, r) := t_difference x y o in match r with inl w => Throw w | inr v => Ok (c, v) end) = difference x y o.
Proof.
  unfold t_difference. destruct (compare x y) as [c| | |] eqn:E; cbn [bind]; [|unfold difference; rewrite E; reflexivity ..].
  destruct (c =? 0) eqn:Z0; [cbn [bind]; unfold difference; rewrite E; cbn [bind]; rewrite Z0; reflexivity|].
  destruct (difference x y o) as [[c' v]| | |]; reflexivity.
Qed.

Lemma erases cc x :
  (forall d, erase (t_add_word x d) = add_word x d) /\ (forall d, erase (t_mul_word cc x d) = mul_word cc x d) /\
  (forall d, erase (t_mul_word32 x d) = mul_word32 x d) /\ (forall e, erase (t_mulPow5 cc x e) = mulPow5 cc x e) /\
  (forall s, erase (t_shift_left x s) = shift_left x s).
Proof.
  repeat split; intros; [apply erase_add|apply erase_multiply|apply erase_multiply|apply erase_mulPow5|apply erase_shift].
Qed.

Lemma erase_ok a b : erase a = Ok b -> a = Ok (b, None).
Proof. destruct a as [[x [w|]]| | |]; cbn; intros E; inversion E; reflexivity. Qed.

(** ** Addition and multiplication *)

Definition full (b : BigInteger) (n : Z) : Prop := holds_full (digits_ b) (count_ b) n.

(** The exact number if it fits; if it does not, an exception and the number without what is beyond the array. *)
Definition exact_or_left (a : attempt) (n : Z) : Prop :=
  (n < LIMIT /\ exists b, a = Ok (b, None) /\ holds b n) \/
  (LIMIT <= n /\ exists b w, a = Ok (b, Some w) /\ full b (n mod LIMIT)).

Lemma finish_left ws r k rest c : Z.of_nat (length (map Some ws ++ rest)) = capacity -> c = Z.of_nat (length ws) ->
  length r = length ws -> Forall word r -> word k -> LIMIT <= words_value r + Wp (length r) * k ->
  exists b w, (if 0 <? k then t_push_back (Big (map Some r ++ rest) c) k else Ok (Big (map Some r ++ rest) c, None)) = Ok (b, Some w) /\
    full b ((words_value r + Wp (length r) * k) mod LIMIT).
Proof.
  intros L -> Lr Hr Hk B. unfold word in Hk. pose proof (wv_bounds r Hr) as Br. pose proof (Wp_pos (length r)) as P.
  rewrite app_length, map_length in L. destruct capacity_nat as [_ C416].
  assert (F : length r = Z.to_nat capacity).
  { destruct (Nat.lt_ge_cases (length r) (Z.to_nat capacity)) as [Lt|Ge]; [|lia]. exfalso.
    pose proof (Wp_le (S (length r)) (Z.to_nat capacity) Lt) as X. rewrite <- LIMIT_Wp, Wp_S in X. nia. }
  assert (rest = []) as -> by (destruct rest; [reflexivity|cbn [length] in L; lia]).
  assert (PK : 0 < k). { rewrite LIMIT_Wp, <- F in B. nia. }
  destruct (Z.ltb_spec 0 k) as [_|X]; [|lia]. unfold t_push_back. cbn [count_]. rewrite <- Lr.
  destruct (Z.ltb_spec (Z.of_nat (length r)) capacity) as [X|_]; [lia|]. eexists _, _. split; [reflexivity|].
  split; [cbn [count_]; lia|]. exists r. cbn [digits_]. rewrite app_nil_r. split; [reflexivity|]. split; [lia|]. split; [exact Hr|].
  rewrite LIMIT_Wp, <- F. rewrite (Z.mul_comm (Wp (length r)) k), Z_mod_plus_full. symmetry. apply Z.mod_small. exact Br.
Qed.

Lemma t_add_loop_ok q : forall p w backup rest c, word w -> word backup -> Forall word q ->
  exists r k, (k = 0 \/ k = 1) /\ length r = S (length q) /\ Forall word r /\
    words_value r + Wp (length r) * k = w + (if w <? backup then W else 0) + W * words_value q /\
    t_add_loop (length q) (Big (map Some (p ++ w :: q) ++ rest) c) (Z.of_nat (length p)) backup =
    if 0 <? k then t_push_back (Big (map Some (p ++ r) ++ rest) c) k else Ok (Big (map Some (p ++ r) ++ rest) c, None).
Proof.
  induction q as [|v q IH]; intros p w backup rest c Hw Hb Hq; cbn [length t_add_loop digits_ count_];
    rewrite (word_read_words p w) by reflexivity; cbn [bind].
  - exists [w], (if w <? backup then 1 else 0). rewrite wv_cons. cbn [words_value length]. rewrite Wp_S, Wp_0.
    destruct (w <? backup); (split; [lia|]; split; [reflexivity|]; split; [repeat constructor; exact (proj1 Hw) || exact (proj2 Hw)|]; split; [lia|reflexivity]).
  - inversion Hq as [|? ? Hv Hq']; subst.
    destruct (Z.leb_spec backup w) as [C|C].
    + exists (w :: v :: q), 0. split; [auto|]. split; [reflexivity|]. split; [constructor; [exact Hw|exact Hq]|].
      split; [|reflexivity]. destruct (Z.ltb_spec w backup); [lia|]. rewrite (wv_cons w). lia.
    + destruct (Z.ltb_spec w backup); [|lia].
      assert (E1 : word_read (map Some (p ++ w :: v :: q) ++ rest) (Z.of_nat (length p) + 1) = Ok v).
      { replace (p ++ w :: v :: q) with ((p ++ [w]) ++ v :: q) by (rewrite <- app_assoc; reflexivity).
        apply word_read_words. rewrite app_length. cbn. lia. }
      rewrite E1. cbn [bind].
      assert (E2 : word_write (map Some (p ++ w :: v :: q) ++ rest) (Z.of_nat (length p) + 1) (u64 (v + 1)) =
                   Ok (map Some ((p ++ [w]) ++ u64 (v + 1) :: q) ++ rest)).
      { replace (p ++ w :: v :: q) with ((p ++ [w]) ++ v :: q) by (rewrite <- app_assoc; reflexivity).
        apply word_write_words. rewrite app_length. cbn. lia. }
      rewrite E2. cbn [bind]. pose proof (add_carry v 1 Hv ltac:(unfold word; split; [lia|reflexivity])) as [Hs Es].
      destruct (IH (p ++ [w]) (u64 (v + 1)) v rest c Hs Hv Hq') as (r & k & Hk & Lr & Hr & Vr & Er).
      exists (w :: r), k. split; [exact Hk|]. split; [cbn [length]; rewrite Lr; reflexivity|]. split; [constructor; assumption|]. split.
      * cbn [length]. rewrite Wp_S, !wv_cons. nia.
      * replace (Z.of_nat (length p) + 1) with (Z.of_nat (length (p ++ [w]))) by (rewrite app_length; cbn; lia).
        rewrite Er. rewrite <- app_assoc. reflexivity.
Qed.

Lemma t_add_ok b n d : holds b n -> word d -> exact_or_left (t_add_word b d) (n + d).
Proof.
  intros H Hd. destruct (Z.lt_ge_cases (n + d) LIMIT) as [Lt|Ge].
  { left. split; [exact Lt|]. destruct (proj1 (add_word_split b n d H Hd) Lt) as (b' & E & H'). exists b'. split; [|exact H'].
    apply erase_ok. rewrite erase_add. exact E. }
  right. split; [exact Ge|]. apply holds_rep in H. destruct H as (ws & (rest & A & B & C & D & E) & N & V).
  destruct b as [ds c]; cbn [digits_ count_] in *. subst ds c.
  destruct ws as [|w q]; [contradiction|]. inversion E as [|? ? Hw Hq]; subst.
  unfold t_add_word. cbn [digits_ count_]. change (w :: q) with ([] ++ w :: q) at 1. rewrite (word_read_words [] w q rest 0 eq_refl). cbn [bind].
  change (w :: q) with ([] ++ w :: q) at 1. rewrite (word_write_words [] w q rest _ 0 eq_refl). cbn [bind length].
  replace (Z.to_nat (Z.of_nat (S (length q)) - 1)) with (length q) by lia.
  destruct (add_carry w d Hw Hd) as [Hs Es].
  destruct (t_add_loop_ok q [] (u64 (w + d)) w rest (Z.of_nat (S (length q))) Hs Hw Hq) as (r & k & Hk & Lr & Hr & Vr & Er).
  change (Z.of_nat (length [])) with 0 in Er. cbn [length] in Er. rewrite Er. cbn [app].
  assert (EV : words_value (w :: q) + d = words_value r + Wp (length r) * k) by (rewrite Vr, wv_cons; lia).
  rewrite EV in *.
  apply (finish_left (w :: q)); [exact B|reflexivity|exact Lr|exact Hr|destruct Hk as [-> | ->]; split; (lia || reflexivity)|exact Ge].
Qed.

Lemma t_multiply_ok step b n D : good_step D step -> holds b n -> word D -> exact_or_left (t_multiply step b D) (n * D).
Proof.
  intros S H HD. pose proof (multiply_ok step b n D S H HD) as [(Lt & b' & E & H')|(Ge & w & Ew)].
  { left. split; [exact Lt|]. exists b'. split; [|exact H']. apply erase_ok. rewrite erase_multiply. exact E. }
  right. split; [exact Ge|]. pose proof (holds_bounds b n H) as NB. apply holds_rep in H. destruct H as (ws & R & N & V).
  unfold t_multiply. pose proof (small_limit D HD) as SD.
  destruct (Z.eqb_spec D 0) as [->|D0]; [exfalso; lia|]. destruct (Z.eqb_spec D 1) as [->|D1]; [exfalso; lia|].
  rewrite (equal_word_ok b ws 1 R N) by (split; [lia|reflexivity]). cbn [bind]. rewrite V.
  destruct (Z.eqb_spec n 1) as [->|N1]; [exfalso; lia|].
  destruct R as (rest & A & B & C & ND & E). destruct b as [ds c]; cbn [digits_ count_] in *. subst ds c. rewrite Nat2Z.id.
  assert (DP : 0 < D) by (unfold word in HD; lia).
  destruct (mul_loop_ok D step DP S ws [] 0 rest E ltac:(lia)) as (r & h & Lr & Hr & Hh & Vr & Er).
  change (Z.of_nat (length [])) with 0 in Er. cbn [app] in Er. rewrite Er. cbn [bind].
  assert (EV : n * D = words_value r + Wp (length r) * h) by (rewrite Lr; lia). rewrite EV in *.
  apply (finish_left ws); [exact B|reflexivity|exact Lr|exact Hr|unfold word in *; lia|exact Ge].
Qed.

Lemma t_mul_ok cc b n d : holds b n -> word d -> exact_or_left (t_mul_word cc b d) (n * d).
Proof. intros H Hd. apply t_multiply_ok; [apply mulAdd_step; exact Hd|exact H|exact Hd]. Qed.

Lemma t_mul32_ok b n d : holds b n -> 0 <= d < H32 -> exact_or_left (t_mul_word32 b d) (n * d).
Proof. intros H Hd. apply t_multiply_ok; [apply mul32_ok; exact Hd|exact H|apply H32_word; exact Hd]. Qed.

(** ** Powers of five *)

Lemma t_pow5_loop_ok mult step : 1 <= step ->
  (forall b n, holds b n -> exact_or_left (mult b) (n * 5 ^ step)) ->
  forall fuel x e n k, holds x n -> 0 <= e <= Z.of_nat fuel ->
  (exists i b w, 0 <= i /\ step * (i + 1) <= e /\ n * 5 ^ (step * i) < LIMIT <= n * 5 ^ (step * (i + 1)) /\
     t_pow5_loop mult step fuel x e k = Ok (b, Some w) /\ full b ((n * 5 ^ (step * (i + 1))) mod LIMIT)) \/
  (exists x', t_pow5_loop mult step fuel x e k = k x' (e mod step) /\ holds x' (n * 5 ^ (step * (e / step)))).
Proof.
  intros HS HM. induction fuel as [|fuel IH]; intros x e n k H He.
  - right. exists x. assert (e = 0) by lia. subst e. cbn [t_pow5_loop]. destruct (Z.leb_spec step 0); [lia|].
    rewrite Z.mod_0_l, Z.div_0_l, Z.mul_0_r, Z.pow_0_r, Z.mul_1_r by lia. split; [reflexivity|exact H].
  - cbn [t_pow5_loop]. destruct (Z.leb_spec step e) as [L|L].
    + destruct (HM x n H) as [(Lt & b & Eb & Hb)|(Ge & b & w & Eb & Fb)]; rewrite Eb; unfold then_; cbn [bind].
      * assert (EX : forall j, 0 <= j -> n * 5 ^ step * 5 ^ (step * j) = n * 5 ^ (step * (j + 1))).
        { intros j Hj. rewrite <- Z.mul_assoc, <- Z.pow_add_r by nia. do 2 f_equal. ring. }
        assert (M1 : (e - step) mod step = e mod step).
        { replace (e - step) with (e + (-1) * step) by ring. apply Z_mod_plus_full. }
        assert (D1 : (e - step) / step = e / step - 1).
        { replace (e - step) with (e + (-1) * step) by ring. rewrite Z_div_plus_full by lia. ring. }
        assert (Q1 : 1 <= e / step) by (apply Z.div_le_lower_bound; lia).
        destruct (IH b (e - step) (n * 5 ^ step) k Hb ltac:(lia)) as [(i & b' & w & I0 & I1 & [B1 B2] & E' & F')|(x' & E' & H')].
        -- left. exists (i + 1), b', w. rewrite EX in B1 by exact I0. rewrite EX in B2, F' by (clear - I0; lia).
           split; [clear - I0; lia|]. split; [clear - I1; lia|]. split; [split; assumption|]. split; assumption.
        -- right. exists x'. rewrite M1 in E'. rewrite D1, EX in H' by (clear - Q1; lia). replace (e / step - 1 + 1) with (e / step) in H' by ring. split; assumption.
      * left. exists 0, b, w. rewrite Z.mul_0_r, Z.pow_0_r, Z.add_0_l, !Z.mul_1_r. split; [lia|]. split; [lia|].
        split; [split; [exact (proj2 (holds_bounds x n H))|exact Ge]|]. split; [reflexivity|exact Fb].
    + right. exists x. rewrite Z.mod_small, Z.div_small, Z.mul_0_r, Z.pow_0_r, Z.mul_1_r by lia. split; [reflexivity|exact H].
Qed.

Lemma t_mulPow5_left cc b n e : holds b n -> 0 <= e -> LIMIT <= n * 5 ^ e ->
  exists a f b' w, pow5_factor e a f /\ n * 5 ^ a < LIMIT <= n * 5 ^ (a + f) /\ t_mulPow5 cc b e = Ok (b', Some w) /\ full b' ((n * 5 ^ (a + f)) mod LIMIT).
Proof.
  intros H He Ge. pose proof (holds_bounds b n H) as NB. unfold t_mulPow5. destruct (Z.eqb_spec e 0) as [->|N].
  { exfalso. rewrite Z.pow_0_r in Ge. lia. }
  match goal with |- context [t_pow5_loop ?m 27 ?f b e ?kk] =>
    destruct (t_pow5_loop_ok m 27 ltac:(lia)) with (fuel := f) (x := b) (e := e) (n := n) (k := kk)
      as [(i & b' & w & I0 & I1 & B & E & F)|(x1 & E1 & H1)] end; [|exact H|clear - He; lia| |].
  { intros b' n' H'. apply (t_mul_ok cc b' n' (5 ^ 27) H'). split; [discriminate|reflexivity]. }
  { exists (27 * i), 27, b', w. replace (27 * i + 27) with (27 * (i + 1)) by ring. rewrite E. split; [|auto]. left. split; [reflexivity|]. exists i. auto. }
  rewrite E1. clear E1. pose proof (Z.mod_pos_bound e 27 ltac:(lia)) as MB. pose proof (Z_div_mod_eq_full e 27) as DM.
  assert (Q0 : 0 <= e / 27) by (apply Z.div_pos; [exact He|reflexivity]).
  remember (e mod 27) as e1 eqn:Ee1. remember (e / 27) as q eqn:Eq. remember (n * 5 ^ (27 * q)) as n1 eqn:En1.
  assert (EN : forall j, 0 <= j -> n1 * 5 ^ j = n * 5 ^ (27 * q + j)).
  { intros j Hj. rewrite En1, <- Z.mul_assoc, <- Z.pow_add_r by (clear - Q0 Hj; lia). reflexivity. }
  match goal with |- context [t_pow5_loop ?m 13 ?f x1 e1 ?kk] =>
    destruct (t_pow5_loop_ok m 13 ltac:(lia)) with (fuel := f) (x := x1) (e := e1) (n := n1) (k := kk)
      as [(i & b' & w & I0 & I1 & B & E & F)|(x2 & E2 & H2)] end; [|exact H1|clear - MB DM Q0; lia| |].
  { intros b' n' H'. apply (t_mul32_ok b' n' (5 ^ 13) H'). split; [discriminate|reflexivity]. }
  { rewrite (EN (13 * i)) in B by (clear - I0; lia). rewrite (EN (13 * (i + 1))) in B, F by (clear - I0; lia).
    exists (27 * q + 13 * i), 13, b', w.
    replace (27 * q + 13 * i + 13) with (27 * q + 13 * (i + 1)) by ring. rewrite E. split; [|auto].
    right; left. split; [reflexivity|]. exists i. rewrite <- Ee1, <- Eq. auto. }
  rewrite E2. clear E2. pose proof (Z.mod_pos_bound e1 13 ltac:(lia)) as MB2. pose proof (Z_div_mod_eq_full e1 13) as DM2.
  assert (Q2 : 0 <= e1 / 13) by (apply Z.div_pos; [apply MB|reflexivity]).
  remember (e1 mod 13) as e2 eqn:Ee2. remember (e1 / 13) as q2 eqn:Eq2.
  rewrite EN in H2 by (clear - Q2; lia). pose proof (holds_bounds x2 _ H2) as NB2.
  assert (A0 : 27 * q + 13 * q2 = e - e2) by (clear - DM DM2; lia). rewrite A0 in *.
  destruct (Z.ltb_spec 0 e2) as [P|P].
  - destruct (POWER5_nth e2 ltac:(clear - P MB2; lia)) as (I & -> & B). rewrite I.
    assert (E5 : n * 5 ^ (e - e2) * 5 ^ e2 = n * 5 ^ e).
    { rewrite <- Z.mul_assoc, <- Z.pow_add_r by (clear - DM DM2 Q0 Q2 P; lia). do 2 f_equal. ring. }
    destruct (t_mul32_ok x2 _ _ H2 B) as [(Lt & _)|(_ & b' & w & E & F)]; [exfalso; rewrite E5 in Lt; exact (Zlt_not_le _ _ Lt Ge)|].
    rewrite E5 in F. exists (e - e2), e2, b', w. replace (e - e2 + e2) with e by ring. rewrite E. split; [|split; [split; [apply NB2|exact Ge]|auto]].
    right; right. rewrite <- Ee1, <- Ee2. auto.
  - exfalso. assert (e2 = 0) by (clear - P MB2; lia). subst e2. rewrite H0, Z.sub_0_r in NB2. exact (Zlt_not_le _ _ (proj2 NB2) Ge).
Qed.

(** ** Shifts and differences *)

Lemma t_shift_unchanged b n s b' w : holds b n -> t_shift_left b s = Ok (b', Some w) -> b' = b.
Proof.
  intros H. unfold t_shift_left. rewrite (big_isZero_ok b n H). cbn [bind].
  destruct ((n =? 0) || (s =? 0) || (count_ b + s / INT64_BYTE <=? capacity)).
  - unfold returned. destruct (shift_left b s); cbn [bind]; discriminate.
  - intros E. injection E as -> _. reflexivity.
Qed.

Definition silent {A} (m : outcome A) : Prop := forall w, m <> Throw w.
Lemma silent_bind {A B} (m : outcome A) (k : A -> outcome B) : silent m -> (forall a, silent (k a)) -> silent (bind m k).
Proof. intros M K. destruct m; cbn [bind]; [apply K|exfalso; exact (M _ eq_refl)|intros w; discriminate ..]. Qed.
Lemma silent_ok {A} (a : A) : silent (Ok a). Proof. intros w. discriminate. Qed.
Lemma silent_read d i : silent (word_read d i).
Proof. unfold word_read. destruct (in_range i (Z.of_nat (length d))); [destruct (nth (Z.to_nat i) d None)|]; intros w; discriminate. Qed.
Lemma silent_write d i v : silent (word_write d i v).
Proof. unfold word_write. destruct (in_range i (Z.of_nat (length d))); intros w; discriminate. Qed.
Lemma silent_shl a s : silent (shl64 a s).
Proof. unfold shl64. destruct (in_range s 64); intros w; discriminate. Qed.
Lemma silent_shr a s : silent (shr64 a s).
Proof. unfold shr64. destruct (in_range s 64); intros w; discriminate. Qed.
Lemma silent_shift_loop n : forall d o s, silent (shift_loop n d o s).
Proof.
  induction n as [|n IH]; intros d o s; [apply silent_ok|]. cbn [shift_loop].
  repeat (apply silent_bind; [first [apply silent_read|apply silent_shl|apply silent_shr|apply silent_write]|intros ?]). apply IH.
Qed.

Lemma shift_silent b n s : holds b n -> (n =? 0) || (s =? 0) || (count_ b + s / INT64_BYTE <=? capacity) = true -> silent (shift_left b s).
Proof.
  intros H G. unfold shift_left. rewrite (big_isZero_ok b n H). cbn [bind]. destruct ((n =? 0) || (s =? 0)); [apply silent_ok|].
  cbn [orb] in G. rewrite G. apply silent_bind.
  - destruct (s mod INT64_BYTE =? 0).
    + apply silent_bind; [|intros; apply silent_ok]. unfold words_memmove. match goal with |- silent (if ?c then _ else _) => destruct c end; intros w; discriminate.
    + apply silent_bind; [apply silent_write|intros d1]. apply silent_bind; [apply silent_shift_loop|intros d2].
      repeat (apply silent_bind; [first [apply silent_read|apply silent_shl|apply silent_shr|apply silent_write]|intros ?]). apply silent_ok.
  - intros y. apply silent_bind; [|intros; apply silent_ok]. unfold words_clear. match goal with |- silent (if ?c then _ else _) => destruct c end; intros w; discriminate.
Qed.

Lemma t_shift_refused b n s : holds b n -> 0 <= s -> (exists w, shift_left b s = Throw w) -> exists w, t_shift_left b s = Ok (b, Some w).
Proof.
  intros H S (w & E). pose proof (erase_shift b s) as X. rewrite E in X. unfold erase in X.
  destruct (t_shift_left b s) as [[b' [v|]]| | |] eqn:ET; cbn [bind] in X; try discriminate X.
  - rewrite (t_shift_unchanged b n s b' v H ET) in *. eauto.
  - exfalso. unfold t_shift_left in ET. rewrite (big_isZero_ok b n H) in ET. cbn [bind] in ET.
    destruct ((n =? 0) || (s =? 0) || (count_ b + s / INT64_BYTE <=? capacity)) eqn:G; [|discriminate ET].
    exact (shift_silent b n s H G w E).
Qed.
