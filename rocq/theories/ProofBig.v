(** BigInteger: words, addition and multiplication. *)
From Verif Require Import Machine LibMachine SpecDecimal SpecInt SpecBig ModelDiyfp ModelBigint.
Ltac Zify.zify_post_hook ::= idtac.

(** ** Words *)

Definition W : Z := 2 ^ 64.
Definition word (w : Z) : Prop := 0 <= w < W.
Lemma W_pos : 0 < W. Proof. reflexivity. Qed.

Lemma wv_cons w r : words_value (w :: r) = w + W * words_value r.
Proof. reflexivity. Qed.

Definition Wp (n : nat) : Z := W ^ Z.of_nat n.
Lemma Wp_0 : Wp 0 = 1. Proof. reflexivity. Qed.
Lemma Wp_S n : Wp (S n) = W * Wp n.
Proof. unfold Wp. rewrite Nat2Z.inj_succ, Z.pow_succ_r by lia. reflexivity. Qed.
Lemma Wp_pos n : 0 < Wp n.
Proof. induction n as [|n IH]; [reflexivity|]. rewrite Wp_S. pose proof W_pos. nia. Qed.
Lemma Wp_add a b : Wp (a + b) = Wp a * Wp b.
Proof. unfold Wp. rewrite Nat2Z.inj_add, Z.pow_add_r by lia. reflexivity. Qed.
Lemma Wp_le a b : (a <= b)%nat -> Wp a <= Wp b.
Proof. intros H. apply Z.pow_le_mono_r; [reflexivity|lia]. Qed.
Lemma Wp_lt a b : (a < b)%nat -> Wp a < Wp b.
Proof. intros H. apply Z.pow_lt_mono_r; [reflexivity|lia|lia]. Qed.
Lemma LIMIT_Wp : LIMIT = Wp (Z.to_nat capacity).
Proof. unfold LIMIT, Wp, W, capacity. rewrite Z2Nat.id by (cbn; lia). change (3328 / 8) with 416. rewrite <- Z.pow_mul_r by lia. reflexivity. Qed.
Global Opaque LIMIT.
Lemma capacity_nat : Z.of_nat (Z.to_nat capacity) = 416 /\ capacity = 416. Proof. split; reflexivity. Qed.

Lemma wv_app p q : words_value (p ++ q) = words_value p + Wp (length p) * words_value q.
Proof.
  induction p as [|w p IH]; [cbn [app words_value length]; rewrite Wp_0; lia|].
  cbn [app length]. rewrite !wv_cons, Wp_S, IH. ring.
Qed.

Lemma wv_bounds ws : Forall word ws -> 0 <= words_value ws < Wp (length ws).
Proof.
  induction 1 as [|w r Hw Hr IH]; [cbn; lia|]. cbn [length]. rewrite wv_cons, Wp_S. unfold word in Hw. nia.
Qed.

Lemma wv_zeros n : words_value (repeat 0 n) = 0.
Proof. induction n as [|n IH]; [reflexivity|]. cbn [repeat]. rewrite wv_cons, IH. lia. Qed.

Lemma zeros_words n : Forall word (repeat 0 n).
Proof. apply Forall_forall. intros x H. apply repeat_spec in H. subst. split; [lia|reflexivity]. Qed.

(** The words of a number are determined. *)
Lemma wv_inj a b : Forall word a -> Forall word b -> length a = length b -> words_value a = words_value b -> a = b.
Proof.
  intros Ha. revert b. induction Ha as [|w r Hw Hr IH]; intros [|v s] Hb L E; try discriminate L; [reflexivity|].
  inversion Hb as [|? ? Hv Hs]; subst. rewrite !wv_cons in E. injection L as L. unfold word in *.
  assert (words_value r = words_value s /\ w = v) as [E1 E2] by (apply (Z.div_mod_unique W); [left; exact Hw|left; exact Hv|lia]).
  subst. f_equal. apply IH; assumption.
Qed.

Lemma top_nonzero ws m : Forall word ws -> length ws = S m -> Wp m <= words_value ws -> last ws 0 <> 0.
Proof.
  intros H L B. destruct (exists_last (l := ws)) as (p & x & ->); [intros ->; discriminate L|].
  rewrite last_last. rewrite app_length in L. cbn in L. rewrite wv_app in B. apply Forall_app in H. destruct H as [Hp _].
  pose proof (wv_bounds p Hp) as Bp. assert (length p = m) by lia. subst m. cbn [words_value] in B. nia.
Qed.

Lemma top_bound ws : Forall word ws -> ws <> [] -> last ws 0 <> 0 -> Wp (Nat.pred (length ws)) <= words_value ws.
Proof.
  intros H N T. destruct (exists_last N) as (p & x & ->). rewrite last_last in T. rewrite app_length. cbn [length].
  rewrite Nat.add_1_r. cbn [Nat.pred]. rewrite wv_app. apply Forall_app in H. destruct H as [Hp Hx].
  pose proof (wv_bounds p Hp). inversion Hx as [|? ? X _]; subst. unfold word in X. pose proof (Wp_pos (length p)). cbn [words_value]. nia.
Qed.

(** ** The representation *)

(** [ws] are the words of [b], followed by unused ones. *)
Definition rep (b : BigInteger) (ws : list Z) : Prop :=
  exists rest, digits_ b = map Some ws ++ rest /\ Z.of_nat (length (digits_ b)) = capacity /\
    count_ b = Z.of_nat (length ws) /\ ws <> [] /\ Forall word ws.
Definition normal (ws : list Z) : Prop := last ws 0 = 0 -> ws = [0].
Definition holds (b : BigInteger) (n : Z) : Prop := holds_number (digits_ b) (count_ b) n.

Lemma holds_rep b n : holds b n <-> exists ws, rep b ws /\ normal ws /\ words_value ws = n.
Proof.
  unfold holds, holds_number, rep, normal. split.
  - intros (ws & rest & A & B & C & D & E & F & G). exists ws. split; [exists rest; auto|]. auto.
  - intros (ws & (rest & A & B & C & D & E) & F & G). exists ws, rest. auto 10.
Qed.

Lemma normal_bound ws m : Forall word ws -> length ws = S m -> (m = 0%nat \/ Wp m <= words_value ws) -> normal ws.
Proof.
  intros H L [->|B] T.
  - destruct ws as [|x [|y r]]; try discriminate L. cbn in T. subst. reflexivity.
  - exfalso. exact (top_nonzero ws m H L B T).
Qed.

Lemma normal_lower ws : Forall word ws -> ws <> [] -> normal ws -> words_value ws = 0 /\ ws = [0] \/ Wp (Nat.pred (length ws)) <= words_value ws.
Proof.
  intros H N NM. destruct (Z.eq_dec (last ws 0) 0) as [E|E].
  - left. rewrite (NM E). split; reflexivity.
  - right. apply top_bound; assumption.
Qed.

Lemma rep_length b ws : rep b ws -> (1 <= length ws)%nat /\ Z.of_nat (length ws) <= capacity.
Proof.
  intros (rest & A & B & C & D & E). split; [destruct ws; [contradiction|cbn; lia]|].
  rewrite A, app_length, map_length in B. lia.
Qed.

Lemma word_read_app (p : words) w q : word_read (p ++ Some w :: q) (Z.of_nat (length p)) = Ok w.
Proof.
  unfold word_read. rewrite in_range_true.
  - rewrite Nat2Z.id, app_nth2, Nat.sub_diag by lia. reflexivity.
  - rewrite app_length; cbn [length]; lia.
Qed.

Lemma word_write_app (p : words) x q w : word_write (p ++ x :: q) (Z.of_nat (length p)) w = Ok (p ++ Some w :: q).
Proof.
  unfold word_write. rewrite in_range_true.
  - rewrite Nat2Z.id, set_nth_app. reflexivity.
  - rewrite app_length; cbn [length]; lia.
Qed.

Lemma word_read_words p w q rest i : i = Z.of_nat (length p) -> word_read (map Some (p ++ w :: q) ++ rest) i = Ok w.
Proof.
  intros ->. rewrite map_app. cbn [map]. rewrite <- app_assoc. cbn [app].
  rewrite <- (map_length Some p). apply word_read_app.
Qed.

Lemma word_write_words p w q rest v i : i = Z.of_nat (length p) ->
  word_write (map Some (p ++ w :: q) ++ rest) i v = Ok (map Some (p ++ v :: q) ++ rest).
Proof.
  intros ->. rewrite !map_app. cbn [map]. rewrite <- !app_assoc. cbn [app].
  rewrite <- (map_length Some p). apply word_write_app.
Qed.

Lemma push_back_room ws rest c w : c = Z.of_nat (length ws) -> Z.of_nat (length (map Some ws ++ rest)) = capacity -> c < capacity ->
  exists rest', push_back (Big (map Some ws ++ rest) c) w = Ok (Big (map Some (ws ++ [w]) ++ rest') (c + 1)) /\
    length (map Some (ws ++ [w]) ++ rest') = length (map Some ws ++ rest).
Proof.
  intros -> L H. rewrite app_length, map_length in L. destruct rest as [|x rest']; [cbn [length] in L; lia|]. exists rest'.
  unfold push_back. cbn [count_ digits_]. destruct (Z.ltb_spec (Z.of_nat (length ws)) capacity); [|lia].
  rewrite <- (map_length Some ws) at 1. rewrite word_write_app. cbn [bind]. rewrite map_app, <- app_assoc. split; [reflexivity|].
  rewrite !app_length. cbn [map length app]. rewrite !map_length. reflexivity.
Qed.

Lemma push_back_full ds c w : capacity <= c -> exists m, push_back (Big ds c) w = Throw m.
Proof.
  intros H. unfold push_back. cbn [count_]. destruct (Z.ltb_spec c capacity); [lia|]. eauto.
Qed.

(** The exact number if it fits, an exception if it does not. *)
Definition exact_or_throw (o : outcome BigInteger) (n : Z) : Prop :=
  (n < LIMIT /\ exists b, o = Ok b /\ holds b n) \/ (LIMIT <= n /\ exists w, o = Throw w).

Lemma holds_bounds b n : holds b n -> 0 <= n < LIMIT.
Proof.
  intros H. apply holds_rep in H. destruct H as (ws & R & N & <-). destruct (rep_length _ _ R) as [_ L].
  destruct R as (rest & A & B & C & D & E). pose proof (wv_bounds ws E) as X. rewrite LIMIT_Wp.
  assert (Wp (length ws) <= Wp (Z.to_nat capacity)) by (apply Wp_le; destruct capacity_nat; lia). lia.
Qed.

(** Words with a final carry. *)
Lemma finish_carry ws r k rest c : Z.of_nat (length (map Some ws ++ rest)) = capacity -> c = Z.of_nat (length ws) ->
  length r = length ws -> ws <> [] -> Forall word r -> word k ->
  (k = 0 -> length r = 1%nat \/ Wp (Nat.pred (length r)) <= words_value r) ->
  exact_or_throw (if 0 <? k then push_back (Big (map Some r ++ rest) c) k else Ok (Big (map Some r ++ rest) c))
    (words_value r + Wp (length r) * k).
Proof.
  intros L -> Lr N Hr Hk NB. unfold word in Hk. pose proof (wv_bounds r Hr) as Br. pose proof (Wp_pos (length r)) as P.
  assert (L' : Z.of_nat (length (map Some r ++ rest)) = capacity) by (rewrite app_length, map_length in *; lia).
  assert (Nr : r <> []) by (intros ->; destruct ws; [contradiction|discriminate Lr]).
  assert (CL : Z.of_nat (length r) <= capacity) by (rewrite app_length, map_length in L'; lia).
  destruct (Z.ltb_spec 0 k) as [Pk|Zk].
  - destruct (Z.lt_ge_cases (Z.of_nat (length r)) capacity) as [Room|Full].
    + left. destruct (push_back_room r rest (Z.of_nat (length r)) k eq_refl L' Room) as (rest' & E & EL). rewrite <- Lr. split.
      * rewrite LIMIT_Wp. assert (Wp (S (length r)) <= Wp (Z.to_nat capacity)) by (apply Wp_le; lia). rewrite Wp_S in *. nia.
      * eexists. split; [exact E|]. apply holds_rep. exists (r ++ [k]). split; [|split].
        -- exists rest'. cbn [digits_ count_]. split; [reflexivity|]. split; [rewrite EL; exact L'|].
           split; [rewrite app_length; cbn; lia|]. split; [destruct r; discriminate|].
           apply Forall_app. split; [exact Hr|]. constructor; [exact Hk|constructor].
        -- intros X. rewrite last_last in X. lia.
        -- rewrite wv_app. cbn [words_value]. lia.
    + right. split.
      * rewrite LIMIT_Wp. assert (Z.to_nat capacity = length r) as -> by lia. nia.
      * apply push_back_full. lia.
  - assert (k = 0) by lia. subst k. left. split.
    + rewrite LIMIT_Wp. assert (Wp (length r) <= Wp (Z.to_nat capacity)) by (apply Wp_le; lia). lia.
    + eexists. split; [reflexivity|]. apply holds_rep. exists r. split; [|split; [|lia]].
      * exists rest. cbn [digits_ count_]. rewrite Lr. auto.
      * destruct r as [|x r]; [contradiction|]. apply (normal_bound _ (length r) Hr eq_refl).
        destruct (NB eq_refl) as [X|X]; [left; cbn in X; lia|right; exact X].
Qed.

(** ** Addition *)

Lemma u64_W x : u64 x = x mod W. Proof. reflexivity. Qed.

Lemma add_carry a k : word a -> word k ->
  let s := u64 (a + k) in word s /\ a + k = s + (if s <? a then W else 0).
Proof.
  unfold word. intros Ha Hk. cbn zeta. rewrite u64_W. pose proof W_pos.
  assert (D : (a + k) mod W = if a + k <? W then a + k else a + k - W).
  { destruct (Z.ltb_spec (a + k) W); [apply Z.mod_small; lia|].
    rewrite <- (Z.mod_small (a + k - W) W) by lia. rewrite <- (Z_mod_plus_full (a + k - W) 1 W). f_equal. lia. }
  rewrite D. destruct (Z.ltb_spec (a + k) W).
  - destruct (Z.ltb_spec (a + k) a); lia.
  - destruct (Z.ltb_spec (a + k - W) a); lia.
Qed.

Lemma add_loop_ok q : forall p w backup rest c, word w -> word backup -> Forall word q ->
  exists r k, (k = 0 \/ k = 1) /\ length r = S (length q) /\ Forall word r /\
    words_value r + Wp (length r) * k = w + (if w <? backup then W else 0) + W * words_value q /\
    add_loop (length q) (Big (map Some (p ++ w :: q) ++ rest) c) (Z.of_nat (length p)) backup =
    if 0 <? k then push_back (Big (map Some (p ++ r) ++ rest) c) k else Ok (Big (map Some (p ++ r) ++ rest) c).
Proof.
  induction q as [|v q IH]; intros p w backup rest c Hw Hb Hq; cbn [length add_loop digits_ count_];
    rewrite (word_read_words p w) by reflexivity; cbn [bind].
  - exists [w], (if w <? backup then 1 else 0). rewrite wv_cons. cbn [words_value length]. rewrite Wp_S, Wp_0.
    destruct (w <? backup); (split; [lia|]; split; [reflexivity|]; split; [repeat constructor; exact (proj1 Hw) || exact (proj2 Hw)|]; split; [lia|reflexivity]).
  - inversion Hq as [|? ? Hv Hq']; subst.
    destruct (Z.leb_spec backup w) as [C|C].
    + exists (w :: v :: q), 0. split; [auto|]. split; [reflexivity|]. split; [constructor; [exact Hw|exact Hq]|].
      split; [|reflexivity]. destruct (Z.ltb_spec w backup); [lia|]. rewrite (wv_cons w). lia.
    + destruct (Z.ltb_spec w backup); [|lia].
      assert (E1 : word_read (map Some (p ++ w :: v :: q) ++ rest) (Z.of_nat (length p) + 1) = Ok v).
      { replace (p ++ w :: v :: q) with ((p ++ [w]) ++ v :: q) by (rewrite <- app_assoc; reflexivity).
        apply word_read_words. rewrite app_length. cbn. lia. }
      rewrite E1. cbn [bind].
      assert (E2 : word_write (map Some (p ++ w :: v :: q) ++ rest) (Z.of_nat (length p) + 1) (u64 (v + 1)) =
                   Ok (map Some ((p ++ [w]) ++ u64 (v + 1) :: q) ++ rest)).
      { replace (p ++ w :: v :: q) with ((p ++ [w]) ++ v :: q) by (rewrite <- app_assoc; reflexivity).
        apply word_write_words. rewrite app_length. cbn. lia. }
      rewrite E2. cbn [bind]. pose proof (add_carry v 1 Hv ltac:(unfold word; split; [lia|reflexivity])) as [Hs Es].
      destruct (IH (p ++ [w]) (u64 (v + 1)) v rest c Hs Hv Hq') as (r & k & Hk & Lr & Hr & Vr & Er).
      exists (w :: r), k. split; [exact Hk|]. split; [cbn [length]; rewrite Lr; reflexivity|]. split; [constructor; assumption|]. split.
      * cbn [length]. rewrite Wp_S, !wv_cons. nia.
      * replace (Z.of_nat (length p) + 1) with (Z.of_nat (length (p ++ [w]))) by (rewrite app_length; cbn; lia).
        rewrite Er. rewrite <- app_assoc. reflexivity.
Qed.

Lemma add_word_ok b n d : holds b n -> word d -> exact_or_throw (add_word b d) (n + d).
Proof.
  intros H Hd. apply holds_rep in H. destruct H as (ws & (rest & A & B & C & D & E) & N & V).
  destruct b as [ds c]; cbn [digits_ count_] in *. subst ds c.
  destruct ws as [|w q]; [contradiction|]. inversion E as [|? ? Hw Hq]; subst.
  unfold add_word. cbn [digits_ count_]. change (w :: q) with ([] ++ w :: q) at 1. rewrite (word_read_words [] w q rest 0 eq_refl). cbn [bind].
  change (w :: q) with ([] ++ w :: q) at 1. rewrite (word_write_words [] w q rest _ 0 eq_refl). cbn [bind length].
  replace (Z.to_nat (Z.of_nat (S (length q)) - 1)) with (length q) by lia.
  destruct (add_carry w d Hw Hd) as [Hs Es].
  destruct (add_loop_ok q [] (u64 (w + d)) w rest (Z.of_nat (S (length q))) Hs Hw Hq) as (r & k & Hk & Lr & Hr & Vr & Er).
  change (Z.of_nat (length [])) with 0 in Er. cbn [length] in Er. rewrite Er. cbn [app].
  replace (words_value (w :: q) + d) with (words_value r + Wp (length r) * k) by (rewrite Vr, wv_cons; lia).
  apply (finish_carry (w :: q)); [exact B|reflexivity|exact Lr|discriminate|exact Hr|destruct Hk as [-> | ->]; split; (lia || reflexivity)|].
  intros ->. rewrite Z.mul_0_r, Z.add_0_r in Vr.
  destruct (normal_lower (w :: q) E D N) as [[_ X]|X]; [left; injection X as -> ->; rewrite Lr; reflexivity|].
  right. rewrite Lr. cbn [length Nat.pred] in *. rewrite Vr. rewrite wv_cons in X. unfold word in Hd. lia.
Qed.

(** ** Multiplication *)

(** What one step must do, for the multiplier [D]. *)
Definition good_step (D : Z) (step : Z -> Z -> Z * Z) : Prop :=
  forall w k, word w -> 0 <= k < D -> let (lo, hi) := step w k in word lo /\ 0 <= hi /\ lo + W * hi = D * w + k.

Lemma mul_loop_ok D step : 0 < D -> good_step D step -> forall q p k rest, Forall word q -> 0 <= k < D ->
  exists r h, length r = length q /\ Forall word r /\ 0 <= h < D /\ words_value r + Wp (length q) * h = D * words_value q + k /\
    mul_loop step (length q) (map Some (p ++ q) ++ rest) (Z.of_nat (length p)) k = Ok (map Some (p ++ r) ++ rest, h).
Proof.
  intros HD S. induction q as [|w q IH]; intros p k rest Hq Hk.
  - exists [], k. split; [reflexivity|]. split; [exact Hq|]. split; [exact Hk|]. split; [cbn [length words_value]; rewrite Wp_0; lia|reflexivity].
  - inversion Hq as [|? ? Hw Hq']; subst. cbn [length mul_loop]. rewrite (word_read_words p w) by reflexivity. cbn [bind].
    pose proof (S w k Hw Hk) as St. destruct (step w k) as [lo hi]. destruct St as (Hlo & Hhi & E).
    rewrite (word_write_words p w) by reflexivity. cbn [bind].
    assert (Hh : 0 <= hi < D) by (unfold word in *; nia).
    destruct (IH (p ++ [lo]) hi rest Hq' Hh) as (r & h & Lr & Hr & Hh' & V & Er).
    exists (lo :: r), h. split; [cbn [length]; rewrite Lr; reflexivity|]. split; [constructor; assumption|]. split; [exact Hh'|]. split.
    + rewrite !wv_cons, Wp_S. nia.
    + replace (p ++ lo :: q) with ((p ++ [lo]) ++ q) by (rewrite <- app_assoc; reflexivity).
      replace (Z.of_nat (length p) + 1) with (Z.of_nat (length (p ++ [lo]))) by (rewrite app_length; cbn; lia).
      rewrite Er, <- app_assoc. reflexivity.
Qed.

Lemma assign_word_ok b ws d : rep b ws -> word d -> exists b', assign_word b d = Ok b' /\ holds b' d.
Proof.
  intros (rest & A & B & C & D & E) Hd. destruct b as [ds c]; cbn [digits_ count_] in *. subst ds c.
  destruct ws as [|w q]; [contradiction|]. unfold assign_word. cbn [digits_].
  change (w :: q) with ([] ++ w :: q) at 1. rewrite (word_write_words [] w q rest d 0 eq_refl). cbn [bind app].
  eexists. split; [reflexivity|]. apply holds_rep. exists [d]. split; [|split; [|cbn; lia]].
  - exists (map Some q ++ rest). cbn [digits_ count_]. split; [reflexivity|]. split; [exact B|]. split; [reflexivity|].
    split; [discriminate|repeat constructor; apply Hd].
  - intros X. cbn in X. subst. reflexivity.
Qed.

Lemma small_limit d : word d -> d < LIMIT.
Proof.
  intros H. rewrite LIMIT_Wp. apply Z.lt_le_trans with (Wp 1); [rewrite Wp_S, Wp_0; unfold word in H; lia|].
  apply Wp_le. destruct capacity_nat. lia.
Qed.

Lemma equal_word_ok b ws d : rep b ws -> normal ws -> word d -> equal_word b d = Ok (words_value ws =? d).
Proof.
  intros (rest & A & B & C & D & E) N Hd. destruct b as [ds c]; cbn [digits_ count_] in *. subst ds c.
  unfold equal_word. cbn [count_ digits_]. destruct ws as [|w [|v q]]; [contradiction| |].
  - change (Z.of_nat (length [w]) =? 1) with true. cbn iota. change [w] with ([] ++ w :: []) at 1.
    rewrite (word_read_words [] w [] rest 0 eq_refl). cbn [bind]. rewrite wv_cons. cbn [words_value]. do 2 f_equal. lia.
  - destruct (Z.eqb_spec (Z.of_nat (length (w :: v :: q))) 1) as [X|X]; [cbn [length] in X; lia|].
    destruct (normal_lower (w :: v :: q) E D N) as [[_ Y]|Y]; [discriminate Y|].
    destruct (Z.eqb_spec (words_value (w :: v :: q)) d) as [Z0|Z0]; [|reflexivity]. exfalso.
    cbn [length Nat.pred] in Y. rewrite Wp_S in Y. pose proof (Wp_pos (length q)). pose proof W_pos. unfold word in Hd. nia.
Qed.

Lemma multiply_ok step b n D : good_step D step -> holds b n -> word D -> exact_or_throw (multiply step b D) (n * D).
Proof.
  intros S H HD. pose proof (holds_bounds b n H) as NB. pose proof H as H0. apply holds_rep in H. destruct H as (ws & R & N & V).
  unfold multiply.
  destruct (Z.eqb_spec D 0) as [->|D0].
  { rewrite Z.mul_0_r. left. split; [apply small_limit; split; [lia|reflexivity]|]. apply (assign_word_ok b ws); [exact R|split; [lia|reflexivity]]. }
  destruct (Z.eqb_spec D 1) as [->|D1].
  { rewrite Z.mul_1_r. left. split; [lia|eauto]. }
  rewrite (equal_word_ok b ws 1 R N) by (split; [lia|reflexivity]). cbn [bind]. rewrite V.
  destruct (Z.eqb_spec n 1) as [->|N1].
  { rewrite Z.mul_1_l. left. split; [apply small_limit; exact HD|]. apply (assign_word_ok b ws); assumption. }
  destruct R as (rest & A & B & C & ND & E). destruct b as [ds c]; cbn [digits_ count_] in *. subst ds c. rewrite Nat2Z.id.
  assert (DP : 0 < D) by (unfold word in HD; lia).
  destruct (mul_loop_ok D step DP S ws [] 0 rest E ltac:(lia)) as (r & h & Lr & Hr & Hh & Vr & Er).
  change (Z.of_nat (length [])) with 0 in Er. cbn [app] in Er. rewrite Er. cbn [bind].
  replace (n * D) with (words_value r + Wp (length r) * h) by (rewrite Lr; lia).
  apply (finish_carry ws); [exact B|reflexivity|exact Lr|exact ND|exact Hr|unfold word in *; lia|].
  intros ->. rewrite Z.mul_0_r, !Z.add_0_r in Vr. rewrite Lr.
  destruct (normal_lower ws E ND N) as [[_ X]|X]; [left; rewrite X; reflexivity|right]. rewrite Vr. nia.
Qed.

(** The three versions of mulAdd. *)
Lemma msvc_step D : word D -> good_step D (fun w k => mulAdd_msvc w D k).
Proof.
  intros HD w k Hw Hk. unfold mulAdd_msvc. unfold word in *. change (2 ^ 64) with W.
  pose proof (Z.div_mod (w * D) W ltac:(discriminate)) as E. pose proof (Z.mod_pos_bound (w * D) W eq_refl) as M.
  assert (Q : 0 <= w * D / W < D) by (split; [apply Z.div_pos; nia|apply Z.div_lt_upper_bound; nia]).
  rewrite (u64_W (w * D)). set (lo := (w * D) mod W) in *. set (hi := w * D / W) in *.
  destruct (add_carry k lo ltac:(unfold word; lia) ltac:(unfold word; lia)) as [Hs Es].
  rewrite (Z.add_comm lo k). destruct (u64 (k + lo) <? k).
  - rewrite (u64_W (hi + 1)), (Z.mod_small (hi + 1)) by lia. unfold word in *. split; [exact Hs|]. split; [lia|]. nia.
  - split; [exact Hs|]. split; [lia|]. nia.
Qed.

Lemma shiftr64 p : 0 <= p < W * W -> u64 (Z.shiftr p 64) = p / W.
Proof.
  intros H. rewrite Z.shiftr_div_pow2 by lia. rewrite u64_W. change (2 ^ 64) with W. apply Z.mod_small.
  pose proof W_pos. split; [apply Z.div_pos; lia|apply Z.div_lt_upper_bound; lia].
Qed.

Lemma gnuc_step D : word D -> good_step D (fun w k => mulAdd_gnuc w D k).
Proof.
  intros HD w k Hw Hk. unfold mulAdd_gnuc. unfold word in *. change (2 ^ 128) with (W * W).
  rewrite (Z.mod_small (w * D)) by nia. rewrite (Z.mod_small (w * D + k)) by nia.
  rewrite shiftr64 by nia. rewrite u64_W. pose proof (Z.div_mod (w * D + k) W ltac:(discriminate)) as E.
  pose proof (Z.mod_pos_bound (w * D + k) W eq_refl) as M.
  split; [exact M|]. split; [apply Z.div_pos; nia|lia].
Qed.

(** Half words *)
Definition H32 : Z := 2 ^ 32.
Lemma W_H32 : W = H32 * H32. Proof. reflexivity. Qed.
Lemma land32 x : Z.land x 0xFFFFFFFF = x mod H32.
Proof. change 0xFFFFFFFF with (Z.ones 32). apply Z.land_ones. lia. Qed.
Lemma shr32 x : Z.shiftr x 32 = x / H32.
Proof. apply Z.shiftr_div_pow2. lia. Qed.
Lemma halves x : word x -> exists h l, x / H32 = h /\ x mod H32 = l /\ x = h * H32 + l /\ 0 <= h < H32 /\ 0 <= l < H32.
Proof.
  intros X. exists (x / H32), (x mod H32). unfold word in X. rewrite W_H32 in X.
  assert (P : 0 < H32) by reflexivity.
  pose proof (Z.div_mod x H32 ltac:(lia)). pose proof (Z.mod_pos_bound x H32 P).
  split; [reflexivity|]. split; [reflexivity|]. split; [lia|]. split; [|lia].
  split; [apply Z.div_pos; lia|apply Z.div_lt_upper_bound; lia].
Qed.

Lemma join_halves h l : 0 <= h < H32 -> 0 <= l < H32 -> 0 <= h * H32 + l < W.
Proof. rewrite W_H32. assert (0 < H32) by reflexivity. intros. nia. Qed.
Lemma high_half h : 0 <= h < H32 -> 0 <= h * H32 < W.
Proof. rewrite W_H32. assert (0 < H32) by reflexivity. intros. nia. Qed.

Lemma generic_product a b : word a -> word b ->
  let a0 := a mod H32 in let a1 := a / H32 in let b0 := b mod H32 in let b1 := b / H32 in
  let x0 := u64 (a0 * b0) in let x1 := u64 (a0 * b1) in let x2 := u64 (a1 * b0) in let x3 := u64 (a1 * b1) in
  let x1 := u64 (x1 + x0 / H32) in
  let x1' := u64 (x1 + x2) in
  let x3' := if x1' <? x2 then u64 (x3 + H32) else x3 in
  let lo := u64 (u64 (x1' * H32) + x0 mod H32) in
  let hi := u64 (x3' + x1' / H32) in
  word lo /\ 0 <= hi < W /\ lo + W * hi = a * b.
Proof.
  intros Ha Hb. destruct (halves a Ha) as (a1 & a0 & -> & -> & Ea & Ba1 & Ba0).
  destruct (halves b Hb) as (b1 & b0 & -> & -> & Eb & Bb1 & Bb0).
  assert (PH : 1 < H32) by reflexivity. pose proof W_H32 as WH. cbn zeta.
  assert (S : forall x y, 0 <= x < H32 -> 0 <= y < H32 -> 0 <= x * y <= (H32 - 1) * (H32 - 1)) by (intros; nia).
  pose proof (S a0 b0 Ba0 Bb0) as S00. pose proof (S a0 b1 Ba0 Bb1) as S01. pose proof (S a1 b0 Ba1 Bb0) as S10. pose proof (S a1 b1 Ba1 Bb1) as S11.
  assert (SQ : (H32 - 1) * (H32 - 1) = W - 2 * H32 + 1) by (rewrite WH; ring). rewrite SQ in *.
  assert (EV : a * b = a1 * b1 * W + (a0 * b1 + a1 * b0) * H32 + a0 * b0) by (rewrite Ea, Eb, WH; ring).
  rewrite (u64_W (a0 * b0)), (u64_W (a0 * b1)), (u64_W (a1 * b0)), (u64_W (a1 * b1)).
  rewrite (Z.mod_small (a0 * b0)), (Z.mod_small (a0 * b1)), (Z.mod_small (a1 * b0)), (Z.mod_small (a1 * b1)) by lia.
  set (x0 := a0 * b0) in *. set (x1 := a0 * b1) in *. set (x2 := a1 * b0) in *. set (x3 := a1 * b1) in *.
  destruct (halves x0 ltac:(unfold word; lia)) as (h0 & l0 & -> & -> & E0 & Bh0 & Bl0).
  rewrite (u64_W (x1 + h0)). rewrite (Z.mod_small (x1 + h0)) by lia.
  assert (Wx2 : word x2) by (unfold word; lia). assert (Wx1 : word (x1 + h0)) by (unfold word; lia).
  destruct (add_carry x2 (x1 + h0) Wx2 Wx1) as [Hs Es]. rewrite (Z.add_comm x2 (x1 + h0)) in Hs, Es.
  set (y := u64 (x1 + h0 + x2)) in *.
  destruct (halves y Hs) as (hy & ly & -> & _ & Ey & Bhy & Bly).
  assert (ELO : u64 (u64 (y * H32) + l0) = ly * H32 + l0).
  { rewrite (u64_W (y * H32)). replace (y * H32) with (ly * H32 + hy * W) by (rewrite Ey, WH; ring).
    rewrite Z_mod_plus_full, (Z.mod_small (ly * H32)) by (apply high_half; exact Bly). rewrite u64_W. apply Z.mod_small. apply join_halves; assumption. }
  rewrite ELO.
  assert (WL : word (ly * H32 + l0)) by (apply join_halves; assumption).
  set (carry := if y <? x2 then H32 else 0).
  assert (EX : (if y <? x2 then u64 (x3 + H32) else x3) = x3 + carry).
  { unfold carry. destruct (y <? x2); [|lia]. rewrite u64_W. apply Z.mod_small. lia. }
  rewrite EX.
  assert (TOT : (ly * H32 + l0) + W * (x3 + carry + hy) = a * b).
  { rewrite EV. fold x3. rewrite <- (Z.add_comm x2 x1).
    assert (Es' : x2 + x1 = y - h0 + (if y <? x2 then W else 0)) by lia.
    unfold carry. destruct (y <? x2); rewrite Es'; rewrite E0; rewrite Ey; rewrite WH; ring. }
  assert (AB : a * b < W * W) by (clear - Ha Hb; unfold word in Ha, Hb; nia).
  assert (CN : 0 <= carry) by (unfold carry; destruct (y <? x2); lia).
  assert (BH : 0 <= x3 + carry + hy < W).
  { split; [lia|]. rewrite <- TOT in AB. clear - AB WL. unfold word in WL. set (u := x3 + carry + hy) in *. pose proof W_pos. nia. }
  rewrite u64_W. rewrite Z.mod_small by exact BH. split; [exact WL|]. split; [exact BH|exact TOT].
Qed.

Lemma generic_step D : word D -> good_step D (fun w k => mulAdd_generic w D k).
Proof.
  intros HD w k Hw Hk. unfold mulAdd_generic. rewrite !land32, !shr32. rewrite !Z.shiftl_mul_pow2 by lia. change (1 * 2 ^ 32) with H32.
  change (2 ^ 32) with H32.
  pose proof (generic_product w D Hw HD) as G. cbn zeta in G. cbn zeta.
  match type of G with word ?l /\ 0 <= ?h < W /\ _ => set (lo := l) in *; set (hi := h) in * end. destruct G as (Gl & Gh & GE).
  clearbody lo hi.
  assert (HH : hi < D).
  { unfold word in *. apply (Z.mul_lt_mono_pos_l W); [reflexivity|].
    assert (D * w <= D * (W - 1)) by (apply Z.mul_le_mono_nonneg_l; lia). lia. }
  destruct (add_carry k lo ltac:(unfold word in *; lia) Gl) as [Hs Es]. rewrite (Z.add_comm lo k).
  destruct (u64 (k + lo) <? k) eqn:C.
  - assert (hi + 1 < W) by (unfold word in HD; lia). rewrite (u64_W (hi + 1)), (Z.mod_small (hi + 1)) by lia.
    split; [exact Hs|]. split; [lia|]. nia.
  - split; [exact Hs|]. split; [lia|]. nia.
Qed.

Lemma mulAdd_step cc D : word D -> good_step D (fun w k => mulAdd cc w D k).
Proof. intros H. destruct cc; [apply msvc_step|apply gnuc_step|apply generic_step]; exact H. Qed.

Lemma mul_word_ok cc b n d : holds b n -> word d -> exact_or_throw (mul_word cc b d) (n * d).
Proof. intros H Hd. apply (multiply_ok (fun w k => mulAdd cc w d k)); [apply mulAdd_step; exact Hd|exact H|exact Hd]. Qed.
