(** BigIntegers whose words are defined, and nothing else. *)
From Verif Require Import Machine LibMachine SpecDecimal SpecBig SpecBigProgram SpecBigStore SpecBigWords ModelDiyfp ModelBigint ModelThrown ModelBigStore
  ProofBig ProofBig2 ProofBig3 ProofBig4 ProofBig5 ProofBig6 ProofThrown ProofBigStore.
Open Scope Z_scope.
Ltac Zify.zify_post_hook ::= idtac.

Definition is_thing (x : thing) (b : BigInteger) : Prop := count_ b = fst x /\ holds_words (digits_ b) (count_ b) (snd x).

Lemma thing_rep c n b : is_thing (c, n) b <-> exists ws, rep b ws /\ Z.of_nat (length ws) = c /\ words_value ws = n.
Proof.
  split.
  - intros (C & ws & rest & A & B & D & E & F & V). cbn [fst snd] in *. exists ws. split; [|split; [rewrite <- D; exact C|exact V]].
    exists rest. auto.
  - intros (ws & (rest & A & B & D & E & F) & L & V). split; [cbn [fst]; rewrite D; exact L|]. exists ws, rest. auto 7.
Qed.

Lemma thing_bounds c n b : is_thing (c, n) b -> 1 <= c <= 416 /\ 0 <= n < 2 ^ (64 * c).
Proof.
  intros H. apply thing_rep in H. destruct H as (ws & R & <- & <-). destruct (rep_length _ _ R) as [L1 L2]. destruct capacity_nat as [_ C]. rewrite C in L2.
  split; [lia|]. rewrite <- Wp_pow. apply wv_bounds. destruct R as (? & _ & _ & _ & _ & F). exact F.
Qed.

Lemma thing_length x b : is_thing x b -> Z.of_nat (length (digits_ b)) = 416.
Proof. intros (_ & ws & rest & _ & L & _). exact L. Qed.

(** ** Numbers *)

Lemma holds_thing b n : holds b n <-> is_thing (count_ b, n) b /\ (count_ b = 1 \/ 2 ^ (64 * (count_ b - 1)) <= n).
Proof.
  split.
  - intros H. destruct (count_of b n H) as (C1 & U & Z1 & Lw). split.
    + destruct H as (ws & rest & A & B & C & D & E & _ & V). split; [reflexivity|]. exists ws, rest. auto 7.
    + destruct (Z.eq_dec n 0) as [N|N]; [left; exact (Z1 N)|right; exact (Lw N)].
  - intros [H N]. apply thing_rep in H. destruct H as (ws & R & L & V). apply holds_rep. exists ws. split; [exact R|]. split; [|exact V].
    destruct R as (rest & A & B & C & D & E). destruct ws as [|w q]; [contradiction|]. apply (normal_bound _ (length q) E eq_refl).
    cbn [length] in L. destruct N as [N|N]; [left; lia|right]. rewrite V, Wp_pow. replace (Z.of_nat (length q)) with (count_ b - 1) by lia. exact N.
Qed.

Lemma width_bounds v : 0 < v -> 2 ^ (64 * (width v - 1)) <= v < 2 ^ (64 * width v) /\ 1 <= width v.
Proof.
  intros P. destruct (Z.log2_spec v P) as [A B]. unfold width. pose proof (Z.log2_nonneg v) as N. pose proof (Z.div_mod (Z.log2 v) 64 ltac:(lia)) as D.
  pose proof (Z.mod_pos_bound (Z.log2 v) 64 ltac:(lia)) as M. assert (0 <= Z.log2 v / 64) by (apply Z.div_pos; lia).
  set (q := Z.log2 v / 64) in *. set (r := Z.log2 v mod 64) in *. set (l := Z.log2 v) in *. clearbody l q r.
  split; [split|lia].
  - eapply Z.le_trans; [|exact A]. apply Z.pow_le_mono_r; lia.
  - eapply Z.lt_le_trans; [exact B|]. apply Z.pow_le_mono_r; lia.
Qed.

Lemma width_unique v c : 0 < v -> 1 <= c -> 2 ^ (64 * (c - 1)) <= v < 2 ^ (64 * c) -> width v = c.
Proof.
  intros P C B. destruct (width_bounds v P) as [W1 W2]. destruct (Z.lt_trichotomy (width v) c) as [L|[L|L]]; [exfalso|exact L|exfalso].
  - assert (2 ^ (64 * width v) <= 2 ^ (64 * (c - 1))) by (apply Z.pow_le_mono_r; lia). lia.
  - assert (2 ^ (64 * c) <= 2 ^ (64 * (width v - 1))) by (apply Z.pow_le_mono_r; lia). lia.
Qed.

Definition normal_thing (v : Z) : thing := (if v =? 0 then 1 else width v, v).

Lemma holds_normal b n : holds b n -> is_thing (normal_thing n) b.
Proof.
  intros H. pose proof (holds_bounds b n H) as NB. destruct (count_of b n H) as (C1 & U & Z1 & Lw). pose proof (proj1 (holds_thing b n) H) as [T _].
  unfold normal_thing. destruct (Z.eqb_spec n 0) as [N|N]; [rewrite <- (Z1 N); exact T|].
  rewrite (width_unique n (count_ b)); [exact T|lia|lia|]. split; [exact (Lw N)|exact U].
Qed.

(** ** Addition and multiplication *)

Definition does (a : attempt) (r : thing * seen) : Prop := exists b t, a = Ok (b, t) /\ is_thing (fst r) b /\ caught t = snd r.

Lemma settle_below c p : p < 2 ^ (64 * c) -> settle c p = ((c, p), Nothing).
Proof. intros H. unfold settle. apply Z.ltb_lt in H. rewrite H. reflexivity. Qed.

Lemma finish_any ws r k rest : Z.of_nat (length (map Some ws ++ rest)) = capacity -> length r = length ws -> ws <> [] -> Forall word r -> word k ->
  does (if 0 <? k then t_push_back (Big (map Some r ++ rest) (Z.of_nat (length ws))) k else Ok (Big (map Some r ++ rest) (Z.of_nat (length ws)), None))
    (settle (Z.of_nat (length ws)) (words_value r + Wp (length r) * k)).
Proof.
  intros L Lr N Hr Hk. unfold word in Hk. pose proof (wv_bounds r Hr) as Br. pose proof (Wp_pos (length r)) as P. unfold settle.
  assert (Nr : r <> []) by (intros ->; destruct ws; [contradiction|discriminate Lr]).
  rewrite app_length, map_length in L. rewrite <- Lr in *. rewrite <- Wp_pow. destruct capacity_nat as [CN1 CN2].
  destruct (Z.ltb_spec 0 k) as [Pk|Zk].
  - destruct (Z.ltb_spec (words_value r + Wp (length r) * k) (Wp (length r))) as [X|_]; [exfalso; nia|].
    unfold t_push_back. cbn [count_ digits_]. rewrite CN2 in *. destruct (Z.ltb_spec (Z.of_nat (length r)) 416) as [Room|Full].
    + destruct rest as [|x rest]; [cbn [length] in L; lia|].
      rewrite <- (map_length Some r) at 1. rewrite word_write_app. cbn [bind]. eexists _, _. split; [reflexivity|]. split; [|reflexivity].
      cbn [fst]. apply thing_rep. exists (r ++ [k]). split; [|split].
      * exists rest. cbn [digits_ count_]. split; [rewrite map_app, <- app_assoc; reflexivity|]. rewrite !app_length, !map_length. cbn [length] in *.
        split; [rewrite CN2; lia|]. split; [lia|]. split; [destruct r; discriminate|]. apply Forall_app. split; [exact Hr|]. constructor; [exact Hk|constructor].
      * rewrite app_length. cbn [length]. lia.
      * rewrite wv_app. cbn [words_value]. lia.
    + assert (rest = []) as -> by (destruct rest; [reflexivity|cbn [length] in L; lia]).
      assert (EL : length r = Z.to_nat capacity) by lia.
      eexists _, _. split; [reflexivity|]. split; [|reflexivity]. cbn [fst]. apply thing_rep. exists r. split; [|split].
      * exists []. cbn [digits_ count_]. rewrite app_length, map_length. cbn [length] in *. rewrite CN2. split; [reflexivity|]. split; [lia|]. auto.
      * lia.
      * rewrite LIMIT_Wp, <- EL. rewrite (Z.mul_comm (Wp (length r)) k), Z_mod_plus_full. symmetry. apply Z.mod_small. exact Br.
  - assert (k = 0) by lia. subst k. rewrite Z.mul_0_r, Z.add_0_r. destruct (Z.ltb_spec (words_value r) (Wp (length r))) as [_|X]; [|lia].
    eexists _, _. split; [reflexivity|]. split; [|reflexivity]. cbn [fst]. apply thing_rep. exists r. split; [|auto].
    exists rest. cbn [digits_ count_]. rewrite app_length, map_length. auto.
Qed.

Lemma add_any c n b d : is_thing (c, n) b -> word d -> does (t_add_word b d) (settle c (n + d)).
Proof.
  intros H Hd. apply thing_rep in H. destruct H as (ws & (rest & A & B & C & D & E) & L & V).
  destruct b as [ds c0]; cbn [digits_ count_] in *. subst ds c0 c.
  destruct ws as [|w q]; [contradiction|]. inversion E as [|? ? Hw Hq]; subst.
  unfold t_add_word. cbn [digits_ count_]. change (w :: q) with ([] ++ w :: q) at 1. rewrite (word_read_words [] w q rest 0 eq_refl). cbn [bind].
  change (w :: q) with ([] ++ w :: q) at 1. rewrite (word_write_words [] w q rest _ 0 eq_refl). cbn [bind length].
  replace (Z.to_nat (Z.of_nat (S (length q)) - 1)) with (length q) by lia.
  destruct (add_carry w d Hw Hd) as [Hs Es].
  destruct (t_add_loop_ok q [] (u64 (w + d)) w rest (Z.of_nat (S (length q))) Hs Hw Hq) as (r & k & Hk & Lr & Hr & Vr & Er).
  change (Z.of_nat (length [])) with 0 in Er. cbn [length] in Er. rewrite Er. cbn [app].
  assert (EV : words_value (w :: q) + d = words_value r + Wp (length r) * k) by (rewrite Vr, wv_cons; lia). rewrite EV.
  apply (finish_any (w :: q)); [exact B|exact Lr|discriminate|exact Hr|destruct Hk as [-> | ->]; split; (lia || reflexivity)].
Qed.

Lemma assign_word_thing b d : Z.of_nat (length (digits_ b)) = 416 -> word d -> exists b', assign_word b d = Ok b' /\ is_thing (1, d) b'.
Proof.
  intros L Hd. destruct (assign_word_any b d L Hd) as (b' & E & H). exists b'. split; [exact E|].
  apply holds_normal in H. unfold normal_thing in H. unfold word in Hd. destruct (Z.eqb_spec d 0) as [X|X]; [rewrite X in *; exact H|].
  rewrite (width_unique d 1) in H; [exact H|lia|lia|]. change (2 ^ (64 * (1 - 1))) with 1. change (64 * 1) with 64. fold W. lia.
Qed.

Lemma equal_word_any c n b d : is_thing (c, n) b -> equal_word b d = Ok ((c =? 1) && (n =? d)).
Proof.
  intros H. apply thing_rep in H. destruct H as (ws & (rest & A & B & C & D & E) & L & V).
  destruct b as [ds c0]; cbn [digits_ count_] in *. subst ds c0 c n. unfold equal_word. cbn [count_ digits_].
  destruct ws as [|w [|v q]]; [contradiction| |].
  - change (Z.of_nat (length [w]) =? 1) with true. cbn iota. change [w] with ([] ++ w :: []) at 1.
    rewrite (word_read_words [] w [] rest 0 eq_refl). cbn [bind]. rewrite wv_cons. cbn [words_value andb]. do 2 f_equal. lia.
  - destruct (Z.eqb_spec (Z.of_nat (length (w :: v :: q))) 1) as [X|X]; [cbn [length] in X; lia|]. reflexivity.
Qed.

Lemma is_zero_any c n b : is_thing (c, n) b -> big_isZero b = Ok ((c =? 1) && (n =? 0)).
Proof. intros H. exact (equal_word_any c n b 0 H). Qed.

Lemma multiply_any step c n b D : good_step D step -> is_thing (c, n) b -> word D -> does (t_multiply step b D) (times (c, n) D).
Proof.
  intros S H HD. pose proof (thing_bounds c n b H) as [CB NB]. unfold t_multiply, times. cbn [fst snd].
  destruct (Z.eqb_spec D 0) as [->|D0].
  { destruct (assign_word_thing b 0 (thing_length _ _ H) ltac:(split; [lia|reflexivity])) as (b' & E & H'). unfold returned. rewrite E. cbn [bind].
    eexists _, _. split; [reflexivity|]. split; [exact H'|reflexivity]. }
  destruct (Z.eqb_spec D 1) as [->|D1].
  { rewrite Z.mul_1_r, settle_below by apply NB. eexists _, _. split; [reflexivity|]. split; [exact H|reflexivity]. }
  rewrite (equal_word_any c n b 1 H). cbn [bind].
  destruct ((c =? 1) && (n =? 1)) eqn:ONE.
  { apply andb_prop in ONE. destruct ONE as [E1 E2]. apply Z.eqb_eq in E1. apply Z.eqb_eq in E2. subst c n. rewrite Z.mul_1_l.
    rewrite settle_below by (change (64 * 1) with 64; apply HD).
    destruct (assign_word_thing b D (thing_length _ _ H) HD) as (b' & E & H'). unfold returned. rewrite E. cbn [bind].
    eexists _, _. split; [reflexivity|]. split; [exact H'|reflexivity]. }
  apply thing_rep in H. destruct H as (ws & (rest & A & B & C & ND & E) & L & V).
  destruct b as [ds c0]; cbn [digits_ count_] in *. subst ds c0 c. rewrite Nat2Z.id.
  assert (DP : 0 < D) by (unfold word in HD; lia).
  destruct (mul_loop_ok D step DP S ws [] 0 rest E ltac:(lia)) as (r & h & Lr & Hr & Hh & Vr & Er).
  change (Z.of_nat (length [])) with 0 in Er. cbn [app] in Er. rewrite Er. cbn [bind].
  assert (EV : n * D = words_value r + Wp (length r) * h) by (rewrite Lr; lia). rewrite EV.
  apply (finish_any ws); [exact B|exact Lr|exact ND|exact Hr|unfold word in *; lia].
Qed.

Lemma mul_any cc c n b d : is_thing (c, n) b -> word d -> does (t_mul_word cc b d) (times (c, n) d).
Proof. intros H Hd. apply multiply_any; [apply mulAdd_step; exact Hd|exact H|exact Hd]. Qed.

Lemma mul32_any c n b d : is_thing (c, n) b -> 0 <= d < H32 -> does (t_mul_word32 b d) (times (c, n) d).
Proof. intros H Hd. apply multiply_any; [apply mul32_ok; exact Hd|exact H|apply H32_word; exact Hd]. Qed.

(** ** Powers of five *)

Lemma pow5_any mult step : 1 <= step -> (forall x b, is_thing x b -> does (mult b) (times x (5 ^ step))) ->
  forall fuel e x b k fs, is_thing x b -> 0 <= e <= Z.of_nat fuel ->
  (forall y c, is_thing y c -> does (k c (e mod step)) (times_all y fs)) ->
  does (t_pow5_loop mult step fuel b e k) (times_all x (repeat (5 ^ step) (Z.to_nat (e / step)) ++ fs)).
Proof.
  intros HS HM. induction fuel as [|fuel IH]; intros e x b k fs H He HK.
  - assert (e = 0) by lia. subst e. cbn [t_pow5_loop]. destruct (Z.leb_spec step 0); [lia|].
    rewrite Z.div_0_l by lia. rewrite Z.mod_0_l in HK by lia. apply HK. exact H.
  - cbn [t_pow5_loop]. destruct (Z.leb_spec step e) as [L|L].
    + assert (M1 : (e - step) mod step = e mod step).
      { replace (e - step) with (e + (-1) * step) by ring. apply Z_mod_plus_full. }
      assert (D1 : (e - step) / step = e / step - 1).
      { replace (e - step) with (e + (-1) * step) by ring. rewrite Z_div_plus_full by lia. ring. }
      assert (Q1 : 1 <= e / step) by (apply Z.div_le_lower_bound; lia).
      replace (Z.to_nat (e / step)) with (S (Z.to_nat ((e - step) / step))) by (rewrite D1; clear - Q1; lia). cbn [repeat app times_all].
      destruct (HM x b H) as (b' & t & E & T & C). rewrite E. unfold then_. cbn [bind].
      destruct (times x (5 ^ step)) as [y v]. cbn [fst snd] in *. destruct t as [w|]; cbn [caught] in C; subst v.
      * exists b', (Some w). split; [reflexivity|]. split; [exact T|reflexivity].
      * apply IH; [exact T|clear - He L HS; lia|]. rewrite M1. exact HK.
    + rewrite Z.div_small by lia. rewrite Z.mod_small in HK by lia. apply HK. exact H.
Qed.

Lemma times_all_one x f : times_all x [f] = times x f.
Proof. cbn [times_all]. destruct (times x f) as [y [| |]]; reflexivity. Qed.

Lemma fives_any cc x b e : is_thing x b -> 0 <= e -> does (t_mulPow5 cc b e) (times_all x (fives e)).
Proof.
  intros H He. unfold t_mulPow5. destruct (Z.eqb_spec e 0) as [->|N].
  { exists b, None. split; [reflexivity|]. split; [exact H|reflexivity]. }
  unfold fives. pose proof (Z.mod_pos_bound e 27 ltac:(lia)) as MB. pose proof (Z_div_mod_eq_full e 27) as DM.
  assert (Q0 : 0 <= e / 27) by (apply Z.div_pos; [exact He|reflexivity]).
  apply pow5_any; [lia| |exact H|lia|].
  { intros [c n] b' H'. apply (mul_any cc c n b' (5 ^ 27) H'). split; [discriminate|reflexivity]. }
  intros y c Hy. set (e1 := e mod 27) in *. apply pow5_any; [lia| |exact Hy|lia|].
  { intros [c' n] b' H'. apply (mul32_any c' n b' (5 ^ 13) H'). split; [discriminate|reflexivity]. }
  intros z c' Hz. pose proof (Z.mod_pos_bound e1 13 ltac:(lia)) as MB2. set (e2 := e1 mod 13) in *. clearbody e2.
  destruct (Z.ltb_spec 0 e2) as [P|P]; destruct (Z.eqb_spec e2 0) as [Q|Q]; try lia.
  - destruct (POWER5_nth e2 ltac:(clear - P MB2; lia)) as (I & -> & B). rewrite I, times_all_one. destruct z as [cz n]. apply mul32_any; assumption.
  - exists c', None. split; [reflexivity|]. split; [exact Hz|reflexivity].
Qed.

Lemma change_any cc x b o : is_thing x b -> op_ok o -> (forall k, o <> OShift k) -> does (t_perform cc o b) (change o x).
Proof.
  intros H K NS. destruct x as [c n]. destruct o as [d|d|d|e|s|d]; cbn [t_perform change op_ok fst snd] in *.
  - apply add_any; assumption.
  - apply mul_any; assumption.
  - apply mul32_any; assumption.
  - apply fives_any; [exact H|apply K].
  - exfalso. exact (NS s eq_refl).
  - destruct (assign_word_thing b d (thing_length _ _ H) K) as (b' & E & H'). unfold returned. rewrite E. cbn [bind].
    eexists _, _. split; [reflexivity|]. split; [exact H'|reflexivity].
Qed.

(** ** Shifts *)

Lemma not_zero c n : (c, n) <> (1, 0) -> (c =? 1) && (n =? 0) = false.
Proof. intros N. destruct (Z.eqb_spec c 1) as [->|]; [|reflexivity]. destruct (Z.eqb_spec n 0) as [->|]; [contradiction|reflexivity]. Qed.

Lemma shift_bits_any c n b shift : is_thing (c, n) b -> (c, n) <> (1, 0) -> 0 <= shift -> shift mod 64 <> 0 -> c + shift / 64 < 416 ->
  exists b', shift_left b shift = Ok b' /\ is_thing (fst (settle (c + shift / 64) (n * 2 ^ shift))) b'.
Proof.
  intros H NZ HS HI HC. destruct (inter_facts shift HS HI) as (o & s & Eo & Es & Bs & E2).
  unfold shift_left. rewrite (is_zero_any c n b H), (not_zero c n NZ). cbn [bind orb].
  destruct (Z.eqb_spec shift 0) as [->|_]; [exfalso; apply HI; reflexivity|].
  change INT64_BYTE with 64. rewrite Eo, Es in *. destruct capacity_nat as [CN1 CN2].
  apply thing_rep in H. destruct H as (ws & (rest & A & B & C & D & E) & Lc & V). subst c.
  destruct b as [ds c]; cbn [digits_ count_] in *. subst c. set (m := length ws) in *.
  destruct (Z.leb_spec (Z.of_nat m + Z.of_nat o) capacity); [|lia].
  destruct (Z.eqb_spec s 0); [lia|].
  assert (Ld : length ds = Z.to_nat capacity) by lia. assert (Mo : (m + o < length ds)%nat) by lia.
  rewrite word_write_in by lia. cbn [bind]. rewrite Nat2Z.id. set (d0 := set_nth ds m (Some 0)).
  assert (L0 : length d0 = length ds) by apply set_nth_length.
  assert (N0 : forall j, (j <= m)%nat -> nth j d0 None = Some (nth j (ws ++ [0]) 0)).
  { intros j Hj. unfold d0. rewrite nth_set_nth. destruct (Nat.ltb_spec m (length ds)); [|lia]. rewrite andb_true_r.
    destruct (Nat.eqb_spec j m) as [->|].
    - rewrite app_nth2 by (unfold m; lia). unfold m. rewrite Nat.sub_diag. reflexivity.
    - rewrite app_nth1 by (fold m; lia). rewrite A. apply nth_words. fold m. lia. }
  assert (E0 : Forall word (ws ++ [0])) by (apply Forall_app; split; [exact E|constructor; [exact word_0|constructor]]).
  assert (LU : length (ws ++ [0]) = S m) by (rewrite app_length; unfold m; cbn; lia).
  destruct (shift_loop_ok s o (ws ++ [0]) Bs E0 m d0) as (d1 & S1 & L1 & N1); [lia|lia|exact N0|].
  rewrite S1. cbn [bind]. change 0 with (Z.of_nat 0) at 1. rewrite (word_read_nth d1 0 (nth 0 (ws ++ [0]) 0)); [|lia|].
  2:{ rewrite N1. destruct (Nat.ltb_spec o 0); [lia|]. cbn [andb]. apply N0. lia. }
  cbn [bind]. unfold shl64. rewrite in_range_true by lia. cbn [bind]. rewrite word_write_in by lia. cbn [bind].
  set (d2 := set_nth d1 o _). set (sw := shl_words s 0 (ws ++ [0])).
  assert (LS : length sw = S m) by (unfold sw; rewrite shl_words_length; exact LU).
  destruct (shl_words_value s ws Bs 0 word_0 E) as [FS VS]. fold sw in FS, VS. rewrite Z.div_0_l, Z.add_0_l in VS by (apply Z.pow_nonzero; lia).
  assert (L2 : length d2 = length ds) by (unfold d2; rewrite set_nth_length; lia).
  assert (N2 : forall j, (o <= j <= m + o)%nat -> nth j d2 None = Some (nth (j - o) sw 0)).
  { intros j Hj. unfold d2. rewrite nth_set_nth. destruct (Nat.ltb_spec o (length d1)); [|lia]. rewrite andb_true_r.
    destruct (Nat.eqb_spec j o) as [->|].
    - rewrite Nat.sub_diag. unfold sw. rewrite shl_words_nth by lia. cbn [nth]. rewrite Z.shiftr_0_l, Z.lor_0_r. reflexivity.
    - rewrite N1. destruct (Nat.ltb_spec o j); [|lia]. destruct (Nat.leb_spec j (m + o)); [|lia]. reflexivity. }
  replace (Z.of_nat m + Z.of_nat o) with (Z.of_nat (m + o)) by lia.
  rewrite (word_read_nth d2 (m + o) (nth m sw 0)); [|lia|rewrite N2 by lia; f_equal; f_equal; lia]. cbn [bind digits_ count_].
  unfold words_clear. rewrite (proj2 (Z.leb_le 0 (Z.of_nat o))) by lia. rewrite (proj2 (Z.leb_le (Z.of_nat o) _)) by lia. cbn [andb bind].
  rewrite Nat2Z.id. eexists. split; [reflexivity|].
  set (d3 := repeat (Some 0) o ++ skipn o d2).
  assert (L3 : length d3 = length ds) by (unfold d3; rewrite app_length, repeat_length, skipn_length; lia).
  assert (N3 : forall j, (j <= m + o)%nat -> nth j d3 None = Some (nth j (repeat 0 o ++ sw) 0)).
  { intros j Hj. unfold d3. destruct (Nat.lt_ge_cases j o) as [X|X].
    - rewrite !app_nth1 by (rewrite repeat_length; exact X). rewrite nth_zeros.
      rewrite (nth_indep _ None (Some 0)) by (rewrite repeat_length; exact X). rewrite nth_repeat. reflexivity.
    - rewrite !app_nth2 by (rewrite repeat_length; exact X). rewrite !repeat_length.
      rewrite <- (N2 j) by lia. rewrite <- (firstn_skipn o d2) at 2. rewrite app_nth2 by (rewrite firstn_length; lia).
      rewrite firstn_length. f_equal. lia. }
  assert (VT : words_value (repeat 0 o ++ sw) = n * 2 ^ shift).
  { rewrite wv_app, wv_zeros, repeat_length, VS, V, E2. ring. }
  assert (LT : length (repeat 0 o ++ sw) = (m + o + 1)%nat) by (rewrite app_length, repeat_length; lia).
  assert (FT : Forall word (repeat 0 o ++ sw)) by (apply Forall_app; split; [apply zeros_words|exact FS]).
  assert (NES : sw <> []) by (intros X; rewrite X in LS; discriminate LS).
  assert (LST : last (repeat 0 o ++ sw) 0 = nth m sw 0).
  { destruct (exists_last NES) as (p & x & EQ). rewrite EQ, app_assoc, last_last. rewrite EQ, app_length in LS. cbn in LS.
    rewrite app_nth2 by lia. replace (m - length p)%nat with 0%nat by lia. reflexivity. }
  assert (NET : repeat 0 o ++ sw <> []) by (intros X; rewrite X in LT; cbn in LT; lia).
  destruct (exists_last NET) as (t & x & ET). rewrite ET, last_last in LST. subst x.
  assert (Lt : length t = (m + o)%nat) by (rewrite ET, app_length in LT; cbn [length] in LT; lia).
  assert (Ft : Forall word t) by (rewrite ET in FT; apply Forall_app in FT; apply FT).
  assert (Wt : word (nth m sw 0)) by (rewrite ET in FT; apply Forall_app in FT; destruct FT as [_ FT]; inversion FT; assumption).
  assert (Vt : words_value t + Wp (m + o) * nth m sw 0 = n * 2 ^ shift).
  { rewrite <- VT, ET, wv_app, Lt. cbn [words_value]. lia. }
  pose proof (wv_bounds t Ft) as Bt. rewrite Lt in Bt. unfold word in Wt. pose proof (Wp_pos (m + o)) as PW.
  unfold settle. rewrite <- Wp_pow, <- Vt.
  destruct (Z.eqb_spec (nth m sw 0) 0) as [T0|T1].
  - (* the top word is zero *)
    rewrite T0, Z.mul_0_r, Z.add_0_r. destruct (Z.ltb_spec (words_value t) (Wp (m + o))) as [_|X]; [|clear - Bt X; lia]. cbn [fst].
    apply thing_rep. exists t. split; [|split; [rewrite Lt; reflexivity|reflexivity]].
    exists (skipn (length t) d3). cbn [digits_ count_]. split; [|split; [lia|split; [lia|split; [|exact Ft]]]].
    + apply words_by_nth; [lia|]. intros j Hj. rewrite N3 by lia. rewrite ET, app_nth1 by exact Hj. reflexivity.
    + intros ->. cbn [length] in Lt. destruct ws; [contradiction|]. unfold m in Lt. cbn [length] in Lt. lia.
  - destruct (Z.ltb_spec (words_value t + Wp (m + o) * nth m sw 0) (Wp (m + o))) as [X|_]; [exfalso; clear - Wt T1 PW Bt X; nia|].
    destruct (Z.ltb_spec (Z.of_nat (m + o)) 416) as [_|X]; [|clear - HC X; lia]. cbn [fst]. rewrite Vt, <- VT.
    apply thing_rep. exists (repeat 0 o ++ sw). split; [|split; [rewrite LT; lia|reflexivity]].
    exists (skipn (length (repeat 0 o ++ sw)) d3). cbn [digits_ count_]. split; [|split; [lia|split; [lia|split; [exact NET|exact FT]]]].
    apply words_by_nth; [lia|]. intros j Hj. apply N3. lia.
Qed.

Lemma shift_overrun_any c n b shift : is_thing (c, n) b -> (c, n) <> (1, 0) -> 0 <= shift -> shift mod 64 <> 0 -> c + shift / 64 = 416 ->
  exists w, t_shift_left b shift = UB w.
Proof.
  intros H NZ HS HI HC. destruct (inter_facts shift HS HI) as (o & s & Eo & Es & Bs & E2).
  unfold t_shift_left, shift_left. rewrite (is_zero_any c n b H), (not_zero c n NZ). cbn [bind orb].
  destruct (Z.eqb_spec shift 0) as [->|_]; [exfalso; apply HI; reflexivity|].
  change INT64_BYTE with 64. rewrite Eo, Es in *. destruct capacity_nat as [CN1 CN2].
  apply thing_rep in H. destruct H as (ws & (rest & A & B & C & D & E) & Lc & V). subst c.
  destruct b as [ds c]; cbn [digits_ count_] in *. subst c. set (m := length ws) in *.
  destruct (Z.leb_spec (Z.of_nat m + Z.of_nat o) capacity); [|lia]. cbn [orb].
  destruct (Z.eqb_spec s 0); [lia|]. assert (Ld : length ds = Z.to_nat capacity) by lia.
  destruct (Nat.eq_dec o 0) as [->|O].
  { destruct (word_write_out ds (Z.of_nat m) 0) as [w Ew]; [lia|]. rewrite Ew. eexists. reflexivity. }
  rewrite word_write_in by lia. cbn [bind]. rewrite Nat2Z.id. set (d0 := set_nth ds m (Some 0)).
  assert (L0 : length d0 = length ds) by apply set_nth_length.
  assert (N0 : forall j, (j <= m)%nat -> nth j d0 None = Some (nth j (ws ++ [0]) 0)).
  { intros j Hj. unfold d0. rewrite nth_set_nth. destruct (Nat.ltb_spec m (length ds)); [|lia]. rewrite andb_true_r.
    destruct (Nat.eqb_spec j m) as [->|].
    - rewrite app_nth2 by (unfold m; lia). unfold m. rewrite Nat.sub_diag. reflexivity.
    - rewrite app_nth1 by (fold m; lia). rewrite A. apply nth_words. fold m. lia. }
  assert (M : exists p, m = S p) by (destruct ws; [contradiction|unfold m; cbn; eauto]). destruct M as [p M].
  rewrite M. cbn [shift_loop]. rewrite <- M.
  rewrite (word_read_nth d0 m (nth m (ws ++ [0]) 0)) by (lia || (apply N0; lia)). cbn [bind].
  replace (Z.of_nat m - 1) with (Z.of_nat p) by lia.
  rewrite (word_read_nth d0 p (nth p (ws ++ [0]) 0)) by (lia || (apply N0; lia)). cbn [bind].
  unfold shl64 at 1. rewrite in_range_true by lia. cbn [bind]. unfold shr64 at 1. rewrite in_range_true by (change INT64_BYTE with 64; lia). cbn [bind].
  match goal with |- context [word_write d0 ?i ?v] => destruct (word_write_out d0 i v) as [w Ew]; [lia|]; rewrite Ew end. eexists. reflexivity.
Qed.

Lemma shift_one_any n b shift : is_thing (1, n) b -> n <> 0 -> 0 < shift -> shift mod 64 = 0 -> 1 + shift / 64 <= 416 ->
  exists b', shift_left b shift = Ok b' /\ is_thing (1 + shift / 64, n * 2 ^ shift) b'.
Proof.
  intros H NZ HS HI HC. destruct (thing_bounds 1 n b H) as [_ NB]. change (2 ^ (64 * 1)) with W in NB.
  assert (Hb : holds b n). { apply holds_thing. destruct H as [C H]. cbn [fst] in C. split; [split; [reflexivity|exact H]|left; exact C]. }
  pose proof (Z.div_mod shift 64 ltac:(lia)) as DM. rewrite HI, Z.add_0_r in DM. assert (Q : 0 <= shift / 64) by (apply Z.div_pos; lia).
  assert (P2 : 2 ^ shift = Wp (Z.to_nat (shift / 64))) by (rewrite Wp_pow, Z2Nat.id by exact Q; rewrite <- DM; reflexivity).
  set (o := Z.to_nat (shift / 64)) in *. assert (Eo : shift / 64 = Z.of_nat o) by (unfold o; rewrite Z2Nat.id; [reflexivity|exact Q]).
  assert (B1 : Wp o <= n * 2 ^ shift < Wp (S o)).
  { rewrite P2, Wp_S. pose proof (Wp_pos o). assert (1 * Wp o <= n * Wp o) by (apply Z.mul_le_mono_nonneg_r; lia).
    assert (n * Wp o < W * Wp o) by (apply Z.mul_lt_mono_pos_r; lia). lia. }
  destruct (shift_aligned b n shift Hb NZ HS HI (proj2 NB)) as [(_ & b' & E & H')|(G & _)].
  - exists b'. split; [exact E|]. apply holds_normal in H'. unfold normal_thing in H'. pose proof (Wp_pos o) as PO.
    destruct (Z.eqb_spec (n * 2 ^ shift) 0) as [X|_]; [rewrite X in B1; lia|].
    rewrite (width_unique (n * 2 ^ shift) (1 + shift / 64)) in H'; [exact H'|lia|lia|].
    replace (64 * (1 + shift / 64 - 1)) with (64 * Z.of_nat o) by lia. replace (64 * (1 + shift / 64)) with (64 * Z.of_nat (S o)) by lia.
    rewrite <- !Wp_pow. exact B1.
  - exfalso. rewrite LIMIT_Wp in G. destruct capacity_nat as [CN1 CN2]. pose proof (Wp_le (S o) (Z.to_nat capacity) ltac:(lia)). lia.
Qed.

Lemma memmove_word ws w rest : length (map Some (ws ++ [w]) ++ rest) = Z.to_nat capacity -> (2 * length ws + 2 <= Z.to_nat capacity)%nat ->
  exists rest', words_memmove (map Some (ws ++ [w]) ++ rest) (Z.of_nat (length ws) + 1) (Z.of_nat (length ws)) (Z.of_nat (S (length ws))) =
    Ok (map Some (ws ++ [w] ++ [w]) ++ rest') /\ length (map Some (ws ++ [w] ++ [w]) ++ rest') = Z.to_nat capacity.
Proof.
  intros L Lw. unfold words_memmove. rewrite L. set (c := length ws) in *.
  rewrite (proj2 (Z.leb_le 0 (Z.of_nat (S c)))), (proj2 (Z.leb_le 0 (Z.of_nat c + 1))), (proj2 (Z.leb_le (Z.of_nat c + 1 + Z.of_nat (S c)) _)),
    (proj2 (Z.leb_le 0 (Z.of_nat c))), (proj2 (Z.leb_le (Z.of_nat c + Z.of_nat (S c)) _)) by lia. cbn [andb].
  rewrite !Nat2Z.id. replace (Z.to_nat (Z.of_nat c + 1)) with (S c) by lia.
  replace (Z.to_nat (Z.of_nat c + 1 + Z.of_nat (S c))) with (S c + S c)%nat by lia.
  assert (LW : length (map (@Some Z) (ws ++ [w])) = S c) by (rewrite map_length, app_length; unfold c; cbn [length]; lia).
  assert (F1 : firstn (S c) (map Some (ws ++ [w]) ++ rest) = map Some (ws ++ [w])).
  { rewrite <- LW, firstn_app, Nat.sub_diag, firstn_all, firstn_O, app_nil_r. reflexivity. }
  assert (S1 : skipn c (map Some (ws ++ [w]) ++ rest) = Some w :: rest).
  { rewrite map_app, <- app_assoc. assert (LM : length (map (@Some Z) ws) = c) by (rewrite map_length; reflexivity).
    rewrite <- LM, skipn_app, Nat.sub_diag, skipn_all. reflexivity. }
  rewrite F1, S1. cbn [firstn]. exists (firstn c rest ++ skipn (S c + S c) (map Some (ws ++ [w]) ++ rest)). split.
  - f_equal. rewrite !map_app, <- !app_assoc. reflexivity.
  - rewrite !app_length in *. rewrite !map_length, !app_length in *. cbn [length] in *. rewrite firstn_length, skipn_length, !app_length, map_length, app_length. cbn [length]. lia.
Qed.

Lemma shift_word_any c n b : is_thing (c, n) b -> 2 <= c <= 208 ->
  exists b', shift_left b 64 = Ok b' /\ is_thing (c + 1, n - n mod 2 ^ 64 + 2 ^ (64 * c) * nth_word n (c - 1)) b'.
Proof.
  intros H CB. unfold shift_left. rewrite (is_zero_any c n b H). rewrite not_zero by (intros X; injection X as -> ->; lia). cbn [bind orb].
  change (64 / INT64_BYTE) with 1. change (64 mod INT64_BYTE) with 0. cbn [Z.eqb].
  apply thing_rep in H. destruct H as (ws & (rest & A & B & C & D & E) & L & V). destruct capacity_nat as [CN1 CN2].
  destruct b as [ds c0]; cbn [digits_ count_] in *. subst c0. destruct (Z.leb_spec (Z.of_nat (length ws) + 1) capacity); [|lia].
  destruct (exists_last D) as (q & w & EQ). assert (Lq : length ws = S (length q)) by (rewrite EQ, app_length; cbn [length]; lia).
  destruct q as [|v q]; [cbn [length] in Lq; lia|].
  replace (Z.of_nat (length ws) - 1 + 1) with (Z.of_nat (length (v :: q)) + 1) by lia.
  replace (Z.of_nat (length ws) - 1) with (Z.of_nat (length (v :: q))) by lia. rewrite Lq. subst ds. rewrite EQ in *.
  destruct (memmove_word (v :: q) w rest) as (rest' & EM & LM); [lia|lia|]. rewrite EM. cbn [bind digits_ count_].
  assert (EC : words_clear (map Some ((v :: q) ++ [w] ++ [w]) ++ rest') 1 = Ok (map Some ((0 :: q) ++ [w] ++ [w]) ++ rest')).
  { unfold words_clear. rewrite LM. rewrite (proj2 (Z.leb_le 1 _)) by lia. reflexivity. }
  rewrite EC. cbn [bind]. eexists. split; [reflexivity|]. apply thing_rep. exists ((0 :: q) ++ [w] ++ [w]).
  assert (FW : Forall word ((0 :: q) ++ [w] ++ [w])).
  { apply Forall_app in E. destruct E as [E1 E2]. inversion E1; subst. apply Forall_app. split; [constructor; [exact word_0|assumption]|].
    apply Forall_app. split; assumption. }
  split; [|split].
  - exists rest'. cbn [digits_ count_]. split; [reflexivity|]. split.
    + rewrite app_length, map_length in *. rewrite !app_length in *. cbn [length] in *. lia.
    + split; [rewrite !app_length; cbn [length]; lia|]. split; [discriminate|exact FW].
  - rewrite !app_length. cbn [length] in *. lia.
  - assert (Ew : w = nth_word n (c - 1)).
    { unfold nth_word. replace (c - 1) with (Z.of_nat (length (v :: q))) by lia. rewrite <- Wp_pow. change (2 ^ 64) with W. rewrite <- V.
      rewrite <- wv_nth by (assumption || (rewrite app_length; cbn [length]; lia)). rewrite app_nth2 by lia. rewrite Nat.sub_diag. reflexivity. }
    assert (Ev : n mod 2 ^ 64 = v).
    { rewrite <- V. change ((v :: q) ++ [w]) with (v :: (q ++ [w])). rewrite wv_cons. change (2 ^ 64) with W. rewrite Z.mul_comm, Z_mod_plus_full.
      apply Z.mod_small. inversion E; assumption. }
    rewrite Ev, <- Ew. replace (64 * c) with (64 * Z.of_nat (S (length (v :: q)))) by lia. rewrite <- Wp_pow.
    rewrite app_assoc, wv_app, app_length. change ((0 :: q) ++ [w]) with (0 :: (q ++ [w])).
    rewrite wv_cons. change ((v :: q) ++ [w]) with (v :: (q ++ [w])) in V. rewrite wv_cons in V. cbn [words_value length].
    replace (S (length q) + 1)%nat with (S (S (length q))) by lia. lia.
Qed.

Lemma shifts_any x b k y v : is_thing x b -> 0 <= k -> shifts x k y v -> does (t_shift_left b k) (y, v).
Proof.
  intros H K S. destruct S as [x k Z0|c n k P NZ F|c n k P M NZ R|n k P M NZ R|c n R]; unfold t_shift_left.
  - destruct x as [c n]. rewrite (is_zero_any c n b H). cbn [bind]. exists b, None. split; [|split; [exact H|reflexivity]].
    assert (G : (c =? 1) && (n =? 0) || (k =? 0) = true).
    { destruct Z0 as [->|E]; [apply orb_true_r|]. injection E as -> ->. reflexivity. }
    rewrite G. cbn [orb]. unfold returned, shift_left. rewrite (is_zero_any c n b H). cbn [bind]. rewrite G. reflexivity.
  - rewrite (is_zero_any c n b H), (not_zero c n NZ). cbn [bind orb]. rewrite (proj2 (Z.eqb_neq k 0)) by lia. cbn [orb].
    change INT64_BYTE with 64. change capacity with 416. rewrite (proj1 H). cbn [fst]. rewrite (proj2 (Z.leb_gt (c + k / 64) 416)) by lia.
    eexists _, _. split; [reflexivity|]. split; [exact H|reflexivity].
  - destruct (shift_bits_any c n b k H NZ K M R) as (b' & E & H'). rewrite (is_zero_any c n b H), (not_zero c n NZ). cbn [bind orb].
    change INT64_BYTE with 64. change capacity with 416. rewrite (proj1 H). cbn [fst]. rewrite (proj2 (Z.leb_le (c + k / 64) 416)) by lia. rewrite orb_true_r.
    unfold returned. rewrite E. cbn [bind]. eexists _, _. split; [reflexivity|]. split; [exact H'|reflexivity].
  - destruct (shift_one_any n b k H NZ P M R) as (b' & E & H'). rewrite (is_zero_any 1 n b H), (not_zero 1 n) by congruence. cbn [bind orb].
    change INT64_BYTE with 64. change capacity with 416. rewrite (proj1 H). cbn [fst]. rewrite (proj2 (Z.leb_le (1 + k / 64) 416)) by lia. rewrite orb_true_r.
    unfold returned. rewrite E. cbn [bind]. eexists _, _. split; [reflexivity|]. split; [exact H'|reflexivity].
  - destruct (shift_word_any c n b H R) as (b' & E & H'). rewrite (is_zero_any c n b H). rewrite not_zero by (intros X; injection X as -> ->; lia). cbn [bind orb].
    change (64 / INT64_BYTE) with 1. change capacity with 416. rewrite (proj1 H). cbn [fst]. rewrite (proj2 (Z.leb_le (c + 1) 416)) by lia. rewrite orb_true_r.
    unfold returned. rewrite E. cbn [bind]. eexists _, _. split; [reflexivity|]. split; [exact H'|reflexivity].
Qed.
