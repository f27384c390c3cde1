(** BigInteger: 32-bit multiplication, left shift, powers of five and decimal text. *)
From Verif Require Import Machine LibMachine SpecDecimal SpecInt SpecBig ModelDiyfp ModelBigint ProofBig.
Ltac Zify.zify_post_hook ::= idtac.

(** ** Bits *)

Lemma lor_add x y s : 0 <= s -> 0 <= y < 2 ^ s -> Z.lor (x * 2 ^ s) y = x * 2 ^ s + y.
Proof.
  intros Hs Hy. assert (E : Z.land (x * 2 ^ s) y = 0).
  { apply Z.bits_inj'. intros i Hi. rewrite Z.land_spec, Z.bits_0.
    destruct (Z.lt_ge_cases i s) as [L|L].
    - rewrite Z.mul_pow2_bits_low by lia. reflexivity.
    - rewrite <- (Z.mod_small y (2 ^ s)) by lia. rewrite Z.mod_pow2_bits_high by lia. apply andb_false_r. }
  rewrite <- Z.lxor_lor by exact E. symmetry. apply Z.add_nocarry_lxor. exact E.
Qed.

Lemma shl_word x s : word x -> 0 <= s < 64 -> u64 (Z.shiftl x s) = (x mod 2 ^ (64 - s)) * 2 ^ s.
Proof.
  intros Hx Hs. rewrite u64_W, Z.shiftl_mul_pow2 by lia. unfold W.
  replace (2 ^ 64) with (2 ^ (64 - s) * 2 ^ s) by (rewrite <- Z.pow_add_r by lia; f_equal; lia).
  apply Z.mul_mod_distr_r; [apply Z.pow_nonzero; lia|apply Z.pow_nonzero; lia].
Qed.

Lemma pow_split s : 0 <= s <= 64 -> W = 2 ^ (64 - s) * 2 ^ s.
Proof. intros H. unfold W. rewrite <- Z.pow_add_r by lia. f_equal. lia. Qed.

Lemma mix_words a b s : word a -> word b -> 0 < s < 64 ->
  Z.lor (u64 (Z.shiftl a s)) (Z.shiftr b (64 - s)) = (a mod 2 ^ (64 - s)) * 2 ^ s + b / 2 ^ (64 - s) /\
  word (Z.lor (u64 (Z.shiftl a s)) (Z.shiftr b (64 - s))).
Proof.
  intros Ha Hb Hs. rewrite shl_word by (assumption || lia). rewrite Z.shiftr_div_pow2 by lia.
  pose proof (Z.pow_pos_nonneg 2 s ltac:(lia) ltac:(lia)) as P. pose proof (Z.pow_pos_nonneg 2 (64 - s) ltac:(lia) ltac:(lia)) as Q.
  pose proof (pow_split s ltac:(lia)) as S.
  assert (B : 0 <= b / 2 ^ (64 - s) < 2 ^ s).
  { unfold word in Hb. split; [apply Z.div_pos; lia|apply Z.div_lt_upper_bound; lia]. }
  rewrite lor_add by (lia || exact B). split; [reflexivity|].
  pose proof (Z.mod_pos_bound a (2 ^ (64 - s)) Q). unfold word. rewrite S. nia.
Qed.

(** ** 32-bit multiplication *)

Lemma mul32_ok D : 0 <= D < H32 -> good_step D (mul32_step D).
Proof.
  intros HD w k Hw Hk. unfold mul32_step. rewrite !land32, !shr32.
  destruct (halves w Hw) as (c & d & -> & -> & Ew & Bc & Bd). pose proof W_H32 as WH.
  assert (B1 : 0 <= D * c <= (H32 - 1) * (H32 - 1)) by nia. assert (B2 : 0 <= D * d <= (H32 - 1) * (H32 - 1)) by nia.
  assert (SQ : (H32 - 1) * (H32 - 1) = W - 2 * H32 + 1) by (rewrite WH; ring). rewrite SQ in *.
  assert (PH : 1 < H32) by reflexivity.
  rewrite (u64_W (D * c)), (u64_W (D * d)), (Z.mod_small (D * c)), (Z.mod_small (D * d)) by lia.
  rewrite (u64_W (D * d + k)), (Z.mod_small (D * d + k)) by lia.
  destruct (halves (D * d + k) ltac:(unfold word; lia)) as (h0 & l0 & -> & -> & E0 & Bh0 & Bl0).
  rewrite (u64_W (D * c + h0)), (Z.mod_small (D * c + h0)) by lia.
  set (p1 := D * c + h0) in *. assert (Wp1 : word p1) by (unfold word; lia).
  rewrite shl_word by (exact Wp1 || lia). change (2 ^ (64 - 32)) with H32. change (2 ^ 32) with H32.
  destruct (halves p1 Wp1) as (h1 & l1 & -> & -> & E1 & Bh1 & Bl1).
  rewrite Z.lor_comm. change (l1 * H32) with (l1 * 2 ^ 32). rewrite lor_add by (lia || exact Bl0). change (2 ^ 32) with H32.
  split; [apply join_halves; assumption|]. split; [lia|].
  rewrite Ew, WH. transitivity (l0 + H32 * (h1 * H32 + l1)); [ring|]. rewrite <- E1. unfold p1.
  transitivity (H32 * D * c + (h0 * H32 + l0)); [ring|]. rewrite <- E0. ring.
Qed.

Lemma H32_word D : 0 <= D < H32 -> word D.
Proof. unfold word. assert (H32 < W) by reflexivity. lia. Qed.

Lemma mul_word32_ok b n d : holds b n -> 0 <= d < H32 -> exact_or_throw (mul_word32 b d) (n * d).
Proof. intros H Hd. apply multiply_ok; [apply mul32_ok; exact Hd|exact H|apply H32_word; exact Hd]. Qed.

(** ** Left shift *)

Fixpoint shl_words (s prev : Z) (u : list Z) : list Z :=
  match u with
  | [] => []
  | x :: r => Z.lor (u64 (Z.shiftl x s)) (Z.shiftr prev (64 - s)) :: shl_words s x r
  end.

Lemma shl_words_length s u : forall prev, length (shl_words s prev u) = length u.
Proof. induction u as [|x r IH]; intros prev; cbn [shl_words length]; [reflexivity|]. f_equal. apply IH. Qed.

Lemma word_0 : word 0. Proof. split; [lia|reflexivity]. Qed.

Lemma shl_words_value s u : 0 < s < 64 -> forall prev, word prev -> Forall word u ->
  Forall word (shl_words s prev (u ++ [0])) /\
  words_value (shl_words s prev (u ++ [0])) = prev / 2 ^ (64 - s) + 2 ^ s * words_value u.
Proof.
  intros Hs. induction u as [|x r IH]; intros prev Hp Hu; cbn [app shl_words].
  - destruct (mix_words 0 prev s word_0 Hp Hs) as [E We]. split; [constructor; [exact We|constructor]|].
    rewrite wv_cons, E. cbn [words_value]. rewrite Z.mod_0_l by (apply Z.pow_nonzero; lia). lia.
  - inversion Hu as [|? ? Hx Hr]; subst. destruct (mix_words x prev s Hx Hp Hs) as [E We].
    destruct (IH x Hx Hr) as [F V]. split; [constructor; assumption|]. rewrite wv_cons, E, V, wv_cons.
    pose proof (Z.div_mod x (2 ^ (64 - s)) ltac:(apply Z.pow_nonzero; lia)) as DM.
    rewrite (pow_split s) at 1 2 by lia. set (A := 2 ^ (64 - s)) in *. set (B := 2 ^ s) in *. nia.
Qed.

Lemma shl_words_nth s u : forall prev j, (j < length u)%nat ->
  nth j (shl_words s prev u) 0 = Z.lor (u64 (Z.shiftl (nth j u 0) s)) (Z.shiftr (nth j (prev :: u) 0) (64 - s)).
Proof.
  induction u as [|x r IH]; intros prev [|j] L; cbn [length] in L; try lia; cbn [shl_words nth]; [reflexivity|].
  rewrite IH by lia. reflexivity.
Qed.

Lemma nth_set_nth {A} (l : list A) i j x d : nth j (set_nth l i x) d = if (j =? i)%nat && (i <? length l)%nat then x else nth j l d.
Proof.
  revert i j; induction l as [|y l IH]; intros [|i] [|j]; cbn; try reflexivity; try (rewrite andb_false_r; reflexivity).
  rewrite IH. reflexivity.
Qed.

Lemma word_read_nth d i w : (i < length d)%nat -> nth i d None = Some w -> word_read d (Z.of_nat i) = Ok w.
Proof.
  intros L E. unfold word_read. rewrite in_range_true by lia. rewrite Nat2Z.id, E. reflexivity.
Qed.

Lemma word_write_in d i w : (i < length d)%nat -> word_write d (Z.of_nat i) w = Ok (set_nth d i (Some w)).
Proof. intros L. unfold word_write. rewrite in_range_true by lia. rewrite Nat2Z.id. reflexivity. Qed.

Lemma word_write_out d i w : Z.of_nat (length d) <= i -> exists m, word_write d i w = UB m.
Proof.
  intros L. unfold word_write, in_range. destruct (Z.ltb_spec i (Z.of_nat (length d))); [lia|]. rewrite andb_false_r. eauto.
Qed.

Lemma shift_loop_ok s o u : 0 < s < 64 -> Forall word u -> forall m d, (m < length u)%nat -> (m + o < length d)%nat ->
  (forall j, (j <= m)%nat -> nth j d None = Some (nth j u 0)) ->
  exists d', shift_loop m d (Z.of_nat o) s = Ok d' /\ length d' = length d /\
    forall j, nth j d' None = if (o <? j)%nat && (j <=? m + o)%nat then Some (nth (j - o) (shl_words s 0 u) 0) else nth j d None.
Proof.
  intros Hs Hu. induction m as [|m IH]; intros d Lu Ld Hd.
  - exists d. split; [reflexivity|]. split; [reflexivity|]. intros j.
    destruct (Nat.ltb_spec o j); destruct (Nat.leb_spec j (0 + o)); try reflexivity. lia.
  - cbn [shift_loop]. rewrite (word_read_nth d (S m) (nth (S m) u 0)) by (lia || (apply Hd; lia)). cbn [bind].
    replace (Z.of_nat (S m) - 1) with (Z.of_nat m) by lia. rewrite (word_read_nth d m (nth m u 0)) by (lia || (apply Hd; lia)). cbn [bind].
    unfold shl64, shr64. rewrite !in_range_true by (unfold INT64_BYTE; lia). cbn [bind].
    replace (Z.of_nat (S m) + Z.of_nat o) with (Z.of_nat (S m + o)) by lia. rewrite word_write_in by lia. cbn [bind].
    set (d1 := set_nth d (S m + o) _).
    assert (N1 : forall j, nth j d1 None = if (j =? S m + o)%nat then Some (nth (S m) (shl_words s 0 u) 0) else nth j d None).
    { intros j. unfold d1. rewrite nth_set_nth. destruct (Nat.ltb_spec (S m + o) (length d)); [|lia]. rewrite andb_true_r.
      rewrite shl_words_nth by lia. reflexivity. }
    destruct (IH d1) as (d' & E & L' & N'); [lia|unfold d1; rewrite set_nth_length; lia| |].
    { intros j Hj. rewrite N1. destruct (Nat.eqb_spec j (S m + o)); [lia|]. apply Hd. lia. }
    exists d'. split; [exact E|]. split; [rewrite L'; apply set_nth_length|]. intros j. rewrite N', N1.
    destruct (Nat.ltb_spec o j); destruct (Nat.leb_spec j (m + o)); destruct (Nat.leb_spec j (S m + o)); destruct (Nat.eqb_spec j (S m + o)); cbn [andb]; try reflexivity; try lia.
    subst j. do 2 f_equal. lia.
Qed.

Lemma firstn_words (l : list Z) rest n : (n <= length l)%nat -> firstn n (map Some l ++ rest) = map Some (firstn n l).
Proof.
  intros H. rewrite firstn_app, map_length. replace (n - length l)%nat with 0%nat by lia. cbn [firstn]. rewrite app_nil_r. apply firstn_map.
Qed.

Lemma nth_words (l : list Z) rest j : (j < length l)%nat -> nth j (map Some l ++ rest) None = Some (nth j l 0).
Proof.
  intros H. rewrite app_nth1 by (rewrite map_length; exact H). rewrite (nth_indep _ None (Some 0)) by (rewrite map_length; exact H). apply map_nth.
Qed.

Lemma nth_zeros n j : nth j (repeat 0 n) 0 = 0.
Proof. revert j; induction n as [|n IH]; intros [|j]; cbn; auto. Qed.

(** An array is described by its elements. *)
Lemma words_by_nth d (l : list Z) : (length l <= length d)%nat ->
  (forall j, (j < length l)%nat -> nth j d None = Some (nth j l 0)) -> d = map Some l ++ skipn (length l) d.
Proof.
  intros L H. rewrite <- (firstn_skipn (length l) d) at 1. f_equal.
  apply (nth_ext _ _ None (Some 0)); [rewrite firstn_length, map_length; lia|].
  intros j Hj. rewrite firstn_length in Hj. rewrite map_nth, <- H by lia.
  rewrite <- (firstn_skipn (length l) d) at 2. rewrite app_nth1 by (rewrite firstn_length; lia). reflexivity.
Qed.

Lemma big_isZero_ok b n : holds b n -> big_isZero b = Ok (n =? 0).
Proof.
  intros H. apply holds_rep in H. destruct H as (ws & R & N & <-). exact (equal_word_ok b ws 0 R N word_0).
Qed.

Lemma exact_holds (o : outcome BigInteger) b n : o = Ok b -> holds b n -> exact_or_throw o n.
Proof. intros E H. left. split; [exact (proj2 (holds_bounds b n H))|]. eauto. Qed.

(** The number of words and the number. *)
Lemma count_bounds b n : holds b n -> exists m, count_ b = Z.of_nat (S m) /\ (S m <= Z.to_nat capacity)%nat /\ n < Wp (S m) /\ (n <> 0 -> Wp m <= n) /\ 0 <= n.
Proof.
  intros H. apply holds_rep in H. destruct H as (ws & R & N & V). destruct (rep_length _ _ R) as [L1 L2].
  destruct R as (rest & A & B & C & D & E). exists (Nat.pred (length ws)).
  replace (S (Nat.pred (length ws))) with (length ws) by lia. split; [exact C|]. split; [destruct capacity_nat; lia|].
  pose proof (wv_bounds ws E). subst n. split; [lia|]. split; [|lia]. intros NZ.
  destruct (normal_lower ws E D N) as [[X _]|X]; [contradiction|exact X].
Qed.

Lemma Wp_pow n : Wp n = 2 ^ (64 * Z.of_nat n).
Proof. unfold Wp, W. rewrite <- Z.pow_mul_r by lia. reflexivity. Qed.

Lemma inter_facts shift : 0 <= shift -> shift mod 64 <> 0 ->
  exists o s, shift / 64 = Z.of_nat o /\ shift mod 64 = s /\ 0 < s < 64 /\ 2 ^ shift = Wp o * 2 ^ s.
Proof.
  intros H N. exists (Z.to_nat (shift / 64)), (shift mod 64). pose proof (Z.div_mod shift 64 ltac:(lia)) as E.
  pose proof (Z.mod_pos_bound shift 64 ltac:(lia)). assert (0 <= shift / 64) by (apply Z.div_pos; lia).
  rewrite Z2Nat.id by lia. split; [reflexivity|]. split; [reflexivity|]. split; [lia|].
  rewrite Wp_pow, Z2Nat.id by lia. rewrite <- Z.pow_add_r by lia. f_equal. lia.
Qed.

(** Shifts by a number of bits that is not a multiple of 64. *)
Lemma shift_inter b n shift : holds b n -> n <> 0 -> 0 <= shift -> shift mod 64 <> 0 ->
  count_ b + shift / 64 < capacity -> exists b', shift_left b shift = Ok b' /\ holds b' (n * 2 ^ shift).
Proof.
  intros H NZ HS HI HC. destruct (inter_facts shift HS HI) as (o & s & Eo & Es & Bs & E2).
  unfold shift_left. rewrite (big_isZero_ok b n H). cbn [bind].
  destruct (Z.eqb_spec n 0); [contradiction|]. destruct (Z.eqb_spec shift 0) as [->|_]; [exfalso; apply HI; reflexivity|]. cbn [orb].
  change INT64_BYTE with 64. rewrite Eo, Es in *. destruct (Z.leb_spec (count_ b + Z.of_nat o) capacity); [|lia].
  destruct (Z.eqb_spec s 0); [lia|].
  apply holds_rep in H. destruct H as (ws & (rest & A & B & C & D & E) & NM & V).
  destruct b as [ds c]; cbn [digits_ count_] in *. subst c. set (m := length ws) in *.
  destruct capacity_nat as [CN1 CN2].
  assert (Ld : length ds = Z.to_nat capacity) by lia. assert (Mo : (m + o < length ds)%nat) by lia.
  rewrite word_write_in by lia. cbn [bind]. rewrite Nat2Z.id. set (d0 := set_nth ds m (Some 0)).
  assert (L0 : length d0 = length ds) by apply set_nth_length.
  assert (N0 : forall j, (j <= m)%nat -> nth j d0 None = Some (nth j (ws ++ [0]) 0)).
  { intros j Hj. unfold d0. rewrite nth_set_nth. destruct (Nat.ltb_spec m (length ds)); [|lia]. rewrite andb_true_r.
    destruct (Nat.eqb_spec j m) as [->|].
    - rewrite app_nth2 by (unfold m; lia). unfold m. rewrite Nat.sub_diag. reflexivity.
    - rewrite app_nth1 by (fold m; lia). rewrite A. apply nth_words. fold m. lia. }
  assert (E0 : Forall word (ws ++ [0])) by (apply Forall_app; split; [exact E|constructor; [exact word_0|constructor]]).
  assert (LU : length (ws ++ [0]) = S m) by (rewrite app_length; unfold m; cbn; lia).
  destruct (shift_loop_ok s o (ws ++ [0]) Bs E0 m d0) as (d1 & S1 & L1 & N1); [lia|lia|exact N0|].
  rewrite S1. cbn [bind]. change 0 with (Z.of_nat 0) at 1. rewrite (word_read_nth d1 0 (nth 0 (ws ++ [0]) 0)); [|lia|].
  2:{ rewrite N1. destruct (Nat.ltb_spec o 0); [lia|]. cbn [andb]. apply N0. lia. }
  cbn [bind]. unfold shl64. rewrite in_range_true by lia. cbn [bind]. rewrite word_write_in by lia. cbn [bind].
  set (d2 := set_nth d1 o _). set (sw := shl_words s 0 (ws ++ [0])).
  assert (LS : length sw = S m) by (unfold sw; rewrite shl_words_length; exact LU).
  destruct (shl_words_value s ws Bs 0 word_0 E) as [FS VS]. fold sw in FS, VS. rewrite Z.div_0_l, Z.add_0_l in VS by (apply Z.pow_nonzero; lia).
  assert (L2 : length d2 = length ds) by (unfold d2; rewrite set_nth_length; lia).
  assert (N2 : forall j, (o <= j <= m + o)%nat -> nth j d2 None = Some (nth (j - o) sw 0)).
  { intros j Hj. unfold d2. rewrite nth_set_nth. destruct (Nat.ltb_spec o (length d1)); [|lia]. rewrite andb_true_r.
    destruct (Nat.eqb_spec j o) as [->|].
    - rewrite Nat.sub_diag. unfold sw. rewrite shl_words_nth by lia. cbn [nth]. rewrite Z.shiftr_0_l, Z.lor_0_r. reflexivity.
    - rewrite N1. destruct (Nat.ltb_spec o j); [|lia]. destruct (Nat.leb_spec j (m + o)); [|lia]. reflexivity. }
  replace (Z.of_nat m + Z.of_nat o) with (Z.of_nat (m + o)) by lia.
  rewrite (word_read_nth d2 (m + o) (nth m sw 0)); [|lia|rewrite N2 by lia; f_equal; f_equal; lia]. cbn [bind digits_ count_].
  unfold words_clear. rewrite (proj2 (Z.leb_le 0 (Z.of_nat o))) by lia. rewrite (proj2 (Z.leb_le (Z.of_nat o) _)) by lia. cbn [andb bind].
  rewrite Nat2Z.id. eexists. split; [reflexivity|].
  set (d3 := repeat (Some 0) o ++ skipn o d2).
  assert (L3 : length d3 = length ds) by (unfold d3; rewrite app_length, repeat_length, skipn_length; lia).
  assert (N3 : forall j, (j <= m + o)%nat -> nth j d3 None = Some (nth j (repeat 0 o ++ sw) 0)).
  { intros j Hj. unfold d3. destruct (Nat.lt_ge_cases j o) as [X|X].
    - rewrite !app_nth1 by (rewrite repeat_length; exact X). rewrite nth_zeros.
      rewrite (nth_indep _ None (Some 0)) by (rewrite repeat_length; exact X). rewrite nth_repeat. reflexivity.
    - rewrite !app_nth2 by (rewrite repeat_length; exact X). rewrite !repeat_length.
      rewrite <- (N2 j) by lia. rewrite <- (firstn_skipn o d2) at 2. rewrite app_nth2 by (rewrite firstn_length; lia).
      rewrite firstn_length. f_equal. lia. }
  assert (VT : words_value (repeat 0 o ++ sw) = n * 2 ^ shift).
  { rewrite wv_app, wv_zeros, repeat_length, VS, V, E2. ring. }
  assert (LT : length (repeat 0 o ++ sw) = (m + o + 1)%nat) by (rewrite app_length, repeat_length; lia).
  assert (FT : Forall word (repeat 0 o ++ sw)) by (apply Forall_app; split; [apply zeros_words|exact FS]).
  assert (NES : sw <> []) by (intros X; rewrite X in LS; discriminate LS).
  assert (LST : last (repeat 0 o ++ sw) 0 = nth m sw 0).
  { destruct (exists_last NES) as (p & x & EQ). rewrite EQ, app_assoc, last_last. rewrite EQ, app_length in LS. cbn in LS.
    rewrite app_nth2 by lia. replace (m - length p)%nat with 0%nat by lia. reflexivity. }
  apply holds_rep. destruct (Z.eqb_spec (nth m sw 0) 0) as [T0|T1].
  - (* the top word is zero *)
    assert (NET : repeat 0 o ++ sw <> []) by (intros X; rewrite X in LT; cbn in LT; lia).
    destruct (exists_last NET) as (t & x & ET). rewrite ET, last_last in LST. rewrite T0 in LST. subst x.
    rewrite ET in *. rewrite app_length in LT. cbn [length] in LT. apply Forall_app in FT. destruct FT as [FT _].
    rewrite wv_app in VT. change (words_value [0]) with 0 in VT. rewrite Z.mul_0_r, Z.add_0_r in VT.
    exists t. split; [|split; [|exact VT]].
    + exists (skipn (length t) d3). cbn [digits_ count_]. split; [|split; [lia|split; [lia|split; [|exact FT]]]].
      * apply words_by_nth; [lia|]. intros j Hj. rewrite N3 by lia. rewrite app_nth1 by exact Hj. reflexivity.
      * intros ->. cbn in LT. destruct ws; [contradiction|]. unfold m in LT. cbn in LT. lia.
    + destruct ws as [|w0 wr]; [contradiction|]. apply (normal_bound t (length wr + o) FT); [unfold m in LT; cbn [length] in LT; lia|].
      right. rewrite VT, E2, Wp_add. destruct (normal_lower (w0 :: wr) E D NM) as [[X _]|X]; [lia|]. cbn [length Nat.pred] in X. rewrite V in X.
      pose proof (Wp_pos o). pose proof (Wp_pos (length wr)). pose proof (Z.pow_pos_nonneg 2 s ltac:(lia) ltac:(lia)) as P2.
      assert (Wp (length wr) * Wp o <= n * Wp o) by (apply Z.mul_le_mono_nonneg_r; lia).
      assert (n * Wp o * 1 <= n * Wp o * 2 ^ s) by (apply Z.mul_le_mono_nonneg_l; nia). lia.
  - exists (repeat 0 o ++ sw). split; [|split; [|exact VT]].
    + exists (skipn (length (repeat 0 o ++ sw)) d3). cbn [digits_ count_]. split; [|split; [lia|split; [lia|split; [|exact FT]]]].
      * apply words_by_nth; [lia|]. intros j Hj. apply N3. lia.
      * intros X; rewrite X in LT; cbn in LT; lia.
    + intros X. rewrite LST in X. contradiction.
Qed.

Lemma shift_nothing b n shift : holds b n -> n = 0 \/ shift = 0 -> shift_left b shift = Ok b.
Proof.
  intros H [-> | ->]; unfold shift_left; rewrite (big_isZero_ok b _ H); cbn [bind]; [reflexivity|]. rewrite orb_true_r. reflexivity.
Qed.

Lemma shift_too_far b n shift : holds b n -> n <> 0 -> 0 <= shift -> shift <> 0 -> capacity < count_ b + shift / 64 ->
  exists m, shift_left b shift = Throw m.
Proof.
  intros H NZ HS SZ HC. unfold shift_left. rewrite (big_isZero_ok b n H). cbn [bind].
  destruct (Z.eqb_spec n 0); [contradiction|]. destruct (Z.eqb_spec shift 0); [contradiction|]. cbn [orb].
  change INT64_BYTE with 64. destruct (Z.leb_spec (count_ b + shift / 64) capacity); [lia|]. eauto.
Qed.

(** With the last word in use, and bits to move across words, the array is overrun. *)
Lemma shift_overrun b n shift : holds b n -> n <> 0 -> 0 <= shift -> shift mod 64 <> 0 -> count_ b + shift / 64 = capacity ->
  exists m, shift_left b shift = UB m.
Proof.
  intros H NZ HS HI HC. destruct (inter_facts shift HS HI) as (o & s & Eo & Es & Bs & E2).
  unfold shift_left. rewrite (big_isZero_ok b n H). cbn [bind].
  destruct (Z.eqb_spec n 0); [contradiction|]. destruct (Z.eqb_spec shift 0) as [->|_]; [exfalso; apply HI; reflexivity|]. cbn [orb].
  change INT64_BYTE with 64. rewrite Eo, Es in *. destruct (Z.leb_spec (count_ b + Z.of_nat o) capacity); [|lia].
  destruct (Z.eqb_spec s 0); [lia|].
  apply holds_rep in H. destruct H as (ws & (rest & A & B & C & D & E) & NM & V).
  destruct b as [ds c]; cbn [digits_ count_] in *. subst c. set (m := length ws) in *.
  destruct capacity_nat as [CN1 CN2]. assert (Ld : length ds = Z.to_nat capacity) by lia.
  destruct (Nat.eq_dec o 0) as [->|O].
  { destruct (word_write_out ds (Z.of_nat m) 0) as [w Ew]; [lia|]. rewrite Ew. eexists. reflexivity. }
  rewrite word_write_in by lia. cbn [bind]. rewrite Nat2Z.id. destruct m as [|m'] eqn:Em; [destruct ws; [contradiction|discriminate Em]|].
  cbn [shift_loop].
  assert (R1 : word_read (set_nth ds (S m') (Some 0)) (Z.of_nat (S m')) = Ok 0).
  { apply word_read_nth; [rewrite set_nth_length; lia|]. rewrite nth_set_nth, Nat.eqb_refl. destruct (Nat.ltb_spec (S m') (length ds)); [reflexivity|lia]. }
  rewrite R1. cbn [bind].
  assert (R2 : word_read (set_nth ds (S m') (Some 0)) (Z.of_nat (S m') - 1) = Ok (nth m' ws 0)).
  { replace (Z.of_nat (S m') - 1) with (Z.of_nat m') by lia. apply word_read_nth; [rewrite set_nth_length; lia|].
    rewrite nth_set_nth. destruct (Nat.eqb_spec m' (S m')); [lia|]. cbn [andb]. rewrite A. apply nth_words. fold m. lia. }
  rewrite R2. cbn [bind]. unfold shl64, shr64. rewrite !in_range_true by (unfold INT64_BYTE; lia). cbn [bind].
  match goal with |- context [word_write ?d ?i ?w] => destruct (word_write_out d i w) as [x Ex]; [rewrite set_nth_length; lia|rewrite Ex] end.
  eexists. reflexivity.
Qed.
