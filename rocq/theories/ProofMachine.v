(** The operations of Machine.v, ModelDiyfp.v and ModelBigint.v on memory and numbers. *)
From Verif Require Import Machine LibMachine SpecMachine ModelDiyfp ModelBigint.
Open Scope Z_scope.

Section Cells.
Context {A : Type}.
Implicit Types l : list (option A).

Lemma at_nth l i : at_offset l i = if in_range i (Z.of_nat (length l)) then match nth (Z.to_nat i) l None with None => Unwritten | Some x => Holds x end else Outside.
Proof.
  unfold at_offset, in_range. destruct (Z.ltb_spec i 0) as [H|H].
  - replace (0 <=? i) with false by lia. reflexivity.
  - replace (0 <=? i) with true by lia. cbn [andb]. destruct (Z.ltb_spec i (Z.of_nat (length l))) as [L|L].
    + rewrite (nth_error_nth' l None) by lia. destruct (nth (Z.to_nat i) l None); reflexivity.
    + rewrite (proj2 (nth_error_None l _)) by lia. reflexivity.
Qed.

Lemma set_at l i x j : 0 <= i < Z.of_nat (length l) ->
  at_offset (set_nth l (Z.to_nat i) (Some x)) j = if j =? i then Holds x else at_offset l j.
Proof.
  intros H. unfold at_offset. destruct (Z.ltb_spec j 0) as [J|J].
  - replace (j =? i) with false by lia. reflexivity.
  - assert (E : forall (m : list (option A)) a b y, (a < length m)%nat -> nth_error (set_nth m a y) b = if Nat.eqb b a then Some y else nth_error m b).
    { clear. induction m as [|z m IH]; intros a b y La; cbn [length] in La; [lia|]. destruct a as [|a], b as [|b]; cbn; try reflexivity.
      apply IH. lia. }
    rewrite E by lia. destruct (Z.eqb_spec j i) as [->|N]; [rewrite Nat.eqb_refl; reflexivity|].
    replace (Nat.eqb (Z.to_nat j) (Z.to_nat i)) with false by (symmetry; apply Nat.eqb_neq; lia). reflexivity.
Qed.

(** Replacing the middle of an array. *)
Lemma middle_at l (m : list (option A)) a n j : 0 <= a -> 0 <= n -> a + n <= Z.of_nat (length l) -> Z.of_nat (length m) = n ->
  at_offset (firstn (Z.to_nat a) l ++ m ++ skipn (Z.to_nat (a + n)) l) j =
  if (a <=? j) && (j <? a + n) then at_offset m (j - a) else at_offset l j.
Proof.
  intros Ha Hn Hl Hm. unfold at_offset. destruct (Z.ltb_spec j 0) as [J|J].
  - replace (a <=? j) with false by lia. reflexivity.
  - assert (LF : length (firstn (Z.to_nat a) l) = Z.to_nat a) by (rewrite firstn_length; lia).
    destruct (Z.leb_spec a j) as [A1|A1]; cbn [andb].
    + replace (j - a <? 0) with false by lia. rewrite nth_error_app2 by lia. rewrite LF.
      destruct (Z.ltb_spec j (a + n)) as [B|B].
      * rewrite nth_error_app1 by lia. replace (Z.to_nat j - Z.to_nat a)%nat with (Z.to_nat (j - a)) by lia. reflexivity.
      * rewrite nth_error_app2 by lia.
        assert (E : forall (q : list (option A)) b c, nth_error (skipn b q) c = nth_error q (b + c)%nat).
        { clear. induction q as [|y q IH]; intros b c; destruct b as [|b]; cbn; try reflexivity; [destruct c; reflexivity|apply IH]. }
        rewrite E. replace (Z.to_nat (a + n) + (Z.to_nat j - Z.to_nat a - length m))%nat with (Z.to_nat j) by lia. reflexivity.
    + rewrite nth_error_app1 by lia.
      assert (E : forall (q : list (option A)) b c, (c < b)%nat -> nth_error (firstn b q) c = nth_error q c).
      { clear. induction q as [|y q IH]; intros b c H; destruct b as [|b]; try lia; destruct c as [|c]; cbn; try reflexivity. apply IH. lia. }
      rewrite E by lia. reflexivity.
Qed.

Lemma middle_length l (m : list (option A)) a n : 0 <= a -> 0 <= n -> a + n <= Z.of_nat (length l) -> Z.of_nat (length m) = n ->
  length (firstn (Z.to_nat a) l ++ m ++ skipn (Z.to_nat (a + n)) l) = length l.
Proof. intros. rewrite !app_length, firstn_length, skipn_length. lia. Qed.

Lemma slice_at l a n j : 0 <= a -> 0 <= n -> a + n <= Z.of_nat (length l) -> 0 <= j < n ->
  at_offset (firstn (Z.to_nat n) (skipn (Z.to_nat a) l)) j = at_offset l (a + j).
Proof.
  intros Ha Hn Hl Hj. unfold at_offset. replace (j <? 0) with false by lia. replace (a + j <? 0) with false by lia.
  assert (E : forall (q : list (option A)) b c, nth_error (skipn b q) c = nth_error q (b + c)%nat).
  { clear. induction q as [|y q IH]; intros b c; destruct b as [|b]; cbn; try reflexivity; [destruct c; reflexivity|apply IH]. }
  assert (F : forall (q : list (option A)) b c, (c < b)%nat -> nth_error (firstn b q) c = nth_error q c).
  { clear. induction q as [|y q IH]; intros b c H; destruct b as [|b]; try lia; destruct c as [|c]; cbn; try reflexivity. apply IH. lia. }
  rewrite F by lia. rewrite E. replace (Z.to_nat a + Z.to_nat j)%nat with (Z.to_nat (a + j)) by lia. reflexivity.
Qed.

Lemma move_ok l dst src n : inside dst n (Z.of_nat (length l)) -> inside src n (Z.of_nat (length l)) ->
  replaced l (firstn (Z.to_nat dst) l ++ firstn (Z.to_nat n) (skipn (Z.to_nat src) l) ++ skipn (Z.to_nat (dst + n)) l)
    dst n (fun j => at_offset l (src + j)).
Proof.
  intros (N & D1 & D2) (_ & S1 & S2).
  assert (LM : Z.of_nat (length (firstn (Z.to_nat n) (skipn (Z.to_nat src) l))) = n) by (rewrite firstn_length, skipn_length; lia).
  split; [apply middle_length; lia|]. intros j. rewrite middle_at by lia.
  destruct (Z.leb_spec dst j), (Z.ltb_spec j (dst + n)); cbn [andb]; try reflexivity. apply slice_at; lia.
Qed.

End Cells.

(** ** Bytes *)

Lemma read_byte b i : (forall c, buf_read b i = Ok c <-> at_offset b i = Holds c) /\ ((forall c, at_offset b i <> Holds c) -> undefined (buf_read b i)).
Proof.
  rewrite at_nth. unfold buf_read, undefined. destruct (in_range i (Z.of_nat (length b))); [destruct (nth (Z.to_nat i) b None) as [x|]|].
  - split; [intros c; split; intros H; injection H as ->; reflexivity|]. intros H. exfalso. exact (H x eq_refl).
  - split; [intros c; split; discriminate|]. intros _. eexists. reflexivity.
  - split; [intros c; split; discriminate|]. intros _. eexists. reflexivity.
Qed.

Lemma write_byte b i c :
  (inside i 1 (Z.of_nat (length b)) -> exists b', buf_write b i c = Ok b' /\ replaced b b' i 1 (fun _ => Holds c)) /\
  (~ inside i 1 (Z.of_nat (length b)) -> undefined (buf_write b i c)).
Proof.
  unfold buf_write, inside, undefined, in_range. split.
  - intros (_ & H1 & H2). replace (0 <=? i) with true by lia. replace (i <? Z.of_nat (length b)) with true by lia.
    eexists. split; [reflexivity|]. split; [apply set_nth_length|]. intros j. rewrite set_at by lia.
    destruct (Z.eqb_spec j i), (Z.leb_spec i j), (Z.ltb_spec j (i + 1)); cbn [andb]; try reflexivity; lia.
  - intros N. destruct (Z.leb_spec 0 i), (Z.ltb_spec i (Z.of_nat (length b))); cbn [andb]; try (eexists; reflexivity). lia.
Qed.

Lemma move_bytes b dst src n :
  (inside dst n (Z.of_nat (length b)) /\ inside src n (Z.of_nat (length b)) ->
   exists b', buf_memmove b dst src n = Ok b' /\ replaced b b' dst n (fun j => at_offset b (src + j))) /\
  (~ (inside dst n (Z.of_nat (length b)) /\ inside src n (Z.of_nat (length b))) -> undefined (buf_memmove b dst src n)).
Proof.
  unfold buf_memmove, undefined. cbv zeta. split.
  - intros [I J]. pose proof (move_ok b dst src n I J) as M. unfold inside in I, J.
    replace ((0 <=? n) && (0 <=? dst) && (dst + n <=? Z.of_nat (length b)) && (0 <=? src) && (src + n <=? Z.of_nat (length b))) with true by lia.
    eexists. split; [reflexivity|exact M].
  - intros N. unfold inside in N.
    destruct ((0 <=? n) && (0 <=? dst) && (dst + n <=? Z.of_nat (length b)) && (0 <=? src) && (src + n <=? Z.of_nat (length b))) eqn:C;
      [exfalso; lia|eexists; reflexivity].
Qed.

Lemma read_bytes n b i s : buf_read_n b i n = Ok s <-> length s = n /\ forall j, (j < n)%nat -> at_offset b (i + Z.of_nat j) = Holds (nth j s NUL).
Proof.
  revert i s. induction n as [|n IH]; intros i s; cbn [buf_read_n].
  - split.
    + intros E. injection E as <-. split; [reflexivity|lia].
    + intros [L _]. destruct s; [reflexivity|discriminate L].
  - split.
    + intros E. destruct (buf_read b i) as [c| | |] eqn:R; try discriminate E. cbn [bind] in E.
      destruct (buf_read_n b (i + 1) n) as [r| | |] eqn:Q; try discriminate E. cbn [bind] in E. injection E as <-.
      apply IH in Q as [L Q]. apply (proj1 (read_byte b i)) in R. split; [cbn [length]; lia|]. intros [|j] Hj.
      * rewrite Z.add_0_r. exact R.
      * cbn [nth]. replace (i + Z.of_nat (S j)) with (i + 1 + Z.of_nat j) by lia. apply Q. lia.
    + intros [L Q]. destruct s as [|c r]; [discriminate L|]. cbn [length] in L.
      pose proof (Q 0%nat ltac:(lia)) as R. rewrite Z.add_0_r in R. cbn [nth] in R. apply (proj1 (read_byte b i)) in R. rewrite R. cbn [bind].
      replace (buf_read_n b (i + 1) n) with (@Ok bytes r); [reflexivity|]. symmetry. apply IH. split; [lia|].
      intros j Hj. specialize (Q (S j) ltac:(lia)). cbn [nth] in Q. replace (i + 1 + Z.of_nat j) with (i + Z.of_nat (S j)) by lia. exact Q.
Qed.

Lemma read_c_string b i s : buf_c_string (S (length b)) b i = Ok s <->
  (forall j, (j < length s)%nat -> at_offset b (i + Z.of_nat j) = Holds (nth j s NUL) /\ nth j s NUL <> NUL) /\
  at_offset b (i + Z.of_nat (length s)) = Holds NUL.
Proof.
  assert (C0 : forall c, (code c =? 0) = true <-> c = NUL).
  { intros c. rewrite Z.eqb_eq. split; [intros H; apply code_inj; rewrite H; reflexivity|intros ->; reflexivity]. }
  assert (F : forall fuel i s, buf_c_string fuel b i = Ok s ->
    (forall j, (j < length s)%nat -> at_offset b (i + Z.of_nat j) = Holds (nth j s NUL) /\ nth j s NUL <> NUL) /\
    at_offset b (i + Z.of_nat (length s)) = Holds NUL).
  { induction fuel as [|fuel IH]; intros i0 s0; cbn [buf_c_string]; [discriminate|].
    destruct (buf_read b i0) as [c| | |] eqn:R; try discriminate. cbn [bind]. apply (proj1 (read_byte b i0)) in R.
    destruct (code c =? 0) eqn:C.
    - intros E. injection E as <-. apply C0 in C. subst c. cbn [length]. rewrite Z.add_0_r. split; [lia|exact R].
    - destruct (buf_c_string fuel b (i0 + 1)) as [r| | |] eqn:Q; try discriminate. cbn [bind]. intros E. injection E as <-.
      apply IH in Q as [Q1 Q2]. cbn [length]. split.
      + intros [|j] Hj; cbn [nth].
        * rewrite Z.add_0_r. split; [exact R|]. intros X. apply C0 in X. congruence.
        * replace (i0 + Z.of_nat (S j)) with (i0 + 1 + Z.of_nat j) by lia. apply Q1. lia.
      + replace (i0 + Z.of_nat (S (length r))) with (i0 + 1 + Z.of_nat (length r)) by lia. exact Q2. }
  assert (B : forall s fuel i, (length s < fuel)%nat ->
    (forall j, (j < length s)%nat -> at_offset b (i + Z.of_nat j) = Holds (nth j s NUL) /\ nth j s NUL <> NUL) ->
    at_offset b (i + Z.of_nat (length s)) = Holds NUL -> buf_c_string fuel b i = Ok s).
  { clear i s. induction s as [|c s IH]; intros fuel i L Q1 Q2; (destruct fuel as [|fuel]; [lia|]); cbn [buf_c_string length] in *.
    - rewrite Z.add_0_r in Q2. apply (proj1 (read_byte b i)) in Q2. rewrite Q2. reflexivity.
    - destruct (Q1 0%nat ltac:(lia)) as [R N]. rewrite Z.add_0_r in R. cbn [nth] in R, N. apply (proj1 (read_byte b i)) in R. rewrite R. cbn [bind].
      destruct (code c =? 0) eqn:C; [apply C0 in C; contradiction|].
      rewrite (IH fuel (i + 1)); [reflexivity|lia| |].
      + intros j Hj. specialize (Q1 (S j) ltac:(lia)). cbn [nth] in Q1. replace (i + 1 + Z.of_nat j) with (i + Z.of_nat (S j)) by lia. exact Q1.
      + replace (i + 1 + Z.of_nat (length s)) with (i + Z.of_nat (S (length s))) by lia. exact Q2. }
  split; [apply F|]. intros [Q1 Q2]. apply B; [|exact Q1|exact Q2].
  assert (IN : forall k, at_offset b k <> Outside -> 0 <= k < Z.of_nat (length b)).
  { intros k. rewrite at_nth. unfold in_range. destruct (Z.leb_spec 0 k), (Z.ltb_spec k (Z.of_nat (length b))); cbn [andb]; try lia; intros X; contradiction. }
  destruct s as [|c s]; [cbn [length]; lia|].
  pose proof (IN (i + Z.of_nat (length (c :: s))) ltac:(rewrite Q2; discriminate)).
  pose proof (IN (i + Z.of_nat 0) ltac:(rewrite (proj1 (Q1 0%nat ltac:(cbn [length]; lia))); discriminate)). lia.
Qed.

Lemma write_text b i s :
  (inside i (Z.of_nat (length s)) (Z.of_nat (length b)) -> exists b', buf_write_list b i s = Ok b' /\
    replaced b b' i (Z.of_nat (length s)) (fun j => Holds (nth (Z.to_nat j) s NUL))) /\
  (s <> [] -> ~ inside i (Z.of_nat (length s)) (Z.of_nat (length b)) -> undefined (buf_write_list b i s)).
Proof.
  revert b i. induction s as [|c s IH]; intros b i; cbn [buf_write_list length].
  - split; [|congruence]. intros _. exists b. split; [reflexivity|]. split; [reflexivity|]. intros j.
    destruct (Z.leb_spec i j), (Z.ltb_spec j (i + Z.of_nat 0)); cbn [andb]; try reflexivity; lia.
  - destruct (write_byte b i c) as [W1 W2]. split.
    + intros (H0 & H1 & H2). destruct W1 as (b1 & E & L & P); [unfold inside; lia|]. rewrite E. cbn [bind].
      destruct (IH b1 (i + 1)) as [I _]. destruct I as (b2 & E2 & L2 & P2); [unfold inside; lia|].
      exists b2. split; [exact E2|]. split; [congruence|]. intros j. rewrite P2, P.
      destruct (Z.leb_spec (i + 1) j), (Z.ltb_spec j (i + 1 + Z.of_nat (length s))), (Z.leb_spec i j), (Z.ltb_spec j (i + 1)), (Z.ltb_spec j (i + Z.of_nat (S (length s))));
        cbn [andb]; try lia; try reflexivity.
      * replace (Z.to_nat (j - i)) with (S (Z.to_nat (j - (i + 1)))) by lia. reflexivity.
      * replace (Z.to_nat (j - i)) with 0%nat by lia. reflexivity.
    + intros _ N. destruct (Z_le_dec 0 i) as [P|P]; [destruct (Z_lt_dec i (Z.of_nat (length b))) as [Q|Q]|].
      * destruct W1 as (b1 & E & L & _); [unfold inside; lia|]. rewrite E. cbn [bind]. destruct (IH b1 (i + 1)) as [_ I].
        apply I; [intros ->; apply N; unfold inside; cbn [length]; lia|unfold inside in *; lia].
      * destruct W2 as [w ->]; [unfold inside; lia|]. exists w. reflexivity.
      * destruct W2 as [w ->]; [unfold inside; lia|]. exists w. reflexivity.
Qed.

(** ** Words *)

Lemma read_word d i : (forall w, word_read d i = Ok w <-> at_offset d i = Holds w) /\ ((forall w, at_offset d i <> Holds w) -> undefined (word_read d i)).
Proof.
  rewrite at_nth. unfold word_read, undefined. destruct (in_range i (Z.of_nat (length d))); [destruct (nth (Z.to_nat i) d None) as [x|]|].
  - split; [intros c; split; intros H; injection H as ->; reflexivity|]. intros H. exfalso. exact (H x eq_refl).
  - split; [intros c; split; discriminate|]. intros _. eexists. reflexivity.
  - split; [intros c; split; discriminate|]. intros _. eexists. reflexivity.
Qed.

Lemma write_word d i w :
  (inside i 1 (Z.of_nat (length d)) -> exists d', word_write d i w = Ok d' /\ replaced d d' i 1 (fun _ => Holds w)) /\
  (~ inside i 1 (Z.of_nat (length d)) -> undefined (word_write d i w)).
Proof.
  unfold word_write, inside, undefined, in_range. split.
  - intros (_ & H1 & H2). replace (0 <=? i) with true by lia. replace (i <? Z.of_nat (length d)) with true by lia.
    eexists. split; [reflexivity|]. split; [apply set_nth_length|]. intros j. rewrite set_at by lia.
    destruct (Z.eqb_spec j i), (Z.leb_spec i j), (Z.ltb_spec j (i + 1)); cbn [andb]; try reflexivity; lia.
  - intros N. destruct (Z.leb_spec 0 i), (Z.ltb_spec i (Z.of_nat (length d))); cbn [andb]; try (eexists; reflexivity). lia.
Qed.

Lemma move_words d dst src n :
  (inside dst n (Z.of_nat (length d)) /\ inside src n (Z.of_nat (length d)) ->
   exists d', words_memmove d dst src n = Ok d' /\ replaced d d' dst n (fun j => at_offset d (src + j))) /\
  (~ (inside dst n (Z.of_nat (length d)) /\ inside src n (Z.of_nat (length d))) -> undefined (words_memmove d dst src n)).
Proof.
  unfold words_memmove, undefined. cbv zeta. split.
  - intros [I J]. pose proof (move_ok d dst src n I J) as M. unfold inside in I, J.
    replace ((0 <=? n) && (0 <=? dst) && (dst + n <=? Z.of_nat (length d)) && (0 <=? src) && (src + n <=? Z.of_nat (length d))) with true by lia.
    eexists. split; [reflexivity|exact M].
  - intros N. unfold inside in N.
    destruct ((0 <=? n) && (0 <=? dst) && (dst + n <=? Z.of_nat (length d)) && (0 <=? src) && (src + n <=? Z.of_nat (length d))) eqn:C;
      [exfalso; lia|eexists; reflexivity].
Qed.

Lemma prefix_ok (d m : words) n : inside 0 n (Z.of_nat (length d)) -> Z.of_nat (length m) = n ->
  replaced d (m ++ skipn (Z.to_nat n) d) 0 n (at_offset m).
Proof.
  intros (N & _ & L) M.
  pose proof (middle_length d m 0 n ltac:(lia) N ltac:(lia) M) as ML. pose proof (fun j => middle_at d m 0 n j ltac:(lia) N ltac:(lia) M) as MA.
  change (firstn (Z.to_nat 0) d) with (@nil (option Z)) in *. cbn [app] in *. rewrite Z.add_0_l in *.
  split; [exact ML|]. intros j. rewrite Z.add_0_l. apply MA.
Qed.

Lemma clear_words d n :
  (inside 0 n (Z.of_nat (length d)) -> exists d', words_clear d n = Ok d' /\ replaced d d' 0 n (fun _ => Holds 0)) /\
  (~ inside 0 n (Z.of_nat (length d)) -> undefined (words_clear d n)).
Proof.
  unfold words_clear, undefined. split.
  - intros I. pose proof (prefix_ok d (repeat (Some 0) (Z.to_nat n)) n I) as P. destruct I as (N & _ & L).
    replace ((0 <=? n) && (n <=? Z.of_nat (length d))) with true by lia. eexists. split; [reflexivity|].
    destruct P as [P1 P2]; [rewrite repeat_length; lia|]. split; [exact P1|]. intros j. rewrite P2.
    destruct (Z.leb_spec 0 j), (Z.ltb_spec j (0 + n)); cbn [andb]; try reflexivity.
    unfold at_offset. replace (j - 0 <? 0) with false by lia.
    assert (E : forall k m, (k < m)%nat -> nth_error (repeat (Some 0) m) k = Some (Some 0)).
    { clear. induction k as [|k IH]; intros [|m] H; try lia; cbn; [reflexivity|]. apply IH. lia. }
    rewrite E by lia. reflexivity.
  - intros N. unfold inside in N. destruct ((0 <=? n) && (n <=? Z.of_nat (length d))) eqn:C; [exfalso; lia|eexists; reflexivity].
Qed.

Lemma copy_words d s n :
  (inside 0 n (Z.of_nat (length d)) /\ inside 0 n (Z.of_nat (length s)) -> exists d', words_copy d s n = Ok d' /\ replaced d d' 0 n (at_offset s)) /\
  (~ (inside 0 n (Z.of_nat (length d)) /\ inside 0 n (Z.of_nat (length s))) -> undefined (words_copy d s n)).
Proof.
  unfold words_copy, undefined. split.
  - intros [I J]. pose proof (prefix_ok d (firstn (Z.to_nat n) s) n I) as P. destruct I as (N & _ & L). destruct J as (_ & _ & L2).
    replace ((0 <=? n) && (n <=? Z.of_nat (length d)) && (n <=? Z.of_nat (length s))) with true by lia. eexists. split; [reflexivity|].
    destruct P as [P1 P2]; [rewrite firstn_length; lia|]. split; [exact P1|]. intros j. rewrite P2.
    destruct (Z.leb_spec 0 j), (Z.ltb_spec j (0 + n)); cbn [andb]; try reflexivity.
    pose proof (slice_at s 0 n (j - 0) ltac:(lia) N ltac:(lia) ltac:(lia)) as S. exact S.
  - intros N. unfold inside in N. destruct ((0 <=? n) && (n <=? Z.of_nat (length d)) && (n <=? Z.of_nat (length s))) eqn:C;
      [exfalso; lia|eexists; reflexivity].
Qed.

(** ** Numbers *)

Lemma wrap_unsigned w x : 0 < w -> unsigned_of w x (x mod 2 ^ w).
Proof.
  intros H. assert (0 < 2 ^ w) by (apply Z.pow_pos_nonneg; lia). split; [apply Z.mod_pos_bound; lia|].
  exists (x / 2 ^ w). pose proof (Z.div_mod x (2 ^ w) ltac:(lia)). lia.
Qed.

Lemma widths x : unsigned_of 8 x (u8 x) /\ unsigned_of 16 x (u16 x) /\ unsigned_of 32 x (u32 x) /\ unsigned_of 64 x (u64 x).
Proof. repeat split; try (apply Z.mod_pos_bound; reflexivity); eapply wrap_unsigned; reflexivity. Qed.

Lemma conversions w x : 0 < w -> unsigned_of w x (uwrap w x) /\ signed_of w x (swrap w x).
Proof.
  intros H. pose proof (wrap_unsigned w x H) as [B [k E]]. split; [split; [exact B|exists k; exact E]|].
  assert (D : 2 ^ w = 2 * 2 ^ (w - 1)) by (rewrite <- Z.pow_succ_r by lia; f_equal; lia).
  unfold swrap. destruct (Z.ltb_spec (x mod 2 ^ w) (2 ^ (w - 1))); split; try lia; [exists k; exact E|exists (k + 1); lia].
Qed.

Lemma characters z c : unsigned_of 8 z (code (chr z)) /\ chr (code c) = c /\ 0 <= code c < 256 /\
  char_value false c = code c /\ signed_of 8 (code c) (char_value true c).
Proof.
  split; [|split; [apply chr_code|split; [apply code_range|split; [reflexivity|apply conversions; lia]]]].
  assert (E : chr z = chr (z mod 256)) by (unfold chr; rewrite Z.mod_mod by lia; reflexivity).
  rewrite E, code_chr by (apply Z.mod_pos_bound; lia). exact (wrap_unsigned 8 z ltac:(lia)).
Qed.

Lemma shifts_checked x n : 0 <= x < 2 ^ 64 ->
  (0 <= n < 64 -> (exists y, shl64 x n = Ok y /\ unsigned_of 64 (x * 2 ^ n) y) /\ shr64 x n = Ok (x / 2 ^ n)) /\
  (~ 0 <= n < 64 -> undefined (shl64 x n) /\ undefined (shr64 x n)).
Proof.
  intros Hx. unfold shl64, shr64, undefined, in_range. split.
  - intros H. replace (0 <=? n) with true by lia. replace (n <? 64) with true by lia. cbn [andb].
    split; [|rewrite Z.shiftr_div_pow2 by lia; reflexivity].
    eexists. split; [reflexivity|]. rewrite Z.shiftl_mul_pow2 by lia. apply wrap_unsigned. lia.
  - intros N. replace ((0 <=? n) && (n <? 64)) with false by lia. split; eexists; reflexivity.
Qed.

(** A cursor writes and steps. *)
Lemma put_steps k c : (inside (cpos k) 1 (Z.of_nat (length (cbuf k))) -> exists k', put k c = Ok k' /\ cpos k' = cpos k + 1 /\
    replaced (cbuf k) (cbuf k') (cpos k) 1 (fun _ => Holds c)) /\
  (~ inside (cpos k) 1 (Z.of_nat (length (cbuf k))) -> undefined (put k c)).
Proof.
  destruct (write_byte (cbuf k) (cpos k) c) as [W1 W2]. unfold put. split; intros H.
  - destruct (W1 H) as (b & E & R). rewrite E. cbn [bind]. eexists. split; [reflexivity|]. split; [reflexivity|exact R].
  - destruct (W2 H) as [w E]. rewrite E. exists w. reflexivity.
Qed.

(** A fresh buffer holds nothing. *)
Lemma fresh n i : at_offset (new_buf n) i = if (0 <=? i) && (i <? Z.of_nat n) then Unwritten else Outside.
Proof.
  rewrite at_nth. unfold new_buf, in_range. rewrite repeat_length. destruct ((0 <=? i) && (i <? Z.of_nat n)) eqn:C; [|reflexivity].
  rewrite nth_repeat. reflexivity.
Qed.
