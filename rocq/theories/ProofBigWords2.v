(** BigIntegers whose words are defined: comparison, difference, programs. *)
From Verif Require Import Machine LibMachine SpecDecimal SpecBig SpecBigProgram SpecBigStore SpecBigWords ModelDiyfp ModelBigint ModelThrown ModelBigStore
  ProofBig ProofBig2 ProofBig3 ProofBig4 ProofBig5 ProofBig6 ProofThrown ProofBigStore ProofBigWords.
Open Scope Z_scope.
Ltac Zify.zify_post_hook ::= idtac.

(** ** Comparison *)

Lemma compare_any x y a b : is_thing x a -> is_thing y b -> compare a b = Ok (order_things x y).
Proof.
  destruct x as [c n], y as [c' m]. intros Hx Hy. apply thing_rep in Hx. destruct Hx as (u & (r1 & A1 & B1 & C1 & D1 & E1) & L1 & V1).
  apply thing_rep in Hy. destruct Hy as (v & (r2 & A2 & B2 & C2 & D2 & E2) & L2 & V2).
  unfold compare, order_things. cbn [fst snd]. rewrite C1, C2, L1, L2. subst n m. destruct (Z.eqb_spec c c') as [E|E].
  - rewrite A1, A2, <- L1, Nat2Z.id. apply compare_loop_ok; [exact E1|exact E2|lia].
  - unfold order. destruct (Z.ltb_spec c c') as [Lt|Ge]; destruct (Z.compare_spec c c') as [X|X|X]; (reflexivity || lia).
Qed.

Lemma equal_any x y a b : is_thing x a -> is_thing y b -> equal a b = Ok (order_things x y =? 0).
Proof.
  destruct x as [c n], y as [c' m]. intros Hx Hy. apply thing_rep in Hx. destruct Hx as (u & (r1 & A1 & B1 & C1 & D1 & E1) & L1 & V1).
  apply thing_rep in Hy. destruct Hy as (v & (r2 & A2 & B2 & C2 & D2 & E2) & L2 & V2).
  unfold equal, order_things. cbn [fst snd]. rewrite C1, C2, L1, L2. subst n m. destruct (Z.eqb_spec c c') as [E|E].
  - rewrite A1, A2, <- L1, Nat2Z.id. pose proof (words_equal_ok u v ltac:(lia) [] [] r1 r2 eq_refl) as Q. cbn [app length] in Q. change (Z.of_nat 0) with 0 in Q. rewrite Q.
    f_equal. unfold order. destruct (Z.compare_spec (words_value u) (words_value v)) as [V|V|V]; destruct (list_eq_dec Z.eq_dec u v) as [X|N]; try reflexivity.
    + exfalso. apply N. apply wv_inj; try assumption. lia.
    + exfalso. rewrite X in V. lia.
    + exfalso. rewrite X in V. lia.
  - unfold order. destruct (Z.compare_spec c c') as [X|X|X]; [contradiction|reflexivity|reflexivity].
Qed.

Lemma digit_any c n b i : is_thing (c, n) b -> 0 <= i < c -> digit b i = Ok (nth_word n i).
Proof.
  intros H I. apply thing_rep in H. destruct H as (ws & (rest & A & B & C & D & E) & L & V). unfold digit, nth_word.
  destruct (Z.ltb_spec i (count_ b)); [|lia]. rewrite <- (Z2Nat.id i) by lia. set (j := Z.to_nat i).
  rewrite <- Wp_pow, <- V. change (2 ^ 64) with W. rewrite <- (wv_nth ws E j) by lia.
  apply word_read_nth; [rewrite A, app_length, map_length; lia|]. rewrite A. apply nth_words. lia.
Qed.

Lemma digit_beyond c n b i : is_thing (c, n) b -> c <= i -> exists w, digit b i = Throw w.
Proof. intros [C _] I. cbn [fst] in C. unfold digit. destruct (Z.ltb_spec i (count_ b)); [lia|]. eauto. Qed.

(** ** Copies *)

Lemma copied x b d : is_thing x b -> Z.of_nat (length d) = capacity ->
  exists ds, words_copy d (digits_ b) (count_ b) = Ok ds /\ is_thing x (Big ds (count_ b)).
Proof.
  destruct x as [c n]. intros H Ld. apply thing_rep in H. destruct H as (ws & R & L & V). destruct (rep_length _ _ R) as [_ L2]. destruct R as (rest & A & B & C & D & E).
  rewrite A, C. rewrite words_copy_ok by lia. eexists. split; [reflexivity|]. apply thing_rep. exists ws. split; [|auto].
  exists (skipn (length ws) d). cbn [digits_ count_]. split; [reflexivity|]. split; [rewrite app_length, map_length, skipn_length; lia|]. auto.
Qed.

Lemma copy_any x b : is_thing x b -> exists c, BigInteger_copy b = Ok c /\ is_thing x c.
Proof.
  intros H. destruct (copied x b new_digits H new_length) as (ds & E & T). unfold BigInteger_copy. rewrite E. cbn [bind]. eauto.
Qed.
Lemma assign_any x b y a : is_thing x b -> is_thing y a -> exists c, assign a b = Ok c /\ is_thing x c.
Proof.
  intros H Ha. destruct (copied x b (digits_ a) H (thing_length y a Ha)) as (ds & E & T). unfold assign. rewrite E. cbn [bind]. eauto.
Qed.

(** ** Difference *)

(** The last nonzero word written sets the count; without one it stays [c0]. *)
Definition counts (R : list Z) (c c0 : Z) : Prop :=
  exists R1 k, R = R1 ++ repeat 0 k /\ ((R1 = [] /\ c = c0) \/ (last R1 0 <> 0 /\ c = Z.of_nat (length R1))).

Lemma counts_snoc R c c0 d : counts R c c0 -> counts (R ++ [d]) (if d =? 0 then c else Z.of_nat (length R) + 1) c0.
Proof.
  intros (R1 & k & -> & H). destruct (Z.eqb_spec d 0) as [->|N].
  - exists R1, (S k). split; [|exact H]. rewrite <- app_assoc. f_equal. rewrite <- repeat_cons. reflexivity.
  - exists ((R1 ++ repeat 0 k) ++ [d]), 0%nat. split; [cbn [repeat]; rewrite app_nil_r; reflexivity|]. right.
    rewrite last_last. split; [exact N|]. rewrite (app_length (R1 ++ _)). cbn [length]. lia.
Qed.

Lemma lossy_step k n m borrow : lossy_difference (S k) n m borrow =
  let a := n mod W in let b := m mod W in
  if (borrow =? 1) && (b =? W - 1) then a + W * lossy_difference k (n / W) (m / W) 0
  else (a - b - borrow) mod W + W * lossy_difference k (n / W) (m / W) (if a <? b + borrow then 1 else 0).
Proof. reflexivity. Qed.

Lemma div_Wp n i : n / Wp i / W = n / Wp (S i).
Proof. rewrite Wp_S, Z.mul_comm. apply Z.div_div; [pose proof (Wp_pos i); lia|reflexivity]. Qed.

Lemma lossy_loop (cap : nat) A B ra rb n m : Forall word A -> Forall word B -> words_value A = n -> words_value B = m ->
  (length B <= length A)%nat -> (length A <= cap)%nat ->
  forall fuel i R rest c c0 borrow, (i + length rest = cap)%nat -> (i <= length A)%nat -> (length A - i <= fuel)%nat ->
  length R = i -> Forall word R -> borrow = 0 \/ borrow = 1 -> counts R c c0 ->
  exists R' c',
    difference_loop fuel Apart (Big (map Some A ++ ra) (Z.of_nat (length A))) (Big (map Some B ++ rb) (Z.of_nat (length B)))
      (Big (map Some R ++ rest) c) (Z.of_nat i) borrow = Ok (Big (map Some R' ++ skipn (length A - i) rest) c') /\
    length R' = length A /\ Forall word R' /\ counts R' c' c0 /\
    words_value R' = words_value R + Wp i * lossy_difference (length A - i) (n / Wp i) (m / Wp i) borrow.
Proof.
  intros FA FB VA VB LBA LAC. induction fuel as [|fuel IH]; intros i R rest c c0 borrow Lr Li Lf LR FR Bb CR.
  - assert (i = length A) as EI by lia. cbn [difference_loop count_]. destruct (Z.ltb_spec (Z.of_nat i) (Z.of_nat (length A))); [clear - EI H; lia|].
    exists R, c. rewrite <- EI, Nat.sub_diag. cbn [skipn lossy_difference]. rewrite Z.mul_0_r, Z.add_0_r. auto.
  - destruct (Nat.eq_dec i (length A)) as [EI|NI].
    + cbn [difference_loop count_]. destruct (Z.ltb_spec (Z.of_nat i) (Z.of_nat (length A))); [clear - EI H; lia|].
      exists R, c. rewrite <- EI, Nat.sub_diag. cbn [skipn lossy_difference]. rewrite Z.mul_0_r, Z.add_0_r. auto.
    + cbn [difference_loop count_ digits_]. destruct (Z.ltb_spec (Z.of_nat i) (Z.of_nat (length A))) as [_|X]; [|clear - X Li NI; lia].
      rewrite (word_read_nth _ i (nth i A 0)); [|rewrite app_length, map_length; lia|apply nth_words; lia]. cbn [bind].
      set (a := nth i A 0). set (b := nth i B 0).
      assert (EB : (if Z.of_nat i <? Z.of_nat (length B)
                   then let* bi := word_read (map Some B ++ rb) (Z.of_nat i) in Ok (u64 (u64 (a - borrow) - bi))
                   else Ok (u64 (a - borrow))) = Ok (u64 (u64 (a - borrow) - b))).
      { destruct (Z.ltb_spec (Z.of_nat i) (Z.of_nat (length B))).
        - rewrite (word_read_nth _ i b); [reflexivity|rewrite app_length, map_length; lia|apply nth_words; lia].
        - unfold b. rewrite nth_overflow by lia. rewrite Z.sub_0_r. f_equal. rewrite !u64_W. symmetry. apply Z.mod_mod. discriminate. }
      rewrite EB. cbn [bind]. clear EB.
      assert (Ea : a = (n / Wp i) mod W) by (change (a = word_of n i); rewrite <- VA; apply nth_word_of; exact FA).
      assert (Eb : b = (m / Wp i) mod W) by (change (b = word_of m i); rewrite <- VB; apply nth_word_of; exact FB).
      assert (Wa : word a) by (rewrite Ea; apply word_of_word). assert (Wb : word b) by (rewrite Eb; apply word_of_word).
      destruct (sub_word a b borrow Wa Wb ltac:(clear - Bb; lia)) as [Wd Ed]. cbn zeta in Ed. set (d := u64 (u64 (a - borrow) - b)) in *.
      assert (Dm : d = (a - b - borrow) mod W).
      { unfold d. rewrite !u64_W, Zminus_mod_idemp_l. f_equal. ring. }
      clearbody d.
      destruct rest as [|x rest]; [exfalso; cbn [length] in Lr; clear - Lr Li NI LAC; lia|].
      assert (EW : word_write (map Some R ++ x :: rest) (Z.of_nat i) d = Ok (map Some (R ++ [d]) ++ rest)).
      { rewrite <- LR, <- (map_length Some R). rewrite word_write_app. rewrite map_app, <- app_assoc. reflexivity. }
      rewrite EW. cbn [bind]. replace (Z.of_nat i + 1) with (Z.of_nat (S i)) by (clear; lia).
      assert (CD : counts (R ++ [d]) (if d =? 0 then c else Z.of_nat (S i)) c0).
      { replace (Z.of_nat (S i)) with (Z.of_nat (length R) + 1) by (clear - LR; lia). apply counts_snoc. exact CR. }
      set (c' := if d =? 0 then c else Z.of_nat (S i)) in *.
      assert (VR : words_value (R ++ [d]) = words_value R + Wp i * d).
      { rewrite wv_app, LR. cbn [words_value]. rewrite Z.mul_0_r, Z.add_0_r. reflexivity. }
      replace (length A - i)%nat with (S (length A - S i)) by (clear - Li NI; lia). cbn [skipn].
      destruct (IH (S i) (R ++ [d]) rest c' c0 (if a <? d then 1 else 0)) as (R' & c'' & P1 & P2 & P3 & P4 & P5); [cbn [length] in Lr; clear - Lr; lia|clear - Li NI; lia|clear - Lf Li NI; lia|rewrite app_length; cbn [length]; clear - LR; lia| | |exact CD|].
      { apply Forall_app. split; [exact FR|constructor; [exact Wd|constructor]]. }
      { destruct (a <? d); auto. }
      exists R', c''. split; [exact P1|]. split; [exact P2|]. split; [exact P3|]. split; [exact P4|]. rewrite P5, VR, lossy_step. cbn zeta.
      rewrite !div_Wp, <- Ea, <- Eb, !Wp_S. destruct ((borrow =? 1) && (b =? W - 1)).
      * rewrite Ed, Z.ltb_irrefl. cbv iota. ring.
      * replace (if a <? b + borrow then 1 else 0) with (if a <? d then 1 else 0).
        -- rewrite <- Dm. ring.
        -- unfold word in *. clear - Ed Wd Wa. destruct (Z.ltb_spec a d); destruct (Z.ltb_spec a (b + borrow)); lia.
Qed.

(** The value and the count of what is written. *)
Lemma counts_value R c c0 : Forall word R -> counts R c c0 ->
  exists R1 k, R = R1 ++ repeat 0 k /\ words_value R1 = words_value R /\
    (words_value R = 0 /\ R = repeat 0 (length R) /\ c = c0 \/ words_value R <> 0 /\ R1 <> [] /\ c = Z.of_nat (length R1) /\ c = width (words_value R)).
Proof.
  intros F (R1 & k & E & H). exists R1, k. split; [exact E|]. assert (V : words_value R1 = words_value R) by (rewrite E, wv_app, wv_zeros; lia). split; [exact V|].
  destruct H as [[-> ->]|[NZ ->]].
  - left. cbn [app] in E. split; [rewrite <- V; reflexivity|]. split; [|reflexivity]. rewrite E at 1. f_equal. rewrite E, repeat_length. reflexivity.
  - right. assert (F1 : Forall word R1) by (rewrite E in F; apply Forall_app in F; apply F). assert (N1 : R1 <> []) by (intros ->; apply NZ; reflexivity).
    pose proof (top_bound R1 F1 N1 NZ) as T. pose proof (wv_bounds R1 F1) as B. rewrite V in *. pose proof (Wp_pos (Nat.pred (length R1))).
    split; [lia|]. split; [exact N1|]. split; [reflexivity|]. symmetry. apply width_unique; [lia|destruct R1; [contradiction|cbn [length]; lia]|].
    destruct R1 as [|w q]; [contradiction|]. cbn [length Nat.pred] in *. replace (Z.of_nat (S (length q)) - 1) with (Z.of_nat (length q)) by lia. rewrite <- !Wp_pow. lia.
Qed.

Lemma skipn_words (Z0 : list Z) rz k : exists r, skipn k (map Some Z0 ++ rz) = map Some (skipn k Z0) ++ r /\ length (skipn k (map Some Z0 ++ rz)) = (length Z0 + length rz - k)%nat.
Proof.
  exists (skipn (k - length Z0) rz). split; [|rewrite skipn_length, app_length, map_length; reflexivity].
  rewrite skipn_app, map_length, skipn_map. reflexivity.
Qed.

Lemma skipn_value Z0 k : Forall word Z0 -> words_value (skipn k Z0) = words_value Z0 / Wp k.
Proof.
  intros F. pose proof (firstn_value Z0 k F) as E. pose proof (Z_div_mod_eq_full (words_value Z0) (Wp k)) as D. pose proof (Wp_pos k) as P.
  assert (V : words_value Z0 = words_value (firstn k Z0) + Wp (length (firstn k Z0)) * words_value (skipn k Z0)).
  { rewrite <- wv_app, firstn_skipn. reflexivity. }
  destruct (Nat.le_ge_cases k (length Z0)) as [L|L].
  - rewrite firstn_length, Nat.min_l in V by exact L. rewrite E in V. nia.
  - rewrite skipn_all2 by exact L. cbn [words_value]. symmetry. apply Z.div_small. pose proof (wv_bounds Z0 F). pose proof (Wp_le _ _ L). lia.
Qed.

(** Into another object. *)
Lemma apart_any ca n cb m cz p a b o : is_thing (ca, n) a -> is_thing (cb, m) b -> is_thing (cz, p) o -> cb <= ca ->
  exists r, difference_loop (Z.to_nat capacity) Apart a b o 0 0 = Ok r /\
    (lossy_difference (Z.to_nat ca) n m 0 <> 0 -> is_thing (width (lossy_difference (Z.to_nat ca) n m 0), lossy_difference (Z.to_nat ca) n m 0) r) /\
    (lossy_difference (Z.to_nat ca) n m 0 = 0 -> is_thing (cz, 2 ^ (64 * ca) * (p / 2 ^ (64 * ca))) r).
Proof.
  intros Ha Hb Ho CC. apply thing_rep in Ha. destruct Ha as (A & RA & LA & VA). apply thing_rep in Hb. destruct Hb as (B & RB & LB & VB).
  apply thing_rep in Ho. destruct Ho as (O & RO & LO & VO). destruct (rep_length _ _ RO) as [LO1 LO2].
  destruct (rep_length _ _ RA) as [LA1 LA2]. destruct RA as (ra & A1 & A2 & A3 & A4 & A5). destruct RB as (rb & B1 & B2 & B3 & B4 & B5). destruct RO as (ro & O1 & O2 & O3 & O4 & O5).
  destruct a as [da ca0]; destruct b as [db cb0]; destruct o as [dz cz0]; cbn [digits_ count_] in *. subst da ca0 db cb0 dz cz0 ca cb cz. rewrite Nat2Z.id.
  destruct capacity_nat as [CN1 CN2]. rewrite app_length, map_length in A2, B2, O2.
  destruct (lossy_loop (Z.to_nat capacity) A B ra rb n m A5 B5 VA VB ltac:(lia) ltac:(lia) (Z.to_nat capacity) 0 [] (map Some O ++ ro) (Z.of_nat (length O)) (Z.of_nat (length O)) 0)
    as (R & c & E & LR & FR & CR & VR); [rewrite app_length, map_length; cbn [plus]; lia|lia|lia|reflexivity|apply Forall_nil|auto|exists [], 0%nat; split; [reflexivity|left; auto]|].
  rewrite Nat.sub_0_r in *. rewrite Wp_0, !Z.div_1_r, Z.mul_1_l in VR. cbn [words_value map app] in *. rewrite Z.add_0_l in VR. change (Z.of_nat 0) with 0 in E.
  destruct (skipn_words O ro (length A)) as (rr & ES & LS). rewrite ES in *. eexists. split; [exact E|]. rewrite <- VR. rewrite app_length, map_length in LS.
  destruct (counts_value R c _ FR CR) as (R1 & k & ER & V1 & [(Z0 & RZ & ->)|(NZ & N1 & EC & EW)]).
  - split; [intros X; contradiction|]. intros _. rewrite <- Wp_pow, <- VO, <- skipn_value by exact O5.
    assert (FK : Forall word (skipn (length A) O)) by (rewrite <- (firstn_skipn (length A) O) in O5; apply Forall_app in O5; apply O5).
    apply thing_rep. exists (firstn (length O) (R ++ skipn (length A) O)).
    assert (LF : length (firstn (length O) (R ++ skipn (length A) O)) = length O) by (rewrite firstn_length, app_length, skipn_length, LR; lia).
    split; [|split].
    + exists (skipn (length O) (map Some (R ++ skipn (length A) O) ++ rr)). cbn [digits_ count_]. split; [|split; [|split; [|split]]].
      * rewrite <- (firstn_words (R ++ skipn (length A) O) rr (length O)) by (rewrite app_length, skipn_length, LR; lia). rewrite firstn_skipn, map_app, <- app_assoc. reflexivity.
      * rewrite !app_length, !map_length. rewrite LR, CN2. lia.
      * rewrite LF. reflexivity.
      * intros X. rewrite X in LF. cbn [length] in LF. destruct O; [contradiction|discriminate LF].
      * assert (FF : Forall word (R ++ skipn (length A) O)) by (apply Forall_app; split; assumption).
        rewrite <- (firstn_skipn (length O) (R ++ skipn (length A) O)) in FF. apply Forall_app in FF. apply FF.
    + rewrite LF. reflexivity.
    + destruct (Nat.le_gt_cases (length O) (length A)) as [X|X].
      * rewrite skipn_all2 by exact X. rewrite app_nil_r. cbn [words_value]. rewrite Z.mul_0_r. rewrite RZ.
        assert (EF : firstn (length O) (repeat 0 (length R)) = repeat 0 (length O)).
        { rewrite LR. replace (length A) with (length O + (length A - length O))%nat by lia. rewrite repeat_app, firstn_app, repeat_length, Nat.sub_diag, firstn_O, app_nil_r.
          rewrite firstn_all2 by (rewrite repeat_length; lia). reflexivity. }
        rewrite EF. apply wv_zeros.
      * rewrite firstn_all2 by (rewrite app_length, skipn_length, LR; lia). rewrite wv_app, Z0, LR. reflexivity.
  - split; [|intros X; contradiction]. intros _. apply thing_rep. exists R1. split; [|split; [rewrite <- EC; exact EW|exact V1]].
    assert (LR1 : (length R1 + k = length A)%nat) by (rewrite <- LR, ER, app_length, repeat_length; reflexivity).
    exists (map Some (repeat 0 k) ++ map Some (skipn (length A) O) ++ rr). cbn [digits_ count_]. split; [rewrite ER, map_app, <- app_assoc; reflexivity|].
    split; [rewrite !app_length, !map_length, ER, app_length, repeat_length, CN2; lia|]. split; [exact EC|]. split; [exact N1|].
    rewrite ER in FR. apply Forall_app in FR. apply FR.
Qed.

(** ** Into an operand *)

Lemma larger_any ca n cb m a b i : is_thing (ca, n) a -> is_thing (cb, m) b -> cb <= ca -> 0 <= i -> (2 ^ (64 * i) | n - m) -> ~ (2 ^ (64 * (i + 1)) | n - m) ->
  exists r, difference_loop (Z.to_nat capacity) Larger a b a 0 0 = Ok r /\ is_thing (i + 1, (n - m) mod 2 ^ (64 * (i + 1))) r.
Proof.
  intros Ha Hb CC Hi D ND. destruct (lowest_word n m i Hi D ND) as [EQ NE]. set (j := Z.to_nat i) in *.
  apply thing_rep in Ha. destruct Ha as (A & RA & LA & VA). apply thing_rep in Hb. destruct Hb as (B & RB & LB & VB).
  destruct (rep_length _ _ RA) as [LA1 LA2]. destruct RA as (ra & A1 & A2 & A3 & A4 & A5). destruct RB as (rb & B1 & B2 & B3 & B4 & B5).
  destruct a as [da ca0]; destruct b as [db cb0]; cbn [digits_ count_] in *. subst da ca0 db cb0. rewrite app_length, map_length in A2, B2.
  assert (SA : (length A + length ra = Z.to_nat capacity)%nat) by (clear - A2; lia).
  assert (SB : (length B + length rb = Z.to_nat capacity)%nat) by (clear - B2; lia).
  assert (SL : (length A <= Z.to_nat capacity)%nat) by (clear - SA; lia).
  assert (LBA : (length B <= length A)%nat) by (clear - LA LB CC; lia).
  pose proof (j_below A B ra rb n m j A5 B5 VA VB SL SA SB LBA EQ NE) as JB.
  assert (SJ : (j - 0 < Z.to_nat capacity)%nat) by (clear - SL JB; lia).
  pose proof (larger_loop A B ra rb n m j A5 B5 VA VB SL SA SB LBA EQ NE (Z.to_nat capacity) 0%nat (Nat.le_0_l j) SJ) as X.
  cbn zeta in X. eexists. split; [exact X|].
  apply thing_rep. exists (repeat 0 j ++ [low_word A B j]). split; [|split].
  - exists (skipn (S j) (map Some A ++ ra)). cbn [digits_ count_]. split; [reflexivity|].
    rewrite app_length, map_length, skipn_length, !app_length, map_length, repeat_length. cbn [length].
    split; [clear - A2 JB; lia|]. split; [clear; lia|]. split; [destruct (repeat 0 j); discriminate|].
    apply Forall_app. split.
    + apply Forall_forall. intros w Hw. apply repeat_spec in Hw. subst w. split; [lia|reflexivity].
    + constructor; [|constructor]. apply Z.mod_pos_bound. reflexivity.
  - rewrite app_length, repeat_length. cbn [length]. unfold j. clear - Hi. lia.
  - rewrite wv_app, wv_zeros, repeat_length. cbn [words_value]. rewrite Z.mul_0_r, Z.add_0_r, Z.add_0_l.
    rewrite (low_value A B j A5 B5) by (rewrite VA, VB; exact EQ). rewrite VA, VB, Wp_pow. f_equal. f_equal. unfold j. clear - Hi. lia.
Qed.

Lemma counted_counts R c : counted R c -> words_value R <> 0 -> counts R c c.
Proof.
  intros (R1 & k & E & [->|H]) N; [exfalso; apply N; rewrite E; cbn [app]; apply wv_zeros|]. exists R1, k. auto.
Qed.

Lemma smaller_any ca n cb m a b i : is_thing (ca, n) a -> is_thing (cb, m) b -> cb <= ca -> 0 <= i -> (2 ^ (64 * i) | n - m) -> ~ (2 ^ (64 * (i + 1)) | n - m) ->
  let v := (n - m mod 2 ^ (64 * (i + 1))) mod 2 ^ (64 * ca) in
  exists r, difference_loop (Z.to_nat capacity) Smaller a b b 0 0 = Ok r /\ is_thing (width v, v) r.
Proof.
  intros Ha Hb CC Hi D ND v. destruct (lowest_word n m i Hi D ND) as [EQ NE]. set (j := Z.to_nat i) in *.
  assert (EJ : 64 * (i + 1) = 64 * Z.of_nat (S j)) by (unfold j; clear - Hi; lia). unfold v. clear v. rewrite EJ, <- Wp_pow in *. clear EJ. clearbody j. clear D Hi i.
  apply thing_rep in Ha. destruct Ha as (A & RA & LA & VA). apply thing_rep in Hb. destruct Hb as (B & RB & LB & VB).
  destruct (rep_length _ _ RA) as [LA1 LA2]. destruct RA as (ra & A1 & A2 & A3 & A4 & A5). destruct RB as (rb & B1 & B2 & B3 & B4 & B5).
  destruct a as [da ca0]; destruct b as [db cb0]; cbn [digits_ count_] in *. subst da ca0 db cb0. rewrite app_length, map_length in A2, B2.
  assert (SA : (length A + length ra = Z.to_nat capacity)%nat) by (clear - A2; lia).
  assert (SB : (length B + length rb = Z.to_nat capacity)%nat) by (clear - B2; lia).
  assert (SL : (length A <= Z.to_nat capacity)%nat) by (clear - SA; lia).
  assert (LBA : (length B <= length A)%nat) by (clear - LA LB CC; lia).
  pose proof (j_below A B ra rb n m j A5 B5 VA VB SL SA SB LBA EQ NE) as JB.
  pose proof (smaller_loop A B ra rb n m j A5 B5 VA VB SL SA SB LBA EQ NE (Z.to_nat capacity) 0%nat (Nat.le_0_l j)) as X.
  cbn zeta in X. change (map Some (repeat 0 0) ++ skipn 0 (map Some B ++ rb)) with (map Some B ++ rb) in X.
  change (Z.of_nat 0) with 0 in X. rewrite X. clear X.
  set (C := firstn (S j) B). assert (FC : Forall word C).
  { unfold C. rewrite <- (firstn_skipn (S j) B) in B5. apply Forall_app in B5. apply B5. }
  assert (VC : words_value C = m mod Wp (S j)) by (unfold C; rewrite firstn_value, VB by exact B5; reflexivity).
  assert (LCA : (length C <= length A)%nat) by (unfold C; rewrite firstn_length; clear - LBA; lia).
  destruct (difference_loop_ok A C ra rb n (m mod Wp (S j)) A5 FC VA VC LCA SL (Z.to_nat capacity) 0 [] (map Some B ++ rb) (Z.of_nat (length B)) 0 0)
    as (R & rest & c & k & L & E & LR & Lr & FR & Bk & BL & IL & CR & EV);
    [rewrite app_length, map_length; cbn [plus]; exact SB|clear; lia|clear - SL; lia|reflexivity|apply Forall_nil|clear; lia|clear; lia| | |unfold balance; rewrite Wp_0, !Z.mod_1_r; reflexivity|].
  { split; [intros _ q Hq; clear - Hq; lia|reflexivity]. }
  { exists [], 0%nat. split; [reflexivity|left; reflexivity]. }
  cbn [map app] in E. change (Z.of_nat 0) with 0 in E. rewrite E.
  assert (L0 : L = 0).
  { apply IL. intros q Hq HW. destruct (Nat.le_gt_cases q j) as [Y|Y].
    - assert (G : (m mod Wp (S j)) mod Wp q = m mod Wp q).
      { rewrite <- Znumtheory.Zmod_div_mod; [reflexivity|apply Wp_pos|apply Wp_pos|].
        exists (Wp (S j - q)). unfold Wp. rewrite <- Z.pow_add_r by (clear; lia). f_equal. clear - Y. lia. }
      rewrite G. assert (G2 : forall z, z mod Wp q = (z mod Wp j) mod Wp q).
      { intros z. rewrite <- Znumtheory.Zmod_div_mod; [reflexivity|apply Wp_pos|apply Wp_pos|].
        exists (Wp (j - q)). unfold Wp. rewrite <- Z.pow_add_r by (clear; lia). f_equal. clear - Y. lia. }
      rewrite (G2 n), (G2 m), EQ. apply Z.le_refl.
    - exfalso. unfold word_of in HW. rewrite Z.div_small in HW; [discriminate HW|].
      pose proof (Z.mod_pos_bound m (Wp (S j)) (Wp_pos _)) as Z1. pose proof (Wp_le (S j) q Y) as Z2. clear - Z1 Z2. lia. }
  subst L. pose proof (wv_bounds A A5) as BA. rewrite VA in BA.
  pose proof (wv_bounds C FC) as BC. rewrite VC in BC. pose proof (Wp_le _ _ LCA) as WL.
  unfold balance in EV. rewrite (Z.mod_small n), (Z.mod_small (m mod Wp (S j))) in EV by (clear - BA BC WL; lia).
  pose proof (wv_bounds R FR) as BR. rewrite LR in BR. pose proof (Wp_pos (length A)) as P. rewrite <- LA, <- Wp_pow.
  assert (VR : (n - m mod Wp (S j)) mod Wp (length A) = words_value R).
  { symmetry. apply (Z.mod_unique_pos _ _ (- k)); [exact BR|]. clear - EV. lia. }
  rewrite VR. assert (NZ : words_value R <> 0).
  { intros Z0. apply ND. rewrite Z0 in VR. apply Z.mod_divide in VR; [|clear - P; lia].
    replace (n - m) with (n - m mod Wp (S j) - Wp (S j) * (m / Wp (S j))) by (rewrite (Z.div_mod m (Wp (S j))) at 3 by (pose proof (Wp_pos (S j)); lia); ring).
    apply Z.divide_sub_r; [|apply Z.divide_factor_l]. apply Z.divide_trans with (2 := VR). exists (Wp (length A - S j)). unfold Wp.
    rewrite <- Z.pow_add_r by (clear; lia). f_equal. clear - JB. lia. }
  destruct (counts_value R c c FR (counted_counts R c CR NZ)) as (R1 & z & ER & V1 & [(Z0 & _)|(_ & N1 & EC & EW)]); [contradiction|].
  eexists. split; [reflexivity|]. apply thing_rep. exists R1. split; [|split; [rewrite <- EC; exact EW|exact V1]].
  exists (map Some (repeat 0 z) ++ rest). cbn [digits_ count_]. split; [rewrite ER, map_app, <- app_assoc; reflexivity|].
  split; [rewrite app_length, map_length; clear - Lr LR; destruct capacity_nat; lia|]. split; [exact EC|]. split; [exact N1|].
  rewrite ER in FR. apply Forall_app in FR. apply FR.
Qed.

(** The words are the same and the longer one has zeros above. *)
Section same.
Context (A B : list Z) (ra rb : words) (FA : Forall word A) (FB : Forall word B) (V : words_value A = words_value B) (LBA : (length B <= length A)%nat)
  (LR : (length A + length ra = length B + length rb)%nat).

Lemma same_words i : nth i A 0 = nth i B 0.
Proof. rewrite !nth_word_of by assumption. rewrite V. reflexivity. Qed.

Lemma same_larger fuel : forall i, (i <= length A)%nat -> (length A - i <= fuel)%nat ->
  let o := fun i => Big (map Some (repeat 0 i) ++ skipn i (map Some A ++ ra)) (Z.of_nat (length A)) in
  difference_loop fuel Larger (o i) (Big (map Some B ++ rb) (Z.of_nat (length B))) (o i) (Z.of_nat i) 0 = Ok (o (length A)).
Proof.
  induction fuel as [|fuel IH]; intros i Hi Hf o.
  { assert (i = length A) by lia. subst i. apply loop_end. apply Z.ltb_irrefl. }
  destruct (Nat.eq_dec i (length A)) as [->|NI]; [apply loop_end; apply Z.ltb_irrefl|].
  assert (LZ : length (map (@Some Z) (repeat 0 i)) = i) by (rewrite map_length, repeat_length; reflexivity).
  assert (LL : (i < length (map Some A ++ ra))%nat) by (rewrite app_length, map_length; lia).
  destruct (skip_cons _ i LL) as [x EX].
  assert (RA : word_read (digits_ (o i)) (Z.of_nat i) = Ok (nth i A 0)).
  { apply word_read_nth; [unfold o; cbn [digits_]; rewrite app_length, LZ, EX; cbn [length]; lia|].
    unfold o; cbn [digits_]. rewrite nth_after by exact LZ. apply nth_words. lia. }
  assert (RB : if Z.of_nat i <? Z.of_nat (length B) then word_read (map Some B ++ rb) (Z.of_nat i) = Ok (nth i B 0) else nth i B 0 = 0).
  { destruct (Z.ltb_spec (Z.of_nat i) (Z.of_nat (length B))); [|apply nth_overflow; lia].
    apply word_read_nth; [rewrite app_length, map_length; lia|apply nth_words; lia]. }
  assert (WR : forall d, word_write (digits_ (o i)) (Z.of_nat i) d = Ok (map Some (repeat 0 i) ++ Some d :: skipn (S i) (map Some A ++ ra))).
  { intros d. unfold o; cbn [digits_]. rewrite EX. pose proof (word_write_app (map Some (repeat 0 i)) x) as Q. rewrite LZ in Q. apply Q. }
  rewrite (step Larger fuel (o i) (Big (map Some B ++ rb) (Z.of_nat (length B))) (o i) (Z.of_nat i) (nth i A 0) (nth i B 0) _
             (nth_is_word A i FA) (nth_is_word B i FB) ltac:(unfold o; cbn [count_]; lia) RA RB (WR _)).
  cbn zeta. replace (Z.of_nat i + 1) with (Z.of_nat (S i)) by lia. rewrite (same_words i), Z.sub_diag, Zmod_0_l. cbn [Z.eqb].
  replace (nth i B 0 <? 0) with false by (pose proof (nth_is_word B i FB) as X; unfold word in X; symmetry; apply Z.ltb_ge; lia).
  replace (map Some (repeat 0 i) ++ Some 0 :: skipn (S i) (map Some A ++ ra)) with (map Some (repeat 0 (S i)) ++ skipn (S i) (map Some A ++ ra)).
  - apply IH; lia.
  - replace (S i) with (i + 1)%nat at 1 by lia. rewrite repeat_app, map_app, <- app_assoc. reflexivity.
Qed.

Lemma same_smaller fuel : forall i, (i <= length A)%nat -> (length A - i <= fuel)%nat ->
  let o := fun i => Big (map Some (repeat 0 i) ++ skipn i (map Some B ++ rb)) (Z.of_nat (length B)) in
  difference_loop fuel Smaller (Big (map Some A ++ ra) (Z.of_nat (length A))) (o i) (o i) (Z.of_nat i) 0 = Ok (o (length A)).
Proof.
  induction fuel as [|fuel IH]; intros i Hi Hf o.
  { assert (i = length A) by lia. subst i. apply loop_end. apply Z.ltb_irrefl. }
  destruct (Nat.eq_dec i (length A)) as [->|NI]; [apply loop_end; apply Z.ltb_irrefl|].
  assert (LZ : length (map (@Some Z) (repeat 0 i)) = i) by (rewrite map_length, repeat_length; reflexivity).
  assert (LL : (i < length (map Some B ++ rb))%nat) by (rewrite app_length, map_length; lia).
  destruct (skip_cons _ i LL) as [x EX].
  assert (RA : word_read (map Some A ++ ra) (Z.of_nat i) = Ok (nth i A 0)).
  { apply word_read_nth; [rewrite app_length, map_length; lia|apply nth_words; lia]. }
  assert (RB : if Z.of_nat i <? count_ (o i) then word_read (digits_ (o i)) (Z.of_nat i) = Ok (nth i B 0) else nth i B 0 = 0).
  { unfold o; cbn [count_ digits_]. destruct (Z.ltb_spec (Z.of_nat i) (Z.of_nat (length B))); [|apply nth_overflow; lia].
    apply word_read_nth; [rewrite app_length, LZ, EX; cbn [length]; lia|]. rewrite nth_after by exact LZ. apply nth_words. lia. }
  assert (WR : forall d, word_write (digits_ (o i)) (Z.of_nat i) d = Ok (map Some (repeat 0 i) ++ Some d :: skipn (S i) (map Some B ++ rb))).
  { intros d. unfold o; cbn [digits_]. rewrite EX. pose proof (word_write_app (map Some (repeat 0 i)) x) as Q. rewrite LZ in Q. apply Q. }
  rewrite (step Smaller fuel (Big (map Some A ++ ra) (Z.of_nat (length A))) (o i) (o i) (Z.of_nat i) (nth i A 0) (nth i B 0) _
             (nth_is_word A i FA) (nth_is_word B i FB) ltac:(cbn [count_]; lia) RA RB (WR _)).
  cbn zeta. replace (Z.of_nat i + 1) with (Z.of_nat (S i)) by lia. rewrite (same_words i), Z.sub_diag, Zmod_0_l. cbn [Z.eqb].
  replace (nth i B 0 <? 0) with false by (pose proof (nth_is_word B i FB) as X; unfold word in X; symmetry; apply Z.ltb_ge; lia).
  replace (map Some (repeat 0 i) ++ Some 0 :: skipn (S i) (map Some B ++ rb)) with (map Some (repeat 0 (S i)) ++ skipn (S i) (map Some B ++ rb)).
  - apply IH; lia.
  - replace (S i) with (i + 1)%nat at 1 by lia. rewrite repeat_app, map_app, <- app_assoc. reflexivity.
Qed.
End same.

(** [k] words are zero and the count is at most [k]. *)
Lemma zeros_thing k c r : 1 <= c <= Z.of_nat k -> (k + length r = Z.to_nat capacity)%nat -> is_thing (c, 0) (Big (map Some (repeat 0 k) ++ r) c).
Proof.
  intros C L. apply thing_rep. exists (repeat 0 (Z.to_nat c)). rewrite repeat_length, wv_zeros, Z2Nat.id by lia. split; [|auto].
  exists (map Some (repeat 0 (k - Z.to_nat c)) ++ r). cbn [digits_ count_]. rewrite repeat_length, Z2Nat.id by lia. split.
  - rewrite app_assoc, <- map_app, <- repeat_app. do 4 f_equal. lia.
  - split; [rewrite app_length, map_length, repeat_length; destruct capacity_nat; lia|]. split; [reflexivity|]. split.
    + destruct (Z.to_nat c) eqn:E; [lia|discriminate].
    + apply Forall_forall. intros w Hw. apply repeat_spec in Hw. subst w. split; [lia|reflexivity].
Qed.

Lemma same_any t ca cb n a b : is_thing (ca, n) a -> is_thing (cb, n) b -> cb <= ca -> t = Larger \/ t = Smaller ->
  exists r, difference_loop (Z.to_nat capacity) t a b (match t with Larger => a | _ => b end) 0 0 = Ok r /\ is_thing (match t with Larger => ca | _ => cb end, 0) r.
Proof.
  intros Ha Hb CC T. apply thing_rep in Ha. destruct Ha as (A & RA & LA & VA). apply thing_rep in Hb. destruct Hb as (B & RB & LB & VB).
  destruct RA as (ra & A1 & A2 & A3 & A4 & A5). destruct RB as (rb & B1 & B2 & B3 & B4 & B5).
  destruct a as [da ca0]; destruct b as [db cb0]; cbn [digits_ count_] in *. subst da ca0 db cb0. rewrite app_length, map_length in A2, B2.
  assert (SA : (length A + length ra = Z.to_nat capacity)%nat) by (clear - A2; lia).
  assert (SB : (length B + length rb = Z.to_nat capacity)%nat) by (clear - B2; lia).
  assert (LBA : (length B <= length A)%nat) by (clear - LA LB CC; lia).
  assert (LAB : (length A + length ra = length B + length rb)%nat) by (rewrite SA, SB; reflexivity).
  assert (VV : words_value A = words_value B) by (rewrite VA, VB; reflexivity).
  assert (PB : (1 <= length B)%nat) by (destruct B; [contradiction|cbn [length]; clear; lia]).
  assert (SL : (length A - 0 <= Z.to_nat capacity)%nat) by (clear - SA; lia).
  assert (LK : forall (X : list Z) rx, (length X + length rx = Z.to_nat capacity)%nat -> (length A + length (skipn (length A) (map Some X ++ rx)) = Z.to_nat capacity)%nat).
  { intros X rx E. rewrite skipn_length, app_length, map_length. clear - E SA. lia. }
  destruct T as [-> | ->].
  - pose proof (same_larger A B ra rb A5 B5 VV LBA LAB (Z.to_nat capacity) 0%nat (Nat.le_0_l _) SL) as X.
    cbn zeta beta in X. eexists. split; [exact X|]. rewrite <- LA. apply zeros_thing; [clear - PB LBA; lia|apply LK; exact SA].
  - pose proof (same_smaller A B ra rb A5 B5 VV LBA LAB (Z.to_nat capacity) 0%nat (Nat.le_0_l _) SL) as X.
    cbn zeta beta in X. eexists. split; [exact X|]. rewrite <- LB. apply zeros_thing; [clear - PB LBA; lia|apply LK; exact SB].
Qed.

(** All of them: the loop of the difference. *)
Definition loop_target (p : place) : target := match p with Elsewhere _ => Apart | IntoLarger => Larger | IntoSmaller => Smaller end.

Lemma less_any x y p r a b o : is_thing x a -> is_thing y b -> fst y <= fst x -> less x y p r ->
  (match p with Elsewhere z => is_thing z o | IntoLarger => o = a | IntoSmaller => o = b end) ->
  exists o', difference_loop (Z.to_nat capacity) (loop_target p) a b o 0 0 = Ok o' /\ is_thing r o'.
Proof.
  intros Ha Hb CC L Ho. destruct L as [ca n cb m z v -> NZ|ca n cb m cz p Z0|ca n cb m i I D ND|ca n cb m i v I D ND ->|ca cb n|ca cb n]; cbn [loop_target fst] in *.
  - destruct z as [cz p]. destruct (apart_any ca n cb m cz p a b o Ha Hb Ho CC) as (r & E & T & _). exists r. auto.
  - destruct (apart_any ca n cb m cz p a b o Ha Hb Ho CC) as (r & E & _ & T). exists r. auto.
  - subst o. exact (larger_any ca n cb m a b i Ha Hb CC I D ND).
  - subst o. exact (smaller_any ca n cb m a b i Ha Hb CC I D ND).
  - subst o. exact (same_any Larger ca cb n a b Ha Hb CC (or_introl eq_refl)).
  - subst o. exact (same_any Smaller ca cb n a b Ha Hb CC (or_intror eq_refl)).
Qed.

Lemma order_count x y : order_things x y = 1 -> fst y <= fst x.
Proof.
  unfold order_things, order. destruct (Z.eqb_spec (fst x) (fst y)) as [E|E]; [lia|]. destruct (Z.compare_spec (fst x) (fst y)); intros Q; try discriminate; lia.
Qed.
Lemma order_swap x y : order_things x y = -1 -> order_things y x = 1.
Proof.
  unfold order_things, order. rewrite (Z.eqb_sym (fst y)). destruct (fst x =? fst y).
  - rewrite (Z.compare_antisym (snd x)). destruct (snd x ?= snd y); intros H; try discriminate; reflexivity.
  - rewrite (Z.compare_antisym (fst x)). destruct (fst x ?= fst y); intros H; try discriminate; reflexivity.
Qed.

(** ** Programs *)

Lemma t_difference_any x y p r a b o (this : bool) : is_thing x a -> is_thing y b -> order_things x y = 1 -> less x y p r ->
  (match p with Elsewhere z => exists c, o = OutApart c /\ is_thing z c | IntoLarger => o = if this then OutThis else OutOther | IntoSmaller => o = if this then OutOther else OutThis end) ->
  exists r', t_difference (if this then a else b) (if this then b else a) o = Ok (r', inr (negb this)) /\ is_thing r r'.
Proof.
  intros Ha Hb OT L Ho. pose proof (order_count x y OT) as CC. unfold t_difference, difference. destruct this; cbn [negb].
  - rewrite (compare_any x y a b Ha Hb), OT. cbn [bind Z.eqb Z.ltb Z.compare]. destruct p as [z| |].
    + destruct Ho as (c & -> & Hz). destruct (less_any x y (Elsewhere z) r a b c Ha Hb CC L Hz) as (o' & E & T). cbn [loop_target] in E. rewrite E. cbn [bind]. eauto.
    + subst o. destruct (less_any x y IntoLarger r a b a Ha Hb CC L eq_refl) as (o' & E & T). cbn [loop_target] in E. rewrite E. cbn [bind]. eauto.
    + subst o. destruct (less_any x y IntoSmaller r a b b Ha Hb CC L eq_refl) as (o' & E & T). cbn [loop_target] in E. rewrite E. cbn [bind]. eauto.
  - assert (OS : order_things y x = -1).
    { clear - OT. unfold order_things, order in *. rewrite (Z.eqb_sym (fst y)). destruct (fst x =? fst y).
      - rewrite (Z.compare_antisym (snd x)). destruct (snd x ?= snd y); try discriminate; reflexivity.
      - rewrite (Z.compare_antisym (fst x)). destruct (fst x ?= fst y); try discriminate; reflexivity. }
    rewrite (compare_any y x b a Hb Ha), OS. cbn [bind Z.eqb Z.ltb Z.compare]. destruct p as [z| |].
    + destruct Ho as (c & -> & Hz). destruct (less_any x y (Elsewhere z) r a b c Ha Hb CC L Hz) as (o' & E & T). cbn [loop_target] in E. rewrite E. cbn [bind]. eauto.
    + subst o. destruct (less_any x y IntoLarger r a b a Ha Hb CC L eq_refl) as (o' & E & T). cbn [loop_target] in E. rewrite E. cbn [bind]. eauto.
    + subst o. destruct (less_any x y IntoSmaller r a b b Ha Hb CC L eq_refl) as (o' & E & T). cbn [loop_target] in E. rewrite E. cbn [bind]. eauto.
Qed.

Lemma does_step s st x a b v (f : BigInteger -> attempt) : Forall2 is_thing s st -> nth_error s x = Some a ->
  (forall o, is_thing a o -> does (f o) (b, v)) -> exists st', on_object st x f = Ok (st', v) /\ Forall2 is_thing (put x b s) st'.
Proof.
  intros F Nx D. destruct (Forall2_nth is_thing s st F x _ Nx) as (o & Eo & Ho). unfold on_object. rewrite (object_ok _ _ _ Eo). cbn [bind].
  destruct (D o Ho) as (o' & t & E & T & C). cbn [fst snd] in *. rewrite E. cbn [bind]. rewrite C. eexists. split; [reflexivity|]. apply Forall2_put; assumption.
Qed.

Lemma wstep_ok cc s o s' v st : wstep s o s' v -> Forall2 is_thing s st -> exists st', execute cc st o = Ok (st', v) /\ Forall2 is_thing s' st'.
Proof.
  intros ST F. destruct ST as [s d D|s y b Ny|s t v Lt Dt EV|s t Lt Dt|s x y a b Nx Ny|s x o a b v Nx K NS C|s x k a b v Nx K S|s x k a b v Nx K S
    |s x y z a b c Nx Ny Nz OT|s x y z a b c r Nx Ny Nz OT L|s x y z a b c r Nx Ny Nz OT L|s x y a b Nx Ny|s x y a b Nx Ny|s x d a Nx D|s x a Nx|s x i c n Nx I|s x i c n Nx I]; cbn [execute].
  - destruct (BigInteger_word_ok d D) as (b & E & H). rewrite E. cbn [bind]. eexists. split; [reflexivity|]. apply Forall2_app; [exact F|]. constructor; [|constructor].
    apply holds_normal in H. unfold normal_thing in H. destruct (Z.eqb_spec d 0) as [->|N]; [exact H|].
    rewrite (width_unique d 1) in H; [exact H|lia|lia|]. change (2 ^ (64 * (1 - 1))) with 1. change (64 * 1) with 64. lia.
  - destruct (Forall2_nth is_thing s st F y _ Ny) as (o & Eo & H). rewrite (object_ok _ _ _ Eo). cbn [bind].
    destruct (copy_any b o H) as (c & E & Hc). rewrite E. cbn [bind]. eexists. split; [reflexivity|]. apply Forall2_app; [exact F|]. constructor; [exact Hc|constructor].
  - destruct (proj1 (decimals_any cc t Lt) Dt) as (b & E & H). rewrite E. cbn [bind]. eexists. split; [reflexivity|]. apply Forall2_app; [exact F|]. constructor; [|constructor].
    rewrite EV. apply holds_normal. exact H.
  - destruct (proj2 (decimals_any cc t Lt) Dt) as (w & E). rewrite E. eexists. split; [reflexivity|exact F].
  - destruct (Forall2_nth is_thing s st F y _ Ny) as (ob & Eb & Hb). destruct (Forall2_nth is_thing s st F x _ Nx) as (oa & Ea & Ha).
    destruct (Nat.eqb_spec x y) as [->|NE].
    + rewrite (object_ok _ _ _ Ea). cbn [bind]. eexists. split; [reflexivity|]. rewrite (put_same s y b Ny). exact F.
    + rewrite (object_ok _ _ _ Eb). cbn [bind]. unfold on_object. rewrite (object_ok _ _ _ Ea). cbn [bind].
      destruct (assign_any b ob a oa Hb Ha) as (c & E & Hc). unfold returned. rewrite E. cbn [bind caught]. eexists. split; [reflexivity|].
      apply Forall2_put; [exact F|exact Hc].
  - apply (does_step s st x a b v _ F Nx). intros q Hq. rewrite <- C. apply change_any; assumption.
  - apply (does_step s st x a b v _ F Nx). intros q Hq. cbn [t_perform]. apply (shifts_any a); [exact Hq|apply K|exact S].
  - apply (does_step s st x a b v _ F Nx). intros q Hq. apply (shifts_any a); assumption.
  - destruct (Forall2_nth is_thing s st F x _ Nx) as (oa & Ea & Ha). destruct (Forall2_nth is_thing s st F y _ Ny) as (ob & Eb & Hb).
    destruct (Forall2_nth is_thing s st F z _ Nz) as (oc & Ec & Hc).
    rewrite (object_ok _ _ _ Ea), (object_ok _ _ _ Eb), (object_ok _ _ _ Ec). cbn [bind].
    unfold t_difference. rewrite (compare_any a b oa ob Ha Hb), OT. cbn [bind Z.eqb].
    assert (EP : put z (match (if (z =? x)%nat then OutThis else if (z =? y)%nat then OutOther else OutApart oc) with OutApart out => out | OutThis => oa | OutOther => ob end) st = st).
    { destruct (Nat.eqb_spec z x) as [->|_]; [exact (put_same _ _ _ Ea)|]. destruct (Nat.eqb_spec z y) as [->|_]; [exact (put_same _ _ _ Eb)|exact (put_same _ _ _ Ec)]. }
    rewrite EP. eexists. split; [reflexivity|exact F].
  - destruct (Forall2_nth is_thing s st F x _ Nx) as (oa & Ea & Ha). destruct (Forall2_nth is_thing s st F y _ Ny) as (ob & Eb & Hb).
    destruct (Forall2_nth is_thing s st F z _ Nz) as (oc & Ec & Hc).
    rewrite (object_ok _ _ _ Ea), (object_ok _ _ _ Eb), (object_ok _ _ _ Ec). cbn [bind].
    destruct (t_difference_any a b _ r oa ob (if (z =? x)%nat then OutThis else if (z =? y)%nat then OutOther else OutApart oc) true Ha Hb OT L) as (r' & E & T).
    { destruct (z =? x)%nat; [reflexivity|]. destruct (z =? y)%nat; [reflexivity|]. eauto. }
    rewrite E. cbn [bind negb flag]. eexists. split; [reflexivity|]. apply Forall2_put; [exact F|exact T].
  - destruct (Forall2_nth is_thing s st F x _ Nx) as (oa & Ea & Ha). destruct (Forall2_nth is_thing s st F y _ Ny) as (ob & Eb & Hb).
    destruct (Forall2_nth is_thing s st F z _ Nz) as (oc & Ec & Hc).
    rewrite (object_ok _ _ _ Ea), (object_ok _ _ _ Eb), (object_ok _ _ _ Ec). cbn [bind].
    destruct (t_difference_any b a _ r ob oa (if (z =? x)%nat then OutThis else if (z =? y)%nat then OutOther else OutApart oc) false Hb Ha (order_swap _ _ OT) L) as (r' & E & T).
    { destruct (z =? x)%nat; [reflexivity|]. destruct (z =? y)%nat; [reflexivity|]. eauto. }
    rewrite E. cbn [bind negb flag]. eexists. split; [reflexivity|]. apply Forall2_put; [exact F|exact T].
  - destruct (Forall2_nth is_thing s st F x _ Nx) as (oa & Ea & Ha). destruct (Forall2_nth is_thing s st F y _ Ny) as (ob & Eb & Hb).
    rewrite (object_ok _ _ _ Ea), (object_ok _ _ _ Eb). cbn [bind]. rewrite (compare_any a b oa ob Ha Hb). eexists. split; [reflexivity|exact F].
  - destruct (Forall2_nth is_thing s st F x _ Nx) as (oa & Ea & Ha). destruct (Forall2_nth is_thing s st F y _ Ny) as (ob & Eb & Hb).
    rewrite (object_ok _ _ _ Ea), (object_ok _ _ _ Eb). cbn [bind]. rewrite (equal_any a b oa ob Ha Hb). eexists. split; [reflexivity|exact F].
  - destruct (Forall2_nth is_thing s st F x _ Nx) as (oa & Ea & Ha). rewrite (object_ok _ _ _ Ea). cbn [bind]. destruct a as [c n].
    rewrite (equal_word_any c n oa d Ha). eexists. split; [reflexivity|exact F].
  - destruct (Forall2_nth is_thing s st F x _ Nx) as (oa & Ea & Ha). rewrite (object_ok _ _ _ Ea). cbn [bind]. destruct a as [c n].
    rewrite (is_zero_any c n oa Ha). eexists. split; [reflexivity|exact F].
  - destruct (Forall2_nth is_thing s st F x _ Nx) as (oa & Ea & Ha). rewrite (object_ok _ _ _ Ea). cbn [bind].
    rewrite (digit_any c n oa i Ha I). eexists. split; [reflexivity|exact F].
  - destruct (Forall2_nth is_thing s st F x _ Nx) as (oa & Ea & Ha). rewrite (object_ok _ _ _ Ea). cbn [bind].
    destruct (digit_beyond c n oa i Ha I) as (w & E). rewrite E. eexists. split; [reflexivity|exact F].
Qed.

Lemma wprograms_ok cc ops : forall s s' vs st, wruns s ops s' vs -> Forall2 is_thing s st -> exists st', execute_all cc st ops = Ok (st', vs) /\ Forall2 is_thing s' st'.
Proof.
  induction ops as [|o r IH]; intros s s' vs st R F.
  - inversion R; subst. exists st. split; [reflexivity|exact F].
  - inversion R as [|? ? ? s1 ? v vs1 ST R1]; subst. destruct (wstep_ok cc s o s1 v st ST F) as (st1 & E1 & F1).
    destruct (IH s1 s' vs1 st1 R1 F1) as (st2 & E2 & F2). exists st2. cbn [execute_all]. rewrite E1. cbn [bind]. rewrite E2. split; [reflexivity|exact F2].
Qed.

(** ** Every operation is covered *)

Lemma lowest_exists d : d <> 0 -> exists i, 0 <= i /\ (2 ^ (64 * i) | d) /\ ~ (2 ^ (64 * (i + 1)) | d).
Proof.
  intros N. assert (X : forall k : nat, (2 ^ (64 * Z.of_nat k) | d) \/ exists i, 0 <= i /\ (2 ^ (64 * i) | d) /\ ~ (2 ^ (64 * (i + 1)) | d)).
  { induction k as [|k [IH|IH]]; [left; apply Z.divide_1_l| |right; exact IH].
    destruct (Znumtheory.Zdivide_dec (2 ^ (64 * (Z.of_nat k + 1))) d) as [D|D].
    - left. replace (Z.of_nat (S k)) with (Z.of_nat k + 1) by lia. exact D.
    - right. exists (Z.of_nat k). split; [lia|]. split; assumption. }
  destruct (X (Z.to_nat (Z.abs d))) as [D|E]; [exfalso|exact E]. rewrite Z2Nat.id in D by lia.
  apply Z.divide_abs_r in D. apply Z.divide_pos_le in D; [|lia]. assert (Z.abs d < 2 ^ Z.abs d) by (apply Z.pow_gt_lin_r; lia).
  assert (2 ^ Z.abs d <= 2 ^ (64 * Z.abs d)) by (apply Z.pow_le_mono_r; lia). lia.
Qed.

Lemma less_exists x y p : exists r, less x y p r.
Proof.
  destruct x as [ca n], y as [cb m]. destruct p as [[cz q]| |].
  - destruct (Z.eq_dec (lossy_difference (Z.to_nat ca) n m 0) 0) as [E|N]; [eexists; apply LZero; exact E|eexists; apply LApart; [reflexivity|exact N]].
  - destruct (Z.eq_dec n m) as [->|N]; [eexists; apply LLargerSame|]. destruct (lowest_exists (n - m) ltac:(lia)) as (i & I & D & ND). eexists; apply (LLarger _ _ _ _ i); assumption.
  - destruct (Z.eq_dec n m) as [->|N]; [eexists; apply LSmallerSame|]. destruct (lowest_exists (n - m) ltac:(lia)) as (i & I & D & ND). eexists; eapply (LSmaller _ _ _ _ i); eauto.
Qed.

Lemma order_cases x y : order_things x y = 0 \/ order_things x y = 1 \/ order_things x y = -1.
Proof. unfold order_things, order. destruct (fst x =? fst y); [destruct (snd x ?= snd y)|destruct (fst x ?= fst y)]; auto. Qed.

Lemma shifts_exists c n k : 1 <= c <= 416 -> 0 <= k -> ~ shift_outside (c, n) k -> exists y v, shifts (c, n) k y v.
Proof.
  intros C K NO. destruct (Z.eq_dec k 0) as [->|K0]; [eexists _, _; apply ShNone; auto|].
  assert (P : 0 < k) by lia.
  assert (DC : (c, n) = (1, 0) \/ (c, n) <> (1, 0)).
  { destruct (Z.eq_dec c 1) as [->|]; [destruct (Z.eq_dec n 0) as [->|]; [auto|]|]; right; intros X; injection X; intros; lia. }
  destruct DC as [E|NZ]; [eexists _, _; apply ShNone; auto|].
  destruct (Z.lt_ge_cases 416 (c + k / 64)) as [F|F]; [eexists _, _; apply ShFar; assumption|].
  destruct (Z.eq_dec (k mod 64) 0) as [M|M].
  - destruct (Z.eq_dec c 1) as [->|C1]; [eexists _, _; apply ShOne; [exact P|exact M|intros ->; apply NZ; reflexivity|exact F]|].
    destruct (Z.eq_dec k 64) as [->|K64].
    + destruct (Z.le_gt_cases c 208) as [L|L]; [eexists _, _; apply ShWord; lia|]. exfalso. apply NO. unfold shift_outside. cbn [fst]. split; [exact P|]. split; [exact NZ|]. right. split; [exact M|]. lia.
    + exfalso. apply NO. unfold shift_outside. cbn [fst]. split; [exact P|]. split; [exact NZ|]. right. split; [exact M|]. lia.
  - destruct (Z.eq_dec (c + k / 64) 416) as [E|N]; [|eexists _, _; apply ShBits; try assumption; lia].
    exfalso. apply NO. unfold shift_outside. cbn [fst]. split; [exact P|]. split; [exact NZ|]. left. auto.
Qed.

Lemma digit_dec c : {is_digit c} + {~ is_digit c}.
Proof. unfold is_digit. destruct (Z_le_dec 48 (code c)); destruct (Z_le_dec (code c) 57); (left; lia) || (right; lia). Qed.

Lemma wstep_exists s st o : Forall2 is_thing s st -> typed (length s) o -> ~ outside s o -> exists s' v, wstep s o s' v.
Proof.
  intros F T NO. assert (G : forall x, (x < length s)%nat -> exists c n, nth_error s x = Some (c, n) /\ 1 <= c <= 416).
  { intros x L. destruct (Forall2_exists is_thing s st x F L) as ([c n] & b & E & _ & H). destruct (thing_bounds c n b H) as [C _]. eauto. }
  destruct o as [d|y|t|x y|x o|x k|x y z|x y|x y|x d|x|x i]; cbn [typed] in T.
  - eexists _, _. apply WNew. exact T.
  - destruct (G y T) as (c & n & E & _). eexists _, _. eapply WNewCopy. exact E.
  - destruct (Z.le_gt_cases (Z.of_nat (length t)) 7999) as [L|L].
    + destruct (Forall_dec is_digit digit_dec t) as [D|D]; [eexists _, _; eapply WNewText; eauto|eexists _, _; eapply WNewTextRefused; eauto].
    + exfalso. apply NO. exact L.
  - destruct T as [Tx Ty]. destruct (G x Tx) as (c & n & E & _). destruct (G y Ty) as (c' & n' & E' & _). eexists _, _. eapply WAssign; eassumption.
  - destruct T as [Tx K]. destruct (G x Tx) as (c & n & E & C).
    assert (DS : (exists k, o = OShift k) \/ forall k, o <> OShift k) by (destruct o; eauto; right; discriminate).
    destruct DS as [[k ->]|NS].
    + cbn [op_ok] in K. destruct (shifts_exists c n k C ltac:(lia)) as (y & v & S); [intros X; apply NO; cbn [outside]; rewrite E; exact X|]. eexists _, _. eapply WDoShift; eassumption.
    + destruct (change o (c, n)) as [b v] eqn:EC. eexists _, _. eapply WDo; eassumption.
  - destruct T as [Tx K]. destruct (G x Tx) as (c & n & E & C).
    destruct (shifts_exists c n k C K) as (y & v & S); [intros X; apply NO; cbn [outside]; rewrite E; exact X|]. eexists _, _. eapply WShift; eassumption.
  - destruct T as (Tx & Ty & Tz). destruct (G x Tx) as (c & n & E & _). destruct (G y Ty) as (c' & n' & E' & _). destruct (G z Tz) as (c'' & n'' & E'' & _).
    destruct (order_cases (c, n) (c', n')) as [O|[O|O]].
    + eexists _, _. eapply WDifferenceRefused; eassumption.
    + destruct (less_exists (c, n) (c', n') (if (z =? x)%nat then IntoLarger else if (z =? y)%nat then IntoSmaller else Elsewhere (c'', n''))) as (r & L).
      eexists _, _. eapply WDifference; eassumption.
    + destruct (less_exists (c', n') (c, n) (if (z =? x)%nat then IntoSmaller else if (z =? y)%nat then IntoLarger else Elsewhere (c'', n''))) as (r & L).
      eexists _, _. eapply WDifferenceLess; eassumption.
  - destruct T as [Tx Ty]. destruct (G x Tx) as (c & n & E & _). destruct (G y Ty) as (c' & n' & E' & _). eexists _, _. eapply WCompare; eassumption.
  - destruct T as [Tx Ty]. destruct (G x Tx) as (c & n & E & _). destruct (G y Ty) as (c' & n' & E' & _). eexists _, _. eapply WEqual; eassumption.
  - destruct T as [Tx D]. destruct (G x Tx) as (c & n & E & _). eexists _, _. eapply WEqualWord; eassumption.
  - destruct (G x T) as (c & n & E & _). eexists _, _. eapply WIsZero; eassumption.
  - destruct T as [Tx I]. destruct (G x Tx) as (c & n & E & _). destruct (Z.lt_ge_cases i c); eexists _, _; [eapply WDigit|eapply WDigitRefused]; try eassumption; lia.
Qed.

(** And an overrunning shift is undefined. *)
Lemma overrun_any cc s st o x k c n : Forall2 is_thing s st -> (o = Shift x k \/ o = Do x (OShift k)) -> nth_error s x = Some (c, n) -> 0 <= k -> (c, n) <> (1, 0) ->
  k mod 64 <> 0 -> c + k / 64 = 416 -> exists w, execute cc st o = UB w.
Proof.
  intros F O E K NZ M R. destruct (Forall2_nth is_thing s st F x _ E) as (b & Eb & Hb). destruct (shift_overrun_any c n b k Hb NZ K M R) as (w & U).
  destruct O as [-> | ->]; cbn [execute t_perform]; unfold on_object; rewrite (object_ok _ _ _ Eb); cbn [bind t_perform]; rewrite U; cbn [bind]; eauto.
Qed.

(** ** The statements *)

Lemma thing_unique x y b : is_thing x b -> is_thing y b -> x = y.
Proof.
  destruct x as [c n], y as [c' m]. intros Hx Hy. destruct (proj1 (thing_rep c n b) Hx) as (u & (r1 & A1 & B1 & C1 & D1 & E1) & L1 & V1).
  destruct (proj1 (thing_rep c' m b) Hy) as (v & (r2 & A2 & B2 & C2 & D2 & E2) & L2 & V2).
  assert (L : length u = length v) by lia. assert (M : map Some u = map Some v).
  { assert (X : firstn (length u) (digits_ b) = firstn (length v) (digits_ b)) by (rewrite L; reflexivity).
    rewrite A1 in X at 1. rewrite A2 in X. rewrite !firstn_words, !firstn_all in X by lia. exact X. }
  assert (u = v).
  { apply (f_equal (map (fun o => match o with Some w => w | None => 0 end))) in M. rewrite !map_map, !map_id in M. exact M. }
  subst v. congruence.
Qed.

Lemma things_unique s s' st : Forall2 is_thing s st -> Forall2 is_thing s' st -> s = s'.
Proof.
  intros F. revert s'. induction F as [|x b s st H F IH]; intros s' F'; inversion F' as [|x' b' r r' H' F'']; subst; [reflexivity|].
  f_equal; [exact (thing_unique _ _ _ H H')|exact (IH _ F'')].
Qed.

Lemma wstep_unique s st o s1 v1 s2 v2 : Forall2 is_thing s st -> wstep s o s1 v1 -> wstep s o s2 v2 -> s1 = s2 /\ v1 = v2.
Proof.
  intros F A B. destruct (wstep_ok Generic s o s1 v1 st A F) as (st1 & E1 & F1). destruct (wstep_ok Generic s o s2 v2 st B F) as (st2 & E2 & F2).
  rewrite E1 in E2. injection E2 as <- <-. split; [exact (things_unique _ _ _ F1 F2)|reflexivity].
Qed.

(** A difference of numbers, into any array. *)
Lemma apart_number a b n m o : holds a n -> holds b m -> m < n -> Z.of_nat (length (digits_ o)) = capacity ->
  lossy_difference (Z.to_nat (width n)) n m 0 <> 0 ->
  exists r, difference_loop (Z.to_nat capacity) Apart a b o 0 0 = Ok r /\ holds r (lossy_difference (Z.to_nat (width n)) n m 0).
Proof.
  intros Ha Hb Lt Lo NZ. pose proof (holds_bounds a n Ha) as NB. pose proof (holds_bounds b m Hb) as MB.
  assert (EW : width n = count_ a).
  { destruct (count_of a n Ha) as (C1 & U & _ & Lw). apply width_unique; [lia|lia|]. split; [apply Lw; lia|exact U]. }
  assert (CC : count_ b <= count_ a).
  { destruct (count_of a n Ha) as (C1 & U & _ & _). destruct (count_of b m Hb) as (C2 & _ & Z2 & Lw). destruct (Z.eq_dec m 0) as [M|M]; [rewrite (Z2 M); lia|].
    specialize (Lw M). destruct (Z.le_gt_cases (count_ b) (count_ a)) as [X|X]; [exact X|exfalso].
    assert (2 ^ (64 * count_ a) <= 2 ^ (64 * (count_ b - 1))) by (apply Z.pow_le_mono_r; lia). lia. }
  rewrite EW in *. clear EW. apply holds_rep in Ha. destruct Ha as (A & RA & NA & VA). apply holds_rep in Hb. destruct Hb as (B & RB & NB' & VB).
  destruct (rep_length _ _ RA) as [LA1 LA2]. destruct RA as (ra & A1 & A2 & A3 & A4 & A5). destruct RB as (rb & B1 & B2 & B3 & B4 & B5).
  destruct a as [da ca0]; destruct b as [db cb0]; destruct o as [dz cz]; cbn [digits_ count_] in *. subst da ca0 db cb0. rewrite Nat2Z.id in *.
  assert (LBA : (length B <= length A)%nat) by (clear - CC; lia). rewrite app_length, map_length in A2.
  assert (SL : (length A <= Z.to_nat capacity)%nat) by (clear - A2; lia).
  destruct (lossy_loop (Z.to_nat capacity) A B ra rb n m A5 B5 VA VB LBA SL (Z.to_nat capacity) 0 [] dz cz cz 0)
    as (R & c & E & LR & FR & CR & VR); [clear - Lo; lia|clear; lia|clear - SL; lia|reflexivity|apply Forall_nil|auto|exists [], 0%nat; split; [reflexivity|left; auto]|].
  rewrite Nat.sub_0_r in *. rewrite Wp_0, !Z.div_1_r, Z.mul_1_l in VR. cbn [words_value map app] in *. rewrite Z.add_0_l in VR. change (Z.of_nat 0) with 0 in E.
  eexists. split; [exact E|]. rewrite <- VR in *.
  destruct CR as (R1 & k & ER & [[-> _]|[NL EC]]); [exfalso; apply NZ; rewrite ER; cbn [app]; apply wv_zeros|].
  apply holds_rep. exists R1. split; [|split; [intros X; contradiction|rewrite ER, wv_app, wv_zeros; lia]].
  exists (map Some (repeat 0 k) ++ skipn (length A) dz). cbn [digits_ count_]. split; [rewrite ER, map_app, <- app_assoc; reflexivity|].
  split; [rewrite app_length, map_length, skipn_length, LR; clear - SL Lo; destruct capacity_nat; lia|]. split; [exact EC|]. split; [intros ->; apply NL; reflexivity|].
  rewrite ER in FR. apply Forall_app in FR. apply FR.
Qed.

Lemma lossy_bound k : forall n m borrow, 0 <= borrow <= 1 -> n mod Wp k - m mod Wp k - borrow <= lossy_difference k n m borrow.
Proof.
  induction k as [|k IH]; intros n m borrow Hb; [rewrite Wp_0, !Z.mod_1_r; cbn [lossy_difference]; lia|].
  rewrite lossy_step. cbn zeta. pose proof (Wp_pos k) as P. rewrite Wp_S, !Z.rem_mul_r by (try discriminate; exact P).
  pose proof (Z.mod_pos_bound n W W_pos) as NB. pose proof (Z.mod_pos_bound m W W_pos) as MB. set (a := n mod W) in *. set (b := m mod W) in *.
  pose proof W_pos as PW.
  destruct ((borrow =? 1) && (b =? W - 1)) eqn:E.
  - specialize (IH (n / W) (m / W) 0 ltac:(lia)). apply Z.mul_le_mono_nonneg_l with (p := W) in IH; [|lia]. nia.
  - destruct (Z.ltb_spec a (b + borrow)) as [L|L].
    + specialize (IH (n / W) (m / W) 1 ltac:(lia)). apply Z.mul_le_mono_nonneg_l with (p := W) in IH; [|lia].
      replace (a - b - borrow) with ((a - b - borrow + W) + (-1) * W) by ring. rewrite Z_mod_plus_full.
      assert (0 <= a - b - borrow + W < W) by (destruct (Z.eqb_spec borrow 1); destruct (Z.eqb_spec b (W - 1)); cbn [andb] in E; try discriminate; lia).
      rewrite (Z.mod_small (a - b - borrow + W)) by assumption. lia.
    + specialize (IH (n / W) (m / W) 0 ltac:(lia)). apply Z.mul_le_mono_nonneg_l with (p := W) in IH; [|lia]. rewrite (Z.mod_small (a - b - borrow)) by lia. lia.
Qed.

Lemma difference_number x y out n m : holds_number (digits_ x) (count_ x) n -> holds_number (digits_ y) (count_ y) m -> Z.of_nat (length (digits_ out)) = 416 -> n <> m ->
  exists o, difference x y (OutApart out) = Ok (o, n <? m) /\
    holds_number (digits_ o) (count_ o) (lossy_difference (Z.to_nat (width (Z.max n m))) (Z.max n m) (Z.min n m) 0).
Proof.
  intros Hx Hy Lo N. assert (NZ : forall p q, 0 <= q < p -> lossy_difference (Z.to_nat (width p)) p q 0 <> 0).
  { intros p q B. pose proof (lossy_bound (Z.to_nat (width p)) p q 0 ltac:(lia)) as X. destruct (width_bounds p ltac:(lia)) as [U V].
    rewrite !Wp_pow, Z2Nat.id in X by lia. rewrite !Z.mod_small in X by lia. lia. }
  pose proof (holds_bounds x n Hx) as NB. pose proof (holds_bounds y m Hy) as MB.
  unfold difference. rewrite (compare_ok x y n m Hx Hy). cbn [bind].
  destruct (Z.compare_spec n m) as [E|L|L]; [contradiction| |]; cbn [sign_of Z.eqb Z.ltb Z.compare].
  - rewrite (proj2 (Z.ltb_lt n m) L). rewrite Z.max_r, Z.min_l by lia.
    destruct (apart_number y x m n out Hy Hx L Lo ltac:(apply NZ; lia)) as (r & E & H). rewrite E. cbn [bind]. eauto.
  - rewrite (proj2 (Z.ltb_ge n m)) by lia. rewrite Z.max_l, Z.min_r by lia.
    destruct (apart_number x y n m out Hx Hy L Lo ltac:(apply NZ; lia)) as (r & E & H). rewrite E. cbn [bind]. eauto.
Qed.

Lemma words_programs cc ops s vs : wruns [] ops s vs ->
  exists st, execute_all cc [] ops = Ok (st, vs) /\ Forall2 (fun x b => count_ b = fst x /\ holds_words (digits_ b) (count_ b) (snd x)) s st.
Proof. intros R. exact (wprograms_ok cc ops [] s vs [] R (Forall2_nil _)). Qed.

(** ** An example: an object that an exception left *)

Definition damaged_program : list store_op :=
  [New 1; Shift 0 26560; Do 0 (OMul (2 ^ 63)); Do 0 (OMul 2); IsZero 0; EqualWord 0 0; New 5; Compare 0 1; NewCopy 0; Equal 0 2;
   Do 0 (OAdd 7); Difference 0 1 2; Digit 2 0; EqualWord 2 2; Difference 0 1 0; EqualWord 0 2; Digit 0 1; Difference 0 1 1; Digit 1 0].

Lemma WCons_as s o r s1 s' s'' v u vs : wstep s o s1 v -> v = u -> s1 = s' -> wruns s' r s'' vs -> wruns s (o :: r) s'' (u :: vs).
Proof. intros S <- <- R. econstructor; eassumption. Qed.

Lemma damaged_runs : wruns [] damaged_program [(1, 2); (1, 3); (1, 2)]
  [Nothing; Nothing; Nothing; Refused; Number 0; Number 0; Nothing; Number 1; Nothing; Number 1;
   Nothing; Number 0; Number 2; Number 1; Number 0; Number 1; Refused; Number 1; Number 3].
Proof.
  unfold damaged_program.
  eapply WCons_as; [apply WNew; (clear; lia)|reflexivity|reflexivity|]. cbn [app].
  eapply WCons_as with (s' := [(416, 2 ^ 26560)]); [eapply WShift; [reflexivity|(clear; lia)|apply ShOne; [(clear; lia)|reflexivity|discriminate|vm_compute; discriminate]]|reflexivity| |].
  { cbn [put]. rewrite Z.mul_1_l. reflexivity. }
  assert (E1 : times (416, 2 ^ 26560) (2 ^ 63) = ((416, 2 ^ 26623), Nothing)).
  { unfold times. cbn [fst snd]. rewrite <- Z.pow_add_r by (clear; lia). change (26560 + 63) with 26623. rewrite (proj2 (Z.eqb_neq (2 ^ 63) 0)) by (clear; lia).
    apply settle_below. apply Z.pow_lt_mono_r; (clear; lia). }
  eapply WCons_as with (s' := [(416, 2 ^ 26623)]); [eapply WDo; [reflexivity|cbn [op_ok]; (clear; lia)|discriminate|exact E1]|reflexivity|reflexivity|].
  assert (EL : LIMIT = 2 ^ (64 * 416)) by (rewrite LIMIT_Wp, Wp_pow; f_equal).
  assert (E2 : times (416, 2 ^ 26623) 2 = ((416, 0), Refused)).
  { assert (ED : 2 ^ 26623 * 2 = 2 ^ (64 * 416)).
    { change (64 * 416) with (Z.succ 26623). rewrite Z.pow_succ_r by (clear; lia). apply Z.mul_comm. }
    unfold times. cbn [fst snd]. rewrite ED. unfold settle. rewrite Z.ltb_irrefl, EL, Z_mod_same_full. reflexivity. }
  eapply WCons_as with (s' := [(416, 0)]); [eapply WDo; [reflexivity|cbn [op_ok]; (clear; lia)|discriminate|exact E2]|reflexivity|reflexivity|].
  eapply WCons_as; [eapply WIsZero; reflexivity|reflexivity|reflexivity|].
  eapply WCons_as; [eapply WEqualWord; [reflexivity|(clear; lia)]|reflexivity|reflexivity|].
  eapply WCons_as; [apply WNew; (clear; lia)|reflexivity|reflexivity|]. cbn [app].
  eapply WCons_as; [eapply WCompare; reflexivity|reflexivity|reflexivity|].
  eapply WCons_as; [eapply WNewCopy; reflexivity|reflexivity|reflexivity|]. cbn [app].
  eapply WCons_as; [eapply WEqual; reflexivity|reflexivity|reflexivity|].
  assert (B7 : 7 < 2 ^ (64 * 416)) by (apply Z.lt_le_trans with (2 ^ 3); [reflexivity|apply Z.pow_le_mono_r; (clear; lia)]).
  eapply WCons_as with (s' := [(416, 7); (1, 5); (416, 0)]); [eapply WDo; [reflexivity|cbn [op_ok]; (clear; lia)|discriminate|]|reflexivity|reflexivity|].
  { cbn [change fst snd Z.add]. apply settle_below. exact B7. }
  eapply WCons_as with (s' := [(416, 7); (1, 5); (1, 2)]); [eapply WDifference; [reflexivity|reflexivity|reflexivity|reflexivity|]|reflexivity| |].
  { cbn [Nat.eqb]. apply LApart; [reflexivity|vm_compute; discriminate]. }
  { cbn [put]. do 3 f_equal. }
  eapply WCons_as; [eapply (WDigit _ _ _ 1 2); [reflexivity|(clear; lia)]|reflexivity|reflexivity|].
  eapply WCons_as; [eapply WEqualWord; [reflexivity|(clear; lia)]|reflexivity|reflexivity|].
  eapply WCons_as with (s' := [(1, 2); (1, 5); (1, 2)]); [eapply WDifference; [reflexivity|reflexivity|reflexivity|reflexivity|]|reflexivity| |].
  { cbn [Nat.eqb]. apply (LLarger 416 7 1 5 0); [(clear; lia)|exists 2; reflexivity|]. intros X. apply Z.divide_pos_le in X; [vm_compute in X; apply X; reflexivity|reflexivity]. }
  { reflexivity. }
  eapply WCons_as; [eapply WEqualWord; [reflexivity|(clear; lia)]|reflexivity|reflexivity|].
  eapply WCons_as; [eapply (WDigitRefused _ _ _ 1 2); [reflexivity|(clear; lia)]|reflexivity|reflexivity|].
  eapply WCons_as with (s' := [(1, 2); (1, 3); (1, 2)]); [eapply WDifferenceLess; [reflexivity|reflexivity|reflexivity|reflexivity|]|reflexivity| |].
  { cbn [Nat.eqb]. apply (LLarger 1 5 1 2 0); [(clear; lia)|exists 3; reflexivity|]. intros X. apply Z.divide_pos_le in X; [vm_compute in X; apply X; reflexivity|reflexivity]. }
  { reflexivity. }
  eapply WCons_as; [eapply (WDigit _ _ _ 1 3); [reflexivity|(clear; lia)]|reflexivity|reflexivity|].
  apply WNil.
Qed.

Lemma numbers_words b n : holds_number (digits_ b) (count_ b) n <->
  holds_words (digits_ b) (count_ b) n /\ (count_ b = 1 \/ 2 ^ (64 * (count_ b - 1)) <= n).
Proof.
  split; intros H.
  - destruct (proj1 (holds_thing b n) H) as [[_ A] B]. auto.
  - destruct H as [A B]. apply holds_thing. split; [split; [reflexivity|exact A]|exact B].
Qed.
