(** Programs of BigInteger operations; shifts by whole words. *)
From Coq Require Import Lia.
From Verif Require Import Machine LibMachine SpecDecimal SpecBig SpecBigProgram ModelDiyfp ModelBigint ProofBig ProofBig2 ProofBig3 ProofBig4.
Open Scope Z_scope.
Ltac Zify.zify_post_hook ::= idtac.

Lemma shift_room b n s : holds b n -> n < Wp 415 -> 0 <= s < 64 ->
  exists b', shift_left b s = Ok b' /\ holds b' (n * 2 ^ s).
Proof.
  intros H G S. destruct (count_bounds b n H) as (m & C & Lm & U & NZ & P).
  apply (proj1 (shift_split b n s H (proj1 S)
      ltac:(intros X; right; rewrite Z.mod_small in X by exact S; exact X)
      ltac:(intros _; destruct (Z.eq_dec n 0) as [N0|N0]; [left; exact N0|right];
            rewrite Z.div_small, Z.add_0_r, C by exact S; intros X;
            assert (X' : m = 415%nat) by lia; subst m; specialize (NZ N0); clear - NZ G; lia))).
  rewrite LIMIT_415. apply Z.le_lt_trans with (n * 2 ^ 63).
  - apply Z.mul_le_mono_nonneg_l; [exact P|]. apply Z.pow_le_mono_r; lia.
  - assert (Q : 0 < 2 ^ 63) by reflexivity. assert (E : W = 2 * 2 ^ 63) by reflexivity. rewrite E. clear - G P Q. nia.
Qed.

Lemma perform_ok cc o b n : op_ok o -> holds b n -> n < Wp 415 -> op_value o n < LIMIT ->
  exists b', perform cc o b = Ok b' /\ holds b' (op_value o n).
Proof.
  intros K H G L. destruct o as [d|d|d|e|s|d]; cbn [perform op_value op_ok] in *.
  - exact (proj1 (add_word_split b n d H K) L).
  - exact (proj1 (mul_word_split cc b n d H K) L).
  - exact (proj1 (mul_word32_split b n d H K) L).
  - exact (proj1 (mulPow5_split cc b n e H (proj1 K)) L).
  - exact (shift_room b n s H G K).
  - exact (proj2 (word_starts d K) b n H).
Qed.

Lemma perform_refused cc o b n : op_ok o -> holds b n -> n < Wp 415 -> LIMIT <= op_value o n ->
  exists w, perform cc o b = Throw w.
Proof.
  intros K H G L. destruct o as [d|d|d|e|s|d]; cbn [perform op_value op_ok] in *.
  - exact (proj2 (add_word_split b n d H K) L).
  - exact (proj2 (mul_word_split cc b n d H K) L).
  - exact (proj2 (mul_word32_split b n d H K) L).
  - exact (proj2 (mulPow5_split cc b n e H (proj1 K)) L).
  - exfalso. destruct (shift_room b n s H G K) as (b' & _ & H'). destruct (count_bounds b' _ H') as (m & _ & Lm & U & _ & _).
    pose proof (Wp_le (S m) (Z.to_nat capacity) Lm) as X. rewrite <- LIMIT_Wp in X. clear - X U L. lia.
  - exfalso. rewrite LIMIT_415 in L. pose proof (Wp_pos 415) as P. change (2 ^ 64) with W in K. clear - K L P. nia.
Qed.

Lemma Wp_415_limit : Wp 415 <= LIMIT.
Proof. rewrite LIMIT_Wp. apply Wp_le. destruct capacity_nat. lia. Qed.

Lemma programs cc ops b n m : Forall op_ok ops -> holds b n -> n < Wp 415 -> computes (Wp 415) ops n m ->
  exists b', perform_all cc ops b = Ok b' /\ holds b' m.
Proof.
  revert b n. induction ops as [|o r IH]; intros b n K H G C; cbn [computes perform_all] in *.
  - subst m. exists b. split; [reflexivity|exact H].
  - destruct C as [C1 C2]. inversion K; subst.
    destruct (perform_ok cc o b n) as (b1 & E & H1); [assumption|assumption|assumption|exact (Z.lt_le_trans _ _ _ C1 Wp_415_limit)|].
    rewrite E. cbn [bind]. exact (IH b1 (op_value o n) ltac:(assumption) H1 C1 C2).
Qed.

Lemma computes_bound lim ops n m : n < lim -> computes lim ops n m -> m < lim.
Proof. revert n. induction ops as [|o r IH]; intros n L C; cbn [computes] in C; [subst; exact L|]. destruct C as [C1 C2]. exact (IH _ C1 C2). Qed.

Lemma perform_app cc ops o b : perform_all cc (ops ++ [o]) b = let* b := perform_all cc ops b in perform cc o b.
Proof.
  revert b. induction ops as [|x r IH]; intros b; cbn [app perform_all bind].
  - destruct (perform cc o b); reflexivity.
  - destruct (perform cc x b); cbn [bind]; [apply IH|reflexivity..].
Qed.

Lemma programs_exact cc ops n m : Forall op_ok ops -> 0 <= n < 2 ^ 64 -> computes (2 ^ (64 * 415)) ops n m ->
  exists b b', BigInteger_word n = Ok b /\ perform_all cc ops b = Ok b' /\ holds_number (digits_ b') (count_ b') m.
Proof.
  intros K N C. replace (64 * 415) with (64 * Z.of_nat 415) in C by reflexivity. rewrite <- Wp_pow in C.
  destruct (proj1 (word_starts n N)) as (b & E & H).
  assert (G : n < Wp 415). { pose proof (Wp_le 1 415 ltac:(lia)) as X. rewrite (Wp_pow 1) in X. change (64 * Z.of_nat 1) with 64 in X. clear - X N. lia. }
  destruct (programs cc ops b n m K H G C) as (b' & E' & H'). exists b, b'. auto.
Qed.

Lemma programs_refused cc ops o n m : Forall op_ok ops -> op_ok o -> 0 <= n < 2 ^ 64 -> computes (2 ^ (64 * 415)) ops n m ->
  LIMIT <= op_value o m -> exists b w, BigInteger_word n = Ok b /\ perform_all cc (ops ++ [o]) b = Throw w.
Proof.
  intros K Ko N C L. replace (64 * 415) with (64 * Z.of_nat 415) in C by reflexivity. rewrite <- Wp_pow in C.
  destruct (proj1 (word_starts n N)) as (b & E & H).
  assert (G : n < Wp 415). { pose proof (Wp_le 1 415 ltac:(lia)) as X. rewrite (Wp_pow 1) in X. change (64 * Z.of_nat 1) with 64 in X. clear - X N. lia. }
  destruct (programs cc ops b n m K H G C) as (b' & E' & H').
  destruct (perform_refused cc o b' m Ko H' (computes_bound _ _ _ _ G C) L) as (w & X).
  exists b, w. split; [exact E|]. rewrite perform_app, E'. exact X.
Qed.

(** ** Shifts by whole words *)

Lemma nth_firstn_lt {A} (l : list A) n i d : (i < n)%nat -> nth i (firstn n l) d = nth i l d.
Proof. revert n i. induction l as [|x l IH]; intros n i H; destruct n, i; cbn; try reflexivity; try lia. apply IH. lia. Qed.

Lemma nth_skipn_at {A} (l : list A) n i d : nth i (skipn n l) d = nth (n + i) l d.
Proof. revert n. induction l as [|x l IH]; intros n; destruct n; cbn; try reflexivity; [destruct i; reflexivity|apply IH]. Qed.

Lemma whole_words b n k : holds_number (digits_ b) (count_ b) n -> 2 ^ 64 <= n -> 1 <= k ->
  let c := count_ b in
  (416 < c + k -> exists w, shift_left b (64 * k) = Throw w) /\
  (c + k <= 416 < 2 * c - 1 + k -> exists w, shift_left b (64 * k) = UB w) /\
  (2 * c - 1 + k <= 416 -> exists b', shift_left b (64 * k) = Ok b' /\ count_ b' = c + k /\
     forall j, 0 <= j < c + k -> nth (Z.to_nat j) (digits_ b') None =
       (if j <? k then Some 0 else if j <? c - 1 + k then nth (Z.to_nat j) (digits_ b) None
        else nth (Z.to_nat (c - 1)) (digits_ b) None)).
Proof.
  intros H N K c. destruct (queries b n H) as (Q0 & _ & _ & _ & Q1 & Q2 & _). change (count b) with c in *.
  assert (C2 : 2 <= c). { destruct (Z.eq_dec c 1) as [E|]; [|lia]. rewrite E in Q2. change (64 * 1) with 64 in Q2. lia. }
  assert (LEN : Z.of_nat (length (digits_ b)) = 416) by (destruct H as (ws & rest & _ & L & _); exact L).
  unfold shift_left. rewrite Q0. cbn [bind]. rewrite (proj2 (Z.eqb_neq n 0)) by lia. rewrite (proj2 (Z.eqb_neq (64 * k) 0)) by lia. cbn [orb].
  change INT64_BYTE with 64. replace (64 * k / 64) with k by (rewrite Z.mul_comm, Z.div_mul; lia).
  replace (64 * k mod 64) with 0 by (rewrite Z.mul_comm, Z.mod_mul; lia). cbn [Z.eqb].
  change capacity with 416. change (count_ b) with c. split; [|split].
  - intros X. rewrite (proj2 (Z.leb_gt (c + k) 416)) by lia. eexists. reflexivity.
  - intros X. rewrite (proj2 (Z.leb_le (c + k) 416)) by lia. unfold words_memmove. rewrite LEN.
    rewrite (proj2 (Z.leb_gt (c - 1 + k + c) 416)) by lia. rewrite Bool.andb_false_r. cbn [andb bind]. eexists. reflexivity.
  - intros X. rewrite (proj2 (Z.leb_le (c + k) 416)) by lia. unfold words_memmove. rewrite LEN.
    rewrite (proj2 (Z.leb_le 0 c)), (proj2 (Z.leb_le 0 (c - 1 + k))), (proj2 (Z.leb_le (c - 1 + k + c) 416)), (proj2 (Z.leb_le 0 (c - 1))),
      (proj2 (Z.leb_le (c - 1 + c) 416)) by lia. cbn [andb bind digits_ count_].
    set (d := firstn _ _ ++ _). assert (LD : length d = length (digits_ b)).
    { unfold d. rewrite !app_length, !firstn_length, !skipn_length. lia. }
    unfold words_clear. rewrite LD, LEN. rewrite (proj2 (Z.leb_le 0 k)), (proj2 (Z.leb_le k 416)) by lia. cbn [andb bind].
    eexists. split; [reflexivity|]. cbn [count_ digits_]. split; [reflexivity|]. intros j J.
    destruct (Z.ltb_spec j k) as [L|L].
    + rewrite app_nth1 by (rewrite repeat_length; lia). apply nth_error_nth.
      rewrite (nth_error_repeat (Some 0)) by lia. reflexivity.
    + rewrite app_nth2 by (rewrite repeat_length; lia). rewrite repeat_length, nth_skipn_at.
      replace (Z.to_nat k + (Z.to_nat j - Z.to_nat k))%nat with (Z.to_nat j) by lia. unfold d.
      destruct (Z.ltb_spec j (c - 1 + k)) as [L2|L2].
      * rewrite app_nth1 by (rewrite firstn_length; lia). apply nth_firstn_lt. lia.
      * rewrite app_nth2 by (rewrite firstn_length; lia). rewrite firstn_length.
        replace (Z.to_nat j - Nat.min (Z.to_nat (c - 1 + k)) (length (digits_ b)))%nat with 0%nat by lia.
        rewrite app_nth1 by (rewrite firstn_length, skipn_length; lia). rewrite nth_firstn_lt by lia. rewrite nth_skipn_at, Nat.add_0_r. reflexivity.
Qed.
