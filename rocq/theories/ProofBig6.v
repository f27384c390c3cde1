(** [difference] into one of its operands: what it computes. *)
From Coq Require Import Lia.
From Verif Require Import Machine LibMachine SpecDecimal SpecBig ModelDiyfp ModelBigint ProofBig ProofBig2 ProofBig3 ProofBig4.
Open Scope Z_scope.
Ltac Zify.zify_post_hook ::= idtac.

Lemma nth_skip {A} (l : list A) : forall i k x, nth k (skipn i l) x = nth (i + k) l x.
Proof.
  induction l as [|a l IH]; intros [|i] k x; cbn [skipn plus]; try reflexivity.
  - destruct k; reflexivity.
  - cbn [nth]. apply IH.
Qed.

Lemma nth_after {A} (p l : list A) i x : length p = i -> nth i (p ++ skipn i l) x = nth i l x.
Proof. intros E. rewrite app_nth2 by lia. rewrite E, Nat.sub_diag, nth_skip. f_equal. lia. Qed.

Lemma skip_cons {A} (l : list A) i : (i < length l)%nat -> exists x, skipn i l = x :: skipn (S i) l.
Proof.
  revert i. induction l as [|a l IH]; intros [|i] H; cbn [length] in H; try lia.
  - exists a. reflexivity.
  - destruct (IH i ltac:(lia)) as [x E]. exists x. exact E.
Qed.

(** One turn of the loop without a borrow. *)
Lemma step t fuel a b out i w v ds : word w -> word v -> i <? count_ a = true -> word_read (digits_ a) i = Ok w ->
  (if i <? count_ b then word_read (digits_ b) i = Ok v else v = 0) ->
  let d := (w - v) mod W in word_write (digits_ out) i d = Ok ds ->
  let out' := Big ds (if d =? 0 then count_ out else i + 1) in
  difference_loop (S fuel) t a b out i 0 =
  difference_loop fuel t (match t with Larger => out' | _ => a end) (match t with Smaller => out' | _ => b end) out' (i + 1)
    (if w <? d then 1 else 0).
Proof.
  intros Hw Hv HA RA RB d WR out'. cbn [difference_loop]. rewrite HA, RA. cbn [bind]. rewrite Z.sub_0_r.
  assert (Ew : u64 w = w) by (rewrite u64_W; apply Z.mod_small; exact Hw).
  assert (E : (if i <? count_ b then let* bi := word_read (digits_ b) i in Ok (u64 (u64 w - bi)) else Ok (u64 w)) = Ok d).
  { rewrite !Ew. destruct (i <? count_ b).
    - rewrite RB. cbn [bind]. rewrite u64_W. reflexivity.
    - unfold d. rewrite RB, Z.sub_0_r. rewrite Z.mod_small by exact Hw. reflexivity. }
  rewrite E. cbn [bind]. rewrite WR. cbn [bind]. reflexivity.
Qed.

Lemma loop_end fuel t a b out i k : i <? count_ a = false -> difference_loop fuel t a b out i k = Ok out.
Proof. intros H. destruct fuel; cbn [difference_loop]; rewrite H; reflexivity. Qed.

(** Once the words of the smaller number are passed, its overwriting does not matter. *)
Lemma passed fuel : forall a b b' out i k, count_ b <= i -> count_ b' <= i -> b = out ->
  difference_loop fuel Smaller a b out i k = difference_loop fuel Apart a b' out i k.
Proof.
  induction fuel as [|fuel IH]; intros a b b' out i k Hb Hb' E; cbn [difference_loop]; [reflexivity|].
  rewrite (proj2 (Z.ltb_ge i (count_ b)) Hb), (proj2 (Z.ltb_ge i (count_ b')) Hb').
  destruct (i <? count_ a); [|reflexivity]. destruct (word_read (digits_ a) i) as [ai| | |]; cbn [bind]; try reflexivity.
  destruct (word_write (digits_ out) i (u64 (ai - k))) as [ds| | |]; cbn [bind]; try reflexivity.
  apply IH; [|lia|reflexivity]. cbn [count_]. subst b. destruct (u64 (ai - k) =? 0); lia.
Qed.

Section lowest.
Context (A B : list Z) (ra rb : words) (n m : Z) (j : nat).
Context (FA : Forall word A) (FB : Forall word B) (VA : words_value A = n) (VB : words_value B = m).
Context (LA : (length A <= Z.to_nat capacity)%nat) (LRA : (length A + length ra = Z.to_nat capacity)%nat)
  (LRB : (length B + length rb = Z.to_nat capacity)%nat).
Context (LBA : (length B <= length A)%nat) (EQ : n mod Wp j = m mod Wp j) (NE : word_of n j <> word_of m j).

Lemma low_eq i : (i < j)%nat -> word_of n i = word_of m i.
Proof.
  intros H. unfold word_of. pose proof (Wp_pos i) as P. pose proof W_pos as PW.
  assert (D : forall x, (x / Wp i) mod W = ((x mod Wp j) / Wp i) mod W).
  { intros x. assert (EJ : Wp j = Wp i * W * Wp (j - i - 1)).
    { unfold Wp. rewrite <- Z.mul_assoc, <- Z.pow_succ_r, <- Z.pow_add_r by lia. f_equal. lia. }
    rewrite EJ. pose proof (Wp_pos (j - i - 1)) as PJ. rewrite Z.rem_mul_r by nia.
    rewrite Z.rem_mul_r by lia. set (h := (x / (Wp i * W)) mod _).
    replace (x mod Wp i + Wp i * ((x / Wp i) mod W) + Wp i * W * h) with (((x / Wp i) mod W + W * h) * Wp i + x mod Wp i) by ring.
    rewrite Z.div_add_l by lia. rewrite (Z.div_small (x mod Wp i)) by (apply Z.mod_pos_bound; exact P).
    rewrite Z.add_0_r, Z.mul_comm with (n := W), Z_mod_plus_full, Z.mod_mod by lia. reflexivity. }
  rewrite (D n), (D m), EQ. reflexivity.
Qed.

Lemma j_below : (j < length A)%nat.
Proof.
  destruct (Nat.lt_ge_cases j (length A)) as [L|L]; [exact L|]. exfalso. apply NE. rewrite <- VA, <- VB, <- !nth_word_of by assumption.
  rewrite !nth_overflow by lia. reflexivity.
Qed.

Lemma same_low i : (i < j)%nat -> nth i A 0 = nth i B 0.
Proof. intros H. rewrite !nth_word_of, VA, VB by assumption. apply low_eq. exact H. Qed.

Definition low_word : Z := (nth j A 0 - nth j B 0) mod W.

Lemma nth_is_word l i : Forall word l -> word (nth i l 0).
Proof. intros F. rewrite nth_word_of by exact F. apply word_of_word. Qed.

Lemma low_nonzero : low_word <> 0.
Proof.
  unfold low_word. intros E. pose proof (nth_is_word A j FA) as Ha. pose proof (nth_is_word B j FB) as Hb. unfold word in *.
  apply Z.mod_divide in E; [|discriminate]. destruct E as [q E]. apply NE. rewrite <- VA, <- VB, <- !nth_word_of by assumption.
  assert (PW := W_pos).
  assert (q < 1) by (apply Z.nle_gt; intros X; assert (1 * W <= q * W) by (apply Z.mul_le_mono_nonneg_r; lia); lia).
  assert (-1 < q) by (apply Z.nle_gt; intros X; assert (q * W <= -1 * W) by (apply Z.mul_le_mono_nonneg_r; lia); lia).
  assert (q = 0) by lia. subst q. lia.
Qed.

(** The output is the larger number. *)
Lemma larger_loop fuel i : (i <= j)%nat -> (j - i < fuel)%nat ->
  let o := Big (map Some (repeat 0 i) ++ skipn i (map Some A ++ ra)) (Z.of_nat (length A)) in
  difference_loop fuel Larger o (Big (map Some B ++ rb) (Z.of_nat (length B))) o (Z.of_nat i) 0 =
  Ok (Big (map Some (repeat 0 j ++ [low_word]) ++ skipn (S j) (map Some A ++ ra)) (Z.of_nat (S j))).
Proof.
  pose proof j_below as JB. revert i. induction fuel as [|fuel IH]; intros i Hi Hf o; [lia|].
  assert (LZ : length (map (@Some Z) (repeat 0 i)) = i) by (rewrite map_length, repeat_length; reflexivity).
  assert (LL : (i < length (map Some A ++ ra))%nat) by (rewrite app_length, map_length; lia).
  destruct (skip_cons _ i LL) as [x EX].
  assert (RA : word_read (digits_ o) (Z.of_nat i) = Ok (nth i A 0)).
  { apply word_read_nth; [unfold o; cbn [digits_]; rewrite app_length, LZ, EX; cbn [length]; lia|].
    unfold o; cbn [digits_]. rewrite nth_after by exact LZ. apply nth_words. lia. }
  assert (RB : if Z.of_nat i <? Z.of_nat (length B) then word_read (map Some B ++ rb) (Z.of_nat i) = Ok (nth i B 0) else nth i B 0 = 0).
  { destruct (Z.ltb_spec (Z.of_nat i) (Z.of_nat (length B))); [|apply nth_overflow; lia].
    apply word_read_nth; [rewrite app_length, map_length; lia|apply nth_words; lia]. }
  assert (WR : forall d, word_write (digits_ o) (Z.of_nat i) d = Ok (map Some (repeat 0 i) ++ Some d :: skipn (S i) (map Some A ++ ra))).
  { intros d. unfold o; cbn [digits_]. rewrite EX. pose proof (word_write_app (map Some (repeat 0 i)) x) as Q. rewrite LZ in Q. apply Q. }
  rewrite (step Larger fuel o (Big (map Some B ++ rb) (Z.of_nat (length B))) o (Z.of_nat i) (nth i A 0) (nth i B 0) _
             (nth_is_word A i FA) (nth_is_word B i FB) ltac:(unfold o; cbn [count_]; lia) RA RB (WR _)).
  cbn zeta. replace (Z.of_nat i + 1) with (Z.of_nat (S i)) by lia.
  destruct (Nat.eq_dec i j) as [->|NI].
  - fold low_word. rewrite (proj2 (Z.eqb_neq _ _) low_nonzero). rewrite loop_end by (cbn [count_]; apply Z.ltb_irrefl).
    rewrite map_app, <- app_assoc. reflexivity.
  - rewrite (same_low i) by lia. rewrite Z.sub_diag, Zmod_0_l. cbn [Z.eqb].
    replace (nth i B 0 <? 0) with false by (pose proof (nth_is_word B i FB) as X; unfold word in X; symmetry; apply Z.ltb_ge; lia).
    replace (map Some (repeat 0 i) ++ Some 0 :: skipn (S i) (map Some A ++ ra)) with (map Some (repeat 0 (S i)) ++ skipn (S i) (map Some A ++ ra)).
    + unfold o; cbn [count_]. apply IH; lia.
    + replace (S i) with (i + 1)%nat at 1 by lia. rewrite repeat_app, map_app, <- app_assoc. reflexivity.
Qed.

(** The output is the smaller number: as if only its words up to [j] were subtracted. *)
Lemma smaller_loop fuel i : (i <= j)%nat ->
  let o := Big (map Some (repeat 0 i) ++ skipn i (map Some B ++ rb)) (Z.of_nat (length B)) in
  let a := Big (map Some A ++ ra) (Z.of_nat (length A)) in
  difference_loop fuel Smaller a o o (Z.of_nat i) 0 =
  difference_loop fuel Apart a (Big (map Some (firstn (S j) B) ++ rb) (Z.of_nat (length (firstn (S j) B)))) o (Z.of_nat i) 0.
Proof.
  pose proof j_below as JB. revert i. induction fuel as [|fuel IH]; intros i Hi o a; [reflexivity|].
  assert (LZ : length (map (@Some Z) (repeat 0 i)) = i) by (rewrite map_length, repeat_length; reflexivity).
  assert (LL : (i < length (map Some B ++ rb))%nat) by (rewrite app_length, map_length; lia).
  destruct (skip_cons _ i LL) as [x EX].
  assert (RA : word_read (digits_ a) (Z.of_nat i) = Ok (nth i A 0)).
  { apply word_read_nth; [unfold a; cbn [digits_]; rewrite app_length, map_length; lia|apply nth_words; lia]. }
  assert (RB : if Z.of_nat i <? Z.of_nat (length B) then word_read (digits_ o) (Z.of_nat i) = Ok (nth i B 0) else nth i B 0 = 0).
  { destruct (Z.ltb_spec (Z.of_nat i) (Z.of_nat (length B))); [|apply nth_overflow; lia].
    apply word_read_nth; [unfold o; cbn [digits_]; rewrite app_length, LZ, EX; cbn [length]; lia|].
    unfold o; cbn [digits_]. rewrite nth_after by exact LZ. apply nth_words. lia. }
  set (b' := Big (map Some (firstn (S j) B) ++ rb) (Z.of_nat (length (firstn (S j) B)))).
  assert (RB' : if Z.of_nat i <? count_ b' then word_read (digits_ b') (Z.of_nat i) = Ok (nth i B 0) else nth i B 0 = 0).
  { unfold b'. cbn [count_ digits_]. destruct (Z.ltb_spec (Z.of_nat i) (Z.of_nat (length (firstn (S j) B)))).
    - apply word_read_nth; [rewrite app_length, map_length; lia|]. rewrite nth_words by lia. f_equal.
      rewrite <- (firstn_skipn (S j) B) at 2. rewrite app_nth1 by lia. reflexivity.
    - apply nth_overflow. rewrite firstn_length in H. lia. }
  assert (WR : forall d, word_write (digits_ o) (Z.of_nat i) d = Ok (map Some (repeat 0 i) ++ Some d :: skipn (S i) (map Some B ++ rb))).
  { intros d. unfold o; cbn [digits_]. rewrite EX. pose proof (word_write_app (map Some (repeat 0 i)) x) as Q. rewrite LZ in Q. apply Q. }
  rewrite (step Smaller fuel a o o (Z.of_nat i) (nth i A 0) (nth i B 0) _
             (nth_is_word A i FA) (nth_is_word B i FB) ltac:(unfold a; cbn [count_]; lia) RA RB (WR _)).
  rewrite (step Apart fuel a b' o (Z.of_nat i) (nth i A 0) (nth i B 0) _
             (nth_is_word A i FA) (nth_is_word B i FB) ltac:(unfold a; cbn [count_]; lia) RA RB' (WR _)).
  cbn zeta. replace (Z.of_nat i + 1) with (Z.of_nat (S i)) by lia.
  destruct (Nat.eq_dec i j) as [->|NI].
  - fold low_word. rewrite (proj2 (Z.eqb_neq _ _) low_nonzero). apply passed; [cbn [count_]; lia| |reflexivity].
    unfold b'. cbn [count_]. rewrite firstn_length. lia.
  - rewrite (same_low i) by lia. rewrite Z.sub_diag, Zmod_0_l. cbn [Z.eqb].
    replace (nth i B 0 <? 0) with false by (pose proof (nth_is_word B i FB) as X; unfold word in X; symmetry; apply Z.ltb_ge; lia).
    replace (map Some (repeat 0 i) ++ Some 0 :: skipn (S i) (map Some B ++ rb)) with (map Some (repeat 0 (S i)) ++ skipn (S i) (map Some B ++ rb)).
    + unfold o; cbn [count_]. apply IH; lia.
    + replace (S i) with (i + 1)%nat at 1 by lia. rewrite repeat_app, map_app, <- app_assoc. reflexivity.
Qed.
End lowest.

Lemma divide_mod n m p : 0 < p -> (p | n - m) <-> n mod p = m mod p.
Proof.
  intros P. rewrite <- Z.mod_divide by lia. rewrite Zminus_mod. pose proof (Z.mod_pos_bound n p P). pose proof (Z.mod_pos_bound m p P).
  split; intros E.
  - destruct (Z.lt_trichotomy (n mod p) (m mod p)) as [L|[L|L]]; [|exact L|].
    + replace (n mod p - m mod p) with ((n mod p - m mod p + p) + -1 * p) in E by ring. rewrite Z_mod_plus_full, Z.mod_small in E by lia. lia.
    + rewrite Z.mod_small in E by lia. lia.
  - rewrite E, Z.sub_diag. apply Zmod_0_l.
Qed.

Lemma lowest_word n m i : 0 <= i -> (2 ^ (64 * i) | n - m) -> ~ (2 ^ (64 * (i + 1)) | n - m) ->
  n mod Wp (Z.to_nat i) = m mod Wp (Z.to_nat i) /\ word_of n (Z.to_nat i) <> word_of m (Z.to_nat i).
Proof.
  intros Hi D ND. set (j := Z.to_nat i). assert (EI : i = Z.of_nat j) by lia. rewrite EI in *.
  replace (64 * (Z.of_nat j + 1)) with (64 * Z.of_nat (S j)) in ND by lia. rewrite <- Wp_pow in D, ND.
  rewrite divide_mod in D by apply Wp_pos. rewrite divide_mod in ND by apply Wp_pos.
  split; [exact D|]. intros E. apply ND. rewrite !mod_step, D, E. reflexivity.
Qed.

Lemma last_low j d : last (repeat 0 j ++ [d]) 0 = d.
Proof. apply last_last. Qed.

Lemma low_value A B j : Forall word A -> Forall word B -> words_value A mod Wp j = words_value B mod Wp j ->
  Wp j * low_word A B j = (words_value A - words_value B) mod Wp (S j).
Proof.
  intros FA FB E. unfold low_word. rewrite !nth_word_of by assumption. set (n := words_value A) in *. set (m := words_value B) in *.
  unfold word_of. rewrite <- Zminus_mod. pose proof (Wp_pos j) as P.
  rewrite (Z.div_mod n (Wp j)) at 2 by lia. rewrite (Z.div_mod m (Wp j)) at 2 by lia. rewrite E.
  replace (Wp j * (n / Wp j) + m mod Wp j - (Wp j * (m / Wp j) + m mod Wp j)) with (Wp j * (n / Wp j - m / Wp j)) by ring.
  rewrite Wp_S, (Z.mul_comm W), Z.mul_mod_distr_l by (pose proof W_pos; lia). reflexivity.
Qed.

Lemma into_larger a b n m i : holds a n -> holds b m -> m < n -> 0 <= i -> (2 ^ (64 * i) | n - m) -> ~ (2 ^ (64 * (i + 1)) | n - m) ->
  exists r, difference_loop (Z.to_nat capacity) Larger a b a 0 0 = Ok r /\ holds r ((n - m) mod 2 ^ (64 * (i + 1))).
Proof.
  intros Ha Hb Lt Hi D ND. destruct (lowest_word n m i Hi D ND) as [EQ NE]. set (j := Z.to_nat i) in *.
  apply holds_rep in Ha. destruct Ha as (A & RA & NA & VA). apply holds_rep in Hb. destruct Hb as (B & RB & NB & VB).
  destruct (rep_length _ _ RA) as [LA1 LA2]. destruct RA as (ra & A1 & A2 & A3 & A4 & A5). destruct RB as (rb & B1 & B2 & B3 & B4 & B5).
  destruct a as [da ca]; destruct b as [db cb]; cbn [digits_ count_] in *. subst da ca db cb. rewrite app_length, map_length in A2, B2.
  assert (SA : (length A + length ra = Z.to_nat capacity)%nat) by (clear - A2; lia).
  assert (SB : (length B + length rb = Z.to_nat capacity)%nat) by (clear - B2; lia).
  assert (SL : (length A <= Z.to_nat capacity)%nat) by (clear - SA; lia).
  assert (LBA : (length B <= length A)%nat).
  { destruct (Nat.le_gt_cases (length B) (length A)) as [Y|Y]; [exact Y|]. pose proof (longer A B A5 B5 B4 NB Y A4) as Z0. clear - Z0 VA VB Lt. lia. }
  pose proof (j_below A B ra rb n m j A5 B5 VA VB SL SA SB LBA EQ NE) as JB.
  assert (SJ : (j - 0 < Z.to_nat capacity)%nat) by (clear - SL JB; lia).
  pose proof (larger_loop A B ra rb n m j A5 B5 VA VB SL SA SB LBA EQ NE (Z.to_nat capacity) 0%nat (Nat.le_0_l j) SJ) as X.
  cbn zeta in X.
  eexists. split; [exact X|].
  pose proof (low_nonzero A B ra rb n m j A5 B5 VA VB SL SA SB LBA EQ NE) as NZ.
  apply holds_rep. exists (repeat 0 j ++ [low_word A B j]). split; [|split].
  - exists (skipn (S j) (map Some A ++ ra)). cbn [digits_ count_]. split; [reflexivity|].
    rewrite app_length, map_length, skipn_length, !app_length, map_length, repeat_length. cbn [length].
    split; [clear - A2 JB; lia|]. split; [clear; lia|]. split; [destruct (repeat 0 j); discriminate|].
    apply Forall_app. split.
    + apply Forall_forall. intros w Hw. apply repeat_spec in Hw. subst w. split; [lia|reflexivity].
    + constructor; [|constructor]. apply Z.mod_pos_bound. reflexivity.
  - intros L. rewrite last_last in L. contradiction.
  - rewrite wv_app, wv_zeros, repeat_length. cbn [words_value]. rewrite Z.mul_0_r, Z.add_0_r, Z.add_0_l.
    rewrite (low_value A B j A5 B5) by (rewrite VA, VB; exact EQ). rewrite VA, VB, Wp_pow. f_equal. f_equal. unfold j. clear - Hi. lia.
Qed.

Lemma firstn_value B k : Forall word B -> words_value (firstn k B) = words_value B mod Wp k.
Proof.
  intros F. rewrite <- (firstn_skipn k B) at 2. rewrite wv_app. 
  assert (FF : Forall word (firstn k B)) by (rewrite <- (firstn_skipn k B) in F; apply Forall_app in F; apply F).
  pose proof (wv_bounds _ FF) as BF. pose proof (Wp_pos k) as P.
  destruct (Nat.le_ge_cases k (length B)) as [L|L].
  - rewrite firstn_length, Nat.min_l in * by exact L. rewrite Z.mul_comm, Z_mod_plus_full, Z.mod_small by lia. reflexivity.
  - rewrite skipn_all2 by exact L. cbn [words_value]. rewrite Z.mul_0_r, Z.add_0_r. symmetry. apply Z.mod_small.
    rewrite firstn_all2 in BF |- * by exact L. pose proof (Wp_le _ _ L). lia.
Qed.

Lemma into_smaller a b n m i : holds a n -> holds b m -> m < n -> 0 <= i -> (2 ^ (64 * i) | n - m) -> ~ (2 ^ (64 * (i + 1)) | n - m) ->
  exists r, difference_loop (Z.to_nat capacity) Smaller a b b 0 0 = Ok r /\ holds r (n - m mod 2 ^ (64 * (i + 1))).
Proof.
  intros Ha Hb Lt Hi D ND. destruct (lowest_word n m i Hi D ND) as [EQ NE]. set (j := Z.to_nat i) in *.
  assert (EJ : 64 * (i + 1) = 64 * Z.of_nat (S j)) by (unfold j; clear - Hi; lia). rewrite EJ, <- Wp_pow. clear D ND EJ Hi. clearbody j. clear i.
  apply holds_rep in Ha. destruct Ha as (A & RA & NA & VA). apply holds_rep in Hb. destruct Hb as (B & RB & NB & VB).
  destruct (rep_length _ _ RA) as [LA1 LA2]. destruct RA as (ra & A1 & A2 & A3 & A4 & A5). destruct RB as (rb & B1 & B2 & B3 & B4 & B5).
  destruct a as [da ca]; destruct b as [db cb]; cbn [digits_ count_] in *. subst da ca db cb. rewrite app_length, map_length in A2, B2.
  assert (SA : (length A + length ra = Z.to_nat capacity)%nat) by (clear - A2; lia).
  assert (SB : (length B + length rb = Z.to_nat capacity)%nat) by (clear - B2; lia).
  assert (SL : (length A <= Z.to_nat capacity)%nat) by (clear - SA; lia).
  assert (LBA : (length B <= length A)%nat).
  { destruct (Nat.le_gt_cases (length B) (length A)) as [Y|Y]; [exact Y|]. pose proof (longer A B A5 B5 B4 NB Y A4) as Z0. clear - Z0 VA VB Lt. lia. }
  pose proof (smaller_loop A B ra rb n m j A5 B5 VA VB SL SA SB LBA EQ NE (Z.to_nat capacity) 0%nat (Nat.le_0_l j)) as X.
  cbn zeta in X. change (map Some (repeat 0 0) ++ skipn 0 (map Some B ++ rb)) with (map Some B ++ rb) in X.
  change (Z.of_nat 0) with 0 in X. rewrite X. clear X.
  set (C := firstn (S j) B). assert (FC : Forall word C).
  { unfold C. rewrite <- (firstn_skipn (S j) B) in B5. apply Forall_app in B5. apply B5. }
  assert (VC : words_value C = m mod Wp (S j)) by (unfold C; rewrite firstn_value, VB by exact B5; reflexivity).
  assert (LCA : (length C <= length A)%nat) by (unfold C; rewrite firstn_length; clear - LBA; lia).
  destruct (difference_loop_ok A C ra rb n (m mod Wp (S j)) A5 FC VA VC LCA SL (Z.to_nat capacity) 0 [] (map Some B ++ rb) (Z.of_nat (length B)) 0 0)
    as (R & rest & c & k & L & E & LR & Lr & FR & Bk & BL & IL & CR & EV);
    [rewrite app_length, map_length; cbn [plus]; exact SB|clear; lia|clear - SL; lia|reflexivity|apply Forall_nil|clear; lia|clear; lia| | |unfold balance; rewrite Wp_0, !Z.mod_1_r; reflexivity|].
  { split; [intros _ q Hq; clear - Hq; lia|reflexivity]. }
  { exists [], 0%nat. split; [reflexivity|left; reflexivity]. }
  cbn [map app] in E. change (Z.of_nat 0) with 0 in E. rewrite E.
  assert (L0 : L = 0).
  { apply IL. intros q Hq HW. destruct (Nat.le_gt_cases q j) as [Y|Y].
    - assert (G : (m mod Wp (S j)) mod Wp q = m mod Wp q).
      { rewrite <- Znumtheory.Zmod_div_mod; [reflexivity|apply Wp_pos|apply Wp_pos|].
        exists (Wp (S j - q)). unfold Wp. rewrite <- Z.pow_add_r by (clear; lia). f_equal. clear - Y. lia. }
      rewrite G. assert (G2 : forall z, z mod Wp q = (z mod Wp j) mod Wp q).
      { intros z. rewrite <- Znumtheory.Zmod_div_mod; [reflexivity|apply Wp_pos|apply Wp_pos|].
        exists (Wp (j - q)). unfold Wp. rewrite <- Z.pow_add_r by (clear; lia). f_equal. clear - Y. lia. }
      rewrite (G2 n), (G2 m), EQ. apply Z.le_refl.
    - exfalso. unfold word_of in HW. rewrite Z.div_small in HW; [discriminate HW|].
      pose proof (Z.mod_pos_bound m (Wp (S j)) (Wp_pos _)) as Z1. pose proof (Wp_le (S j) q Y) as Z2. clear - Z1 Z2. lia. }
  subst L. pose proof (wv_bounds A A5) as BA. pose proof (wv_bounds B B5) as BB. rewrite VA in BA. rewrite VB in BB.
  pose proof (wv_bounds C FC) as BC. rewrite VC in BC. pose proof (Wp_le _ _ LCA) as WL.
  unfold balance in EV. rewrite (Z.mod_small n), (Z.mod_small (m mod Wp (S j))) in EV by (clear - BA BC WL; lia).
  pose proof (wv_bounds R FR) as BR. rewrite LR in BR. pose proof (Wp_pos (length A)) as P.
  assert (ML : m mod Wp (S j) <= m) by (apply Z.mod_le; [clear - BB; lia|apply Wp_pos]).
  assert (K0 : k = 0) by (clear - EV BR BC Lt ML P Bk; nia). subst k.
  assert (VR : words_value R = n - m mod Wp (S j)) by (clear - EV; lia).
  destruct CR as (R1 & z & ER & [->|[NZ EC]]).
  { exfalso. rewrite ER in VR. cbn [app] in VR. rewrite wv_zeros in VR. clear - VR ML Lt. lia. }
  eexists. split; [reflexivity|]. apply holds_rep. exists R1. split; [|split].
  - exists (map Some (repeat 0 z) ++ rest). cbn [digits_ count_]. split; [rewrite ER, map_app, <- app_assoc; reflexivity|].
    split; [rewrite app_length, map_length; clear - Lr LR; destruct capacity_nat; lia|]. split; [exact EC|]. split; [intros ->; apply NZ; reflexivity|].
    rewrite ER in FR. apply Forall_app in FR. apply FR.
  - intros Y. contradiction.
  - rewrite ER, wv_app, wv_zeros, Z.mul_0_r, Z.add_0_r in VR. exact VR.
Qed.

Lemma difference_in_place x y o n m i : holds x n -> holds y m -> n <> m -> (o = OutThis \/ o = OutOther) ->
  0 <= i -> (2 ^ (64 * i) | n - m) -> ~ (2 ^ (64 * (i + 1)) | n - m) ->
  exists r v, difference x y o = Ok (r, n <? m) /\ holds r v /\
    ((o = OutThis /\ m < n) \/ (o = OutOther /\ n < m) -> v = Z.abs (n - m) mod 2 ^ (64 * (i + 1))) /\
    ((o = OutThis /\ n < m) \/ (o = OutOther /\ m < n) -> v = Z.max n m - Z.min n m mod 2 ^ (64 * (i + 1))).
Proof.
  intros Hx Hy N HO Hi D ND. unfold difference. rewrite (compare_ok x y n m Hx Hy). cbn [bind].
  assert (D' : (2 ^ (64 * i) | m - n)) by (replace (m - n) with (- (n - m)) by ring; apply Z.divide_opp_r; exact D).
  assert (ND' : ~ (2 ^ (64 * (i + 1)) | m - n)) by (intros X; apply ND; replace (n - m) with (- (m - n)) by ring; apply Z.divide_opp_r; exact X).
  destruct (Z.compare_spec n m) as [E|L|L]; [contradiction| |]; cbn [sign_of Z.eqb Z.ltb Z.compare].
  - rewrite (proj2 (Z.ltb_lt n m) L). rewrite Z.max_r, Z.min_l by lia. replace (Z.abs (n - m)) with (m - n) by lia. destruct HO as [-> | ->].
    + destruct (into_smaller y x m n i Hy Hx L Hi D' ND') as (r & -> & Hr). cbn [bind]. eexists _, _. split; [reflexivity|]. split; [exact Hr|].
      split; [intros [[_ Y]|[Y _]]; [lia|discriminate]|reflexivity].
    + destruct (into_larger y x m n i Hy Hx L Hi D' ND') as (r & -> & Hr). cbn [bind]. eexists _, _. split; [reflexivity|]. split; [exact Hr|].
      split; [reflexivity|]. intros [[Y _]|[_ Y]]; [discriminate|lia].
  - rewrite (proj2 (Z.ltb_ge n m)) by lia. rewrite Z.max_l, Z.min_r by lia. replace (Z.abs (n - m)) with (n - m) by lia. destruct HO as [-> | ->].
    + destruct (into_larger x y n m i Hx Hy L Hi D ND) as (r & -> & Hr). cbn [bind]. eexists _, _. split; [reflexivity|]. split; [exact Hr|].
      split; [reflexivity|]. intros [[_ Y]|[Y _]]; [lia|discriminate].
    + destruct (into_smaller x y n m i Hx Hy L Hi D ND) as (r & -> & Hr). cbn [bind]. eexists _, _. split; [reflexivity|]. split; [exact Hr|].
      split; [intros [[Y _]|[_ Y]]; [discriminate|lia]|reflexivity].
Qed.
