(** Proofs about extraction with a C library that does no more than C17 recommends. *)
From Coq Require Import Reals Lra Lia Floats.SpecFloat.
From Flocq Require Import Core IEEE754.BinarySingleNaN.
From Verif Require Import Machine LibMachine SpecApi SpecDecimal SpecInt SpecNumber SpecIeee SpecRead SpecMore SpecReader ModelInt ModelText ModelIeee
  ModelDiyfp ModelDtoa ModelFloat ModelLexi ModelReader ProofCached ProofRound ProofFloat ProofFloat2 ProofFloat4 ProofRead ProofRead2 ProofRead2 ProofApi ProofInt ProofMore3.
Open Scope Z_scope.

(** ** Digits *)

Lemma count_ok fuel : forall D, 0 < D < 2 ^ Z.of_nat fuel -> 0 < count_digits fuel D /\ 10 ^ (count_digits fuel D - 1) <= D < 10 ^ count_digits fuel D.
Proof.
  induction fuel as [|fuel IH]; intros D H; [change (2 ^ Z.of_nat 0) with 1 in H; lia|]. cbn [count_digits].
  destruct (Z.leb_spec D 0); [lia|]. rewrite Nat2Z.inj_succ, Z.pow_succ_r in H by lia.
  pose proof (Z.div_mod D 10 ltac:(lia)) as DM. pose proof (Z.mod_pos_bound D 10 ltac:(lia)) as MB.
  destruct (Z.eq_dec (D / 10) 0) as [E|E].
  - assert (count_digits fuel (D / 10) = 0) as -> by (rewrite E; destruct fuel; reflexivity). change (10 ^ (1 + 0 - 1)) with 1. change (10 ^ (1 + 0)) with 10. lia.
  - specialize (IH (D / 10) ltac:(lia)). destruct IH as (P & A & B). set (c := count_digits fuel (D / 10)) in *. clearbody c. split; [lia|].
    replace (1 + c - 1) with (Z.succ (c - 1)) by lia. replace (1 + c) with (Z.succ c) by lia. rewrite !Z.pow_succ_r by lia. lia.
Qed.

Lemma digits_ok D : 0 < D -> 0 < digits_of D /\ 10 ^ (digits_of D - 1) <= D < 10 ^ digits_of D.
Proof.
  intros H. apply count_ok. split; [exact H|]. rewrite Nat2Z.inj_succ, Z2Nat.id by apply Z.log2_nonneg. apply Z.log2_spec. exact H.
Qed.

Lemma few_iff k D : 0 <= k -> 0 <= D -> few_digits k D <-> ((digits_of D - k <=? 0) || (D mod 10 ^ (digits_of D - k) =? 0)) = true.
Proof.
  intros Hk HD. destruct (Z.eq_dec D 0) as [->|NZ].
  { change (digits_of 0) with 0. replace (0 - k <=? 0) with true by lia. split; [reflexivity|]. intros _. exists 0, 0. repeat split; try lia. }
  destruct (digits_ok D ltac:(lia)) as (P & A & B). rewrite Bool.orb_true_iff, Z.leb_le, Z.eqb_eq. split.
  - intros (N & j & J & R & E). destruct (Z.le_gt_cases (digits_of D - k) 0) as [L|L]; [left; exact L|right].
    assert (digits_of D - k <= j).
    { assert (10 ^ (digits_of D - 1) < 10 ^ (k + j)) as Q.
      { rewrite Z.pow_add_r by lia. pose proof (Z.pow_pos_nonneg 10 j ltac:(lia) J). set (T := 10 ^ j) in *. set (U := 10 ^ k) in *. clearbody T U. nia. }
      apply Z.pow_lt_mono_r_iff in Q; lia. }
    clear A B P NZ HD. set (n := digits_of D - k) in *. clearbody n. rewrite E. replace j with ((j - n) + n) by lia. rewrite Z.pow_add_r, Z.mul_assoc by lia. apply Z.mod_mul. apply Z.pow_nonzero; lia.
  - intros [L|M].
    + exists D, 0. repeat split; try lia. apply Z.lt_le_trans with (1 := B). apply Z.pow_le_mono_r; lia.
    + destruct (Z.le_gt_cases (digits_of D - k) 0) as [L|L].
      { exists D, 0. repeat split; try lia. apply Z.lt_le_trans with (1 := B). apply Z.pow_le_mono_r; lia. }
      exists (D / 10 ^ (digits_of D - k)), (digits_of D - k). split; [lia|].
      pose proof (Z.pow_pos_nonneg 10 (digits_of D - k) ltac:(lia) ltac:(lia)) as T. split; [split|].
      * apply Z.div_pos; lia.
      * apply Z.div_lt_upper_bound; [exact T|]. rewrite <- Z.pow_add_r by lia. replace (digits_of D - k + k) with (digits_of D) by lia. exact B.
      * pose proof (Z.div_mod D (10 ^ (digits_of D - k)) ltac:(lia)). lia.
Qed.

(** ** Readers *)

Definition taken (k : Z) (up : bool) (v : denoted) : denoted :=
  match v with DDecimal neg D K => DDecimal neg (fst (nearby k up D K)) (snd (nearby k up D K)) | _ => v end.

Lemma w_strtold_denote up k prec emax point s : w_strtold up k prec emax point s = float_of prec emax (taken k (up s) (denote point s)).
Proof.
  unfold w_strtold, denote. destruct (take_sign _) as [neg r]. unfold subject_of.
  destruct (starts_ci (str "inf") r); [reflexivity|]. destruct (starts_ci (str "nan") r); [reflexivity|].
  destruct (scan_mantissa c_isdigit point r) as [[ip fp] r1].
  assert (X : (if (length (ip ++ fp) =? 0)%nat then S754_zero false
      else let '(D, K) := nearby k (up s) (digits_value 10 (fun c => code c - 48) (ip ++ fp)) (scan_exponent "e"%char r1 - Z.of_nat (length fp)) in round_decimal prec emax neg D K) =
    float_of prec emax (taken k (up s) (if (length (ip ++ fp) =? 0)%nat then DNothing else DDecimal neg (numeral_value (ip ++ fp)) (scan_exponent "e"%char r1 - Z.of_nat (length fp))))).
  { destruct (length (ip ++ fp) =? 0)%nat; [reflexivity|]. rewrite digits_value_10. cbn [taken float_of]. destruct (nearby _ _ _ _); reflexivity. }
  destruct (starts_ci (str "0x") r).
  - destruct (scan_mantissa c_isxdigit point (skipn 2 r)) as [[ip' fp'] r1'].
    destruct (length (ip' ++ fp') =? 0)%nat; [exact X|reflexivity].
  - exact X.
Qed.

Lemma taken_short k up v : 0 <= k -> short k v -> (forall neg D K, v = DDecimal neg D K -> 0 <= D) -> taken k up v = v.
Proof.
  intros Hk S P. destruct v as [neg D K| | | |]; try reflexivity. cbn [taken short] in *. unfold nearby. cbv zeta.
  apply few_iff in S; [|exact Hk|exact (P _ _ _ eq_refl)]. rewrite S. reflexivity.
Qed.

Lemma decimal_nonneg point s neg D K : denote point s = DDecimal neg D K -> 0 <= D.
Proof. intros E. destruct (denote_nonneg point s) as [A _]. exact (A _ _ _ E). Qed.

Lemma dig_pos f : 17 <= DECIMAL_DIG f.
Proof. destruct f; cbn; lia. Qed.

Lemma few_more k k' D : 0 <= k <= k' -> few_digits k D -> few_digits k' D.
Proof.
  intros H (N & j & J & R & E). exists N, j. split; [exact J|]. split; [|exact E]. split; [lia|]. apply Z.lt_le_trans with (1 := proj2 R). apply Z.pow_le_mono_r; lia.
Qed.

Lemma short_same up e point s v T : point_ok point -> reads point s v -> short (DECIMAL_DIG (fe_ld (e_float e))) v ->
  w_extract up e point T s = extract e point T s.
Proof.
  intros PO R S. apply reads_denote in R; [|exact PO]. pose proof (dig_pos (fe_ld (e_float e))) as P.
  assert (X : w_ExtractFloat up (e_float e) point s = ExtractFloat (e_float e) point s).
  { unfold w_ExtractFloat, ExtractFloat. rewrite w_strtold_denote, strtold_denote, <- R, taken_short; [reflexivity|lia|exact S|].
    intros neg D K E. rewrite R in E. exact (decimal_nonneg _ _ _ _ _ E). }
  destruct T; try reflexivity; cbn [w_extract extract]; rewrite X; reflexivity.
Qed.

Lemma taken_next k up v : 0 < k -> (forall neg D K, v = DDecimal neg D K -> 0 <= D) -> next_to k v (taken k up v).
Proof.
  intros Hk P. assert (S : short k v \/ ~ short k v).
  { destruct v as [neg D K| | | |]; try (left; exact I). cbn [short]. rewrite few_iff; [|lia|exact (P _ _ _ eq_refl)]. destruct (_ || _); auto. }
  destruct S as [S|S].
  - left. split; [exact S|]. apply taken_short; [lia|exact S|exact P].
  - right. split; [exact S|]. destruct v as [neg D K| | | |]; try (exfalso; apply S; exact I). specialize (P _ _ _ eq_refl). cbn [short taken] in *.
    rewrite few_iff in S by lia. unfold nearby. cbv zeta. destruct ((digits_of D - k <=? 0) || (D mod 10 ^ (digits_of D - k) =? 0)) eqn:C; [contradiction S; reflexivity|].
    apply Bool.orb_false_iff in C. destruct C as [C1 C2]. apply Z.leb_gt in C1. apply Z.eqb_neq in C2. cbn [fst snd].
    assert (0 < D) by (destruct (Z.eq_dec D 0) as [->|]; [rewrite Z.mod_0_l in C2 by (apply Z.pow_nonzero; lia); lia|lia]).
    destruct (digits_ok D ltac:(assumption)) as (_ & A & B). set (n := digits_of D - k) in *.
    pose proof (Z.pow_pos_nonneg 10 n ltac:(lia) ltac:(lia)) as T.
    exists neg, D, K, (D / 10 ^ n), (D / 10 ^ n + (if up then 1 else 0)), (K + n). split; [reflexivity|]. split; [reflexivity|].
    pose proof (Z.div_mod D (10 ^ n) ltac:(lia)) as DM. pose proof (Z.mod_pos_bound D (10 ^ n) T) as MB. split; [split|split].
    + apply Z.div_le_lower_bound; [exact T|]. rewrite <- Z.pow_add_r by lia. replace (n + (k - 1)) with (digits_of D - 1) by lia. exact A.
    + apply Z.div_lt_upper_bound; [exact T|]. rewrite <- Z.pow_add_r by lia. replace (n + k) with (digits_of D) by lia. exact B.
    + assert (V : forall L, (IZR L * bpow radix10 (K + n) = IZR (L * 10 ^ n) * bpow radix10 K)%R).
      { intros L. rewrite bpow_plus, mult_IZR, <- (pow10_bpow n) by lia. ring. }
      rewrite !V. pose proof (bpow_gt_0 radix10 K) as BK. split; (apply Rmult_lt_compat_r; [exact BK|]; apply IZR_lt; set (t := 10 ^ n) in *; clearbody t; nia).
    + destruct up; [right; reflexivity|left; lia].
Qed.

Lemma any_text up e point s v : point_ok point -> reads point s v ->
  exists v' y, next_to (DECIMAL_DIG (fe_ld (e_float e))) v v' /\
    read_as (ld_prec (fe_ld (e_float e))) (ld_emax (fe_ld (e_float e))) v' y /\
    w_extract up e point TLongDouble s = Ok (XFloating y) /\
    (exists z, w_extract up e point TDouble s = Ok (XFloating z) /\ narrowed 53 1024 y z) /\
    (exists z, w_extract up e point TFloat s = Ok (XFloating z) /\ narrowed 24 128 y z).
Proof.
  intros PO R. apply reads_denote in R; [|exact PO]. pose proof (dig_pos (fe_ld (e_float e))) as P. set (k := DECIMAL_DIG (fe_ld (e_float e))) in *.
  assert (NN : forall neg D K, v = DDecimal neg D K -> 0 <= D) by (intros neg D K E; rewrite R in E; exact (decimal_nonneg _ _ _ _ _ E)).
  exists (taken k (up s) v), (w_strtold up k (ld_prec (fe_ld (e_float e))) (ld_emax (fe_ld (e_float e))) point s).
  pose proof (taken_next k (up s) v ltac:(lia) NN) as NX. split; [exact NX|]. split.
  - rewrite w_strtold_denote, <- R. apply float_of_read; [apply ld_good| |].
    + intros neg D K E. destruct NX as [[_ X]|(_ & neg' & D0 & K0 & L & D' & K' & _ & X & B & _ & C)].
      * rewrite X in E. exact (NN _ _ _ E).
      * rewrite X in E. injection E as <- <- <-. pose proof (Z.pow_pos_nonneg 10 (k - 1) ltac:(lia) ltac:(lia)). lia.
    + intros neg' M' E' E. destruct (denote_nonneg point s) as [_ B]. apply (B neg' M' E'). rewrite <- R. destruct v; try discriminate E. exact E.
  - split; [reflexivity|]. split; eexists; (split; [reflexivity|]); apply convert_narrowed; [exact double_good|exact float_good].
Qed.

(** ** Printed texts *)

Lemma strip_value l : numeral_value (strip_zeros l) = numeral_value l.
Proof.
  induction l as [|c l IH]; [reflexivity|]. destruct (ascii_dec c "0"%char) as [->|N].
  - cbn [strip_zeros]. rewrite IH. reflexivity.
  - destruct c as [[] [] [] [] [] [] [] []]; try reflexivity. contradiction N. reflexivity.
Qed.

Lemma strip_split l : exists j, l = repeat "0"%char j ++ strip_zeros l.
Proof.
  induction l as [|c l [j E]]; [exists O; reflexivity|]. destruct (ascii_dec c "0"%char) as [->|N].
  - exists (S j). cbn [strip_zeros repeat app]. f_equal. exact E.
  - exists O. destruct c as [[] [] [] [] [] [] [] []]; try reflexivity. contradiction N. reflexivity.
Qed.

Lemma repeat_rev {A} (x : A) n : rev (repeat x n) = repeat x n.
Proof. induction n as [|n IH]; [reflexivity|]. cbn [repeat rev]. rewrite IH. clear IH. induction n as [|n IH]; [reflexivity|]. cbn [repeat app]. rewrite IH. reflexivity. Qed.

Lemma significant_few l k : Forall is_digit l -> Z.of_nat (length (significant l)) <= k -> few_digits k (numeral_value l).
Proof.
  intros F L. unfold significant in L. rewrite <- strip_value.
  assert (F' : Forall is_digit (strip_zeros l)).
  { destruct (strip_split l) as [j E]. rewrite E in F. apply Forall_app in F. exact (proj2 F). }
  set (m := strip_zeros l) in *. clearbody m. destruct (strip_split (rev m)) as [j E].
  apply (f_equal (@rev _)) in E. rewrite rev_involutive, rev_app_distr, repeat_rev in E. set (t := rev (strip_zeros (rev m))) in *. clearbody t.
  rewrite E in *. apply Forall_app in F'. destruct F' as [Ft _]. exists (numeral_value t), (Z.of_nat j). split; [lia|].
  pose proof (numeral_value_bounds t Ft) as B. split.
  - split; [lia|]. apply Z.lt_le_trans with (1 := proj2 B). apply Z.pow_le_mono_r; lia.
  - rewrite numeral_value_app, repeat_length. assert (numeral_value (repeat "0"%char j) = 0) as ->; [|lia].
    clear. induction j as [|j IH]; [reflexivity|]. cbn [repeat]. exact IH.
Qed.

Lemma json_digits s n : json_number s n -> Forall is_digit (n_digits n).
Proof.
  intros (_ & _ & FI & _ & FF & _). unfold n_digits. apply Forall_app. split; [exact FI|]. destruct (n_fraction n) as [f|] eqn:E; [|constructor]. exact (proj2 (FF f eq_refl)).
Qed.

Lemma number_few k s n : json_number s n -> Z.of_nat (length (significant (n_digits n))) <= k -> short k (whole_number n).
Proof. intros J L. cbn [short whole_number]. apply significant_few; [exact (json_digits s n J)|exact L]. Qed.

Lemma few_number up e s n T : json_number s n -> Z.of_nat (length (significant (n_digits n))) <= DECIMAL_DIG (fe_ld (e_float e)) ->
  w_extract up e "."%char T s = extract e "."%char T s.
Proof. intros J L. apply (short_same up e _ s (whole_number n) T dot_ok (json_reads s n J)). apply (number_few _ s n J L). Qed.

Lemma double_few up e u s T : nan_ok (e_float e) -> e_lit e = default_literals -> bits64 u -> lexi e (VDouble u) = Ok s ->
  w_extract up e "."%char T s = extract e "."%char T s.
Proof.
  intros NO LD U L. pose proof (dig_pos (fe_ld (e_float e))) as P.
  assert (K : forall t, t = s -> short 17 (denote "."%char t) -> w_extract up e "."%char T s = extract e "."%char T s).
  { intros t -> S. apply (short_same up e _ s (denote "."%char s) T dot_ok); [apply reads_denote; [exact dot_ok|reflexivity]|].
    destruct (denote "."%char s); try exact I. cbn [short] in *. exact (few_more _ _ _ (conj (Zle_0_pos 17) P) S). }
  destruct (special_values e u NO LD U) as (SN & SI & SM & SZ).
  destruct (double_cases u U) as [N|[[b N]|[N|[F N]]]].
  - apply SN in N. rewrite L in N. injection N as ->. apply (K (str "NaN") eq_refl). vm_compute. exact I.
  - destruct b; [apply SM in N|apply SI in N]; rewrite L in N; injection N as ->; [apply (K (str "-Infinity") eq_refl)|apply (K (str "Infinity") eq_refl)]; vm_compute; exact I.
  - apply SZ in N. rewrite L in N. injection N as ->. apply (K (str "0.0") eq_refl). exists 0, 0. vm_compute. intuition discriminate.
  - destruct (double_round_trip e u s U F N L) as (n & J & _). apply (few_number up e s n T J).
    pose proof (digit_count e u s n U F N L J). lia.
Qed.

Lemma printed_same up e v s T : nan_ok (e_float e) -> e_lit e = default_literals -> floating_ok e v ->
  (exists u, v = VFloat u \/ v = VDouble u) \/ (exists x, v = VLongDouble x) -> lexi e v = Ok s ->
  w_extract up e "."%char T s = extract e "."%char T s.
Proof.
  intros NO LD FO [[u [->| ->]]|[x ->]] L.
  - destruct (float_printed e u NO FO) as (w & B & _ & E & _). rewrite E in L. exact (double_few up e w s T NO LD B L).
  - exact (double_few up e u s T NO LD FO L).
  - destruct (long_double_printed e x NO FO) as (w & B & _ & E & _). rewrite E in L. exact (double_few up e w s T NO LD B L).
Qed.

Lemma integer_same up e t v s T : platform_ok (e_platform e) -> has_int_type (e_platform e) t v -> lexi e (VInt t v) = Ok s ->
  fe_ld (e_float e) <> LD64 \/ Z.abs v <= 10 ^ 17 -> w_extract up e "."%char T s = extract e "."%char T s.
Proof.
  intros HP HV L B. destruct (integer_formats e t v HP HV) as (s' & L' & _ & _ & _ & C). rewrite L in L'. injection L' as <-.
  destruct (canonical_number s v C) as (n & J & _ & _ & V & _). pose proof (has_int_type_range _ _ _ HP HV) as R.
  apply (short_same up e _ s (whole_number n) T dot_ok (json_reads s n J)). cbn [short whole_number]. rewrite V.
  destruct (Z.eq_dec (Z.abs v) (10 ^ 17)) as [E|E].
  { exists 1, 17. rewrite E. split; [lia|]. split; [|lia]. pose proof (dig_pos (fe_ld (e_float e))). split; [lia|]. apply Z.pow_gt_1; lia. }
  exists (Z.abs v), 0. split; [lia|]. split; [|lia]. split; [lia|].
  assert (X : Z.abs v < 10 ^ 17 \/ (Z.abs v < 10 ^ 21 /\ 21 <= DECIMAL_DIG (fe_ld (e_float e)))).
  { destruct B as [B|B]; [right|left; lia]. split; [lia|]. destruct (fe_ld (e_float e)); [congruence|cbn; lia..]. }
  pose proof (dig_pos (fe_ld (e_float e))) as P. destruct X as [X|[X Q]].
  - apply Z.lt_le_trans with (1 := X). apply Z.pow_le_mono_r; lia.
  - apply Z.lt_le_trans with (1 := X). apply Z.pow_le_mono_r; lia.
Qed.

Lemma double_round up e u s : bits64 u -> double_finite u -> double_value u <> 0%R -> lexi e (VDouble u) = Ok s ->
  fe_ld (e_float e) <> LD80 \/ Z.even u = true ->
  exists z, w_extract up e "."%char TDouble s = Ok (XFloating z) /\ same_double z u.
Proof.
  intros U F N L H. destruct (double_round_trip e u s U F N L) as (n & J & _). rewrite (few_number up e s n TDouble J).
  - exact (double_read_exact e u s U F N L H).
  - pose proof (digit_count e u s n U F N L J). pose proof (dig_pos (fe_ld (e_float e))). lia.
Qed.
