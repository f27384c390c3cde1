(** Proofs about histories of formatter objects, continued: what a copy shows that is longer
    than the text its origin now has.  Nothing is written after the terminator of a text. *)
From Verif Require Import Machine ModelItoa ModelInt ModelString ModelText ModelIeee ModelDiyfp
  ModelDtoa ModelFloat ModelLexi ModelObj SpecObj ModelPlatforms ProofObj ProofObj2 LibMachine.

Definition ends {A} (m : outcome A) (P : A -> Prop) : Prop := forall x, m = Ok x -> P x.
Lemma ends_ok {A} (x : A) (P : A -> Prop) : P x -> ends (Ok x) P.
Proof. intros H y [= <-]. exact H. Qed.
Lemma ends_bind {A B} (m : outcome A) (k : A -> outcome B) P Q :
  ends m P -> (forall x, P x -> ends (k x) Q) -> ends (bind m k) Q.
Proof. intros H1 H2 y E. destruct m as [x| | |]; try discriminate E. exact (H2 x (H1 x eq_refl) y E). Qed.
Lemma ends_any {A} (m : outcome A) : ends m (fun _ => True).
Proof. now intros x _. Qed.
Lemma ends_ub {A} w (P : A -> Prop) : ends (UB w) P.
Proof. intros x [=]. Qed.

(** A buffer of [L] bytes that is indeterminate from [n] on. *)
Definition blank (L : nat) (n : Z) (b : buf) : Prop :=
  length b = L /\ forall i, n <= i -> nth (Z.to_nat i) b None = None.

Lemma blank_new L n : blank L n (new_buf L).
Proof. split; [apply repeat_length|]. intros i _. apply nth_repeat. Qed.
Lemma blank_mono L n m b : n <= m -> blank L n b -> blank L m b.
Proof. intros H [A B]. split; [exact A|]. intros i Hi. apply B. lia. Qed.

Lemma nth_set_other {A} (l : list A) i j x d : i <> j -> nth j (set_nth l i x) d = nth j l d.
Proof.
  revert i j. induction l as [|y l IH]; intros i j N; [reflexivity|].
  destruct i, j; cbn; try reflexivity; [now destruct N|]. apply IH. congruence.
Qed.
Lemma nth_set_same {A} (l : list A) i x d : (i < length l)%nat -> nth i (set_nth l i x) d = x.
Proof. revert i. induction l as [|y l IH]; intros [|i] H; cbn in *; try lia; [reflexivity|]. apply IH. lia. Qed.

Lemma write_blank L n m b i c : blank L n b -> n <= m -> i + 1 <= m ->
  ends (buf_write b i c) (fun b' => blank L m b' /\ 0 <= i).
Proof.
  intros [A B] H1 H2 b' E. unfold buf_write, in_range in E.
  destruct (_ && _) eqn:R; [|discriminate E]. injection E as <-. split; [|lia].
  split; [now rewrite set_nth_length|]. intros j Hj. rewrite nth_set_other by lia. apply B. lia.
Qed.
Lemma write_read b i c b' : buf_write b i c = Ok b' -> buf_read b' i = Ok c.
Proof.
  unfold buf_write, buf_read, in_range. destruct (_ && _) eqn:R; [|discriminate]. intros [= <-].
  rewrite set_nth_length, R, nth_set_same by lia. reflexivity.
Qed.

(** A cursor after which nothing was written, and one at a terminator. *)
Definition fresh_end (L : nat) (c : cursor) : Prop := 0 <= cpos c /\ blank L (cpos c) (cbuf c).
Definition at_nul (L : nat) (c : cursor) : Prop :=
  0 <= cpos c /\ buf_read (cbuf c) (cpos c) = Ok NUL /\ blank L (cpos c + 1) (cbuf c).

Lemma put_fresh L k c : fresh_end L k -> ends (put k c) (fresh_end L).
Proof.
  intros [A B]. unfold put. eapply ends_bind; [apply (write_blank L _ (cpos k + 1) _ _ _ B); lia|].
  intros b [Hb _]. apply ends_ok. split; cbn; [lia|exact Hb].
Qed.
Lemma terminate L n b i : blank L n b -> n <= i + 1 ->
  ends (let* b' := buf_write b i NUL in Ok (Cursor b' i)) (at_nul L).
Proof.
  intros B H c E. destruct (buf_write b i NUL) as [b'| | |] eqn:W; try discriminate E. injection E as <-.
  destruct (write_blank L n (i + 1) b i NUL B ltac:(lia) ltac:(lia) b' W) as [W1 W2].
  split; [exact W2|]. split; [exact (write_read _ _ _ _ W)|exact W1].
Qed.

Lemma put_digit_fresh L k i : fresh_end L k -> ends (put_digit k i) (fresh_end L).
Proof. intros H. unfold put_digit. eapply ends_bind; [apply ends_any|]. intros d _. now apply put_fresh. Qed.
Lemma put_digit_if_fresh L p k i : fresh_end L k -> ends (put_digit_if p k i) (fresh_end L).
Proof. intros H. unfold put_digit_if. destruct p; [now apply put_digit_fresh|]. now apply ends_ok. Qed.

Ltac puts := repeat first
  [ assumption
  | match goal with
    | |- ends (if ?b then _ else _) _ => destruct b
    | |- ends (put _ _) _ => apply put_fresh
    | |- ends (put_digit _ _) _ => apply put_digit_fresh
    | |- ends (put_digit_if _ _ _) _ => apply put_digit_if_fresh
    | |- ends (bind _ _) ?Q => eapply (ends_bind _ _ Q); [|intros ? ?]
    | |- ends (let _ := _ in _) _ => cbv zeta
    end].
Lemma u32toa_fresh L v k : fresh_end L k -> ends (u32toa v k) (fresh_end L).
Proof. intros H. unfold u32toa. puts. Qed.
Lemma i32toa_fresh L v k : fresh_end L k -> ends (i32toa v k) (fresh_end L).
Proof. intros H. unfold i32toa. puts; now apply u32toa_fresh. Qed.
Lemma u64toa_fresh L v k : fresh_end L k -> ends (u64toa v k) (fresh_end L).
Proof. intros H. unfold u64toa. puts. Qed.
Lemma i64toa_fresh L v k : fresh_end L k -> ends (i64toa v k) (fresh_end L).
Proof. intros H. unfold i64toa. puts; now apply u64toa_fresh. Qed.

Definition int_end (o : FormatInt) : Prop := at_nul INTEGER_SIZE (Cursor (fi_buffer o) (fi_last o)).
Lemma body_end x v : (forall k, fresh_end INTEGER_SIZE k -> ends (x v k) (fresh_end INTEGER_SIZE)) -> ends (FormatInt_body x v) int_end.
Proof.
  intros H. unfold FormatInt_body. eapply ends_bind.
  { apply H. split; cbn; [lia|apply blank_new]. }
  intros k [K1 K2] o E. destruct (buf_write _ _ _) as [b| | |] eqn:W; try discriminate E. injection E as <-.
  apply (terminate INTEGER_SIZE (cpos k) (cbuf k) (cpos k) K2 ltac:(lia)). cbn [fi_buffer fi_last]. now rewrite W.
Qed.
Lemma int_ends p t v : ends (FormatInt_new p t v) int_end.
Proof.
  unfold FormatInt_new. destruct t; try destruct (sys64 p); apply body_end; intros k;
    first [apply i32toa_fresh|apply u32toa_fresh|apply i64toa_fresh|apply u64toa_fresh].
Qed.

(** ** Floating point numbers *)
Lemma decrement_blank L n b i : blank L n b -> i < n -> ends (buf_decrement b i) (blank L n).
Proof.
  intros B H. unfold buf_decrement. eapply ends_bind; [apply ends_any|]. intros c _ b' E.
  exact (proj1 (write_blank L n n b i _ B ltac:(lia) ltac:(lia) b' E)).
Qed.
Lemma round_blank fuel : forall L n b base len delta rest tk w, blank L n b -> base + len <= n ->
  ends (grisuRound fuel b base len delta rest tk w) (blank L n).
Proof.
  induction fuel as [|fuel IH]; intros L n b base len delta rest tk w B H; cbn [grisuRound];
    destruct (grisuRound_continue _ _ _ _); try (now apply ends_ok).
  - intros x [=].
  - eapply ends_bind; [apply (decrement_blank L n _ _ B); lia|]. intros b' B'. now apply IH.
Qed.
Lemma push_blank L b base len d : blank L (base + len) b -> 0 <= len ->
  ends (push_digit b base len d) (fun r => blank L (base + snd r) (fst r) /\ 0 <= snd r).
Proof.
  intros B H. unfold push_digit. destruct (_ || _); [|now apply ends_ok].
  eapply ends_bind; [apply (write_blank L _ (base + (len + 1)) _ _ _ B); lia|]. intros b' [B' _].
  apply ends_ok. cbn. split; [exact B'|lia].
Qed.
Definition loop_end L base (r : first_loop) : Prop :=
  match r with Done b len _ | Continue b len => blank L (base + len) b /\ 0 <= len end.
Lemma integral_blank pol kappa : forall L s p1 p2 delta w b base len, blank L (base + len) b -> 0 <= len ->
  ends (generate_integral pol kappa s p1 p2 delta w b base len) (loop_end L base).
Proof.
  induction kappa as [|kappa IH]; intros L s p1 p2 delta w b base len B H; cbn [generate_integral].
  - apply ends_ok. now split.
  - destruct (switch_divisor _); [|apply ends_ub].
    eapply ends_bind; [exact (push_blank L _ _ _ _ B H)|]. intros [b' len'] [B' H']. cbn in B', H'.
    eapply ends_bind; [apply ends_any|]. intros hi _. cbv zeta. destruct (_ <=? _); [|now apply IH].
    eapply ends_bind; [apply ends_any|]. intros p _. eapply ends_bind; [apply ends_any|]. intros tk _.
    eapply ends_bind; [apply (round_blank _ L _ _ _ _ _ _ _ _ B'); lia|]. intros b2 B2. apply ends_ok. now split.
Qed.
Lemma fraction_blank pol cs fuel : forall L s one p2 delta kappa w b base len, blank L (base + len) b -> 0 <= len ->
  ends (generate_fraction pol cs fuel s one p2 delta kappa w b base len)
       (fun r => blank L (base + snd (fst r)) (fst (fst r)) /\ 0 <= snd (fst r)).
Proof.
  induction fuel as [|fuel IH]; intros L s one p2 delta kappa w b base len B H; cbn [generate_fraction]; [intros x [=]|].
  cbv zeta. eapply ends_bind; [apply ends_any|]. intros d _.
  eapply ends_bind; [exact (push_blank L _ _ _ _ B H)|]. intros [b' len'] [B' H']. cbn in B', H'.
  destruct (_ <? _); [|now apply IH]. eapply ends_bind; [apply ends_any|]. intros p _.
  eapply ends_bind; [apply (round_blank _ L _ _ _ _ _ _ _ _ B'); lia|]. intros b2 B2. apply ends_ok. now split.
Qed.
Lemma digits_blank pol cs W Mp delta L b base k : blank L base b ->
  ends (generateDigits pol cs W Mp delta b base k) (fun r => blank L (base + snd (fst r)) (fst (fst r)) /\ 0 <= snd (fst r)).
Proof.
  intros B. unfold generateDigits. cbv zeta. eapply ends_bind; [apply ends_any|]. intros one _.
  eapply ends_bind; [apply ends_any|]. intros hi _.
  eapply ends_bind; [apply (integral_blank _ _ L); [rewrite Z.add_0_r; exact B|lia]|].
  intros [b' len kp|b' len] [B' H']; [apply ends_ok; now split|].
  eapply ends_bind; [exact (fraction_blank _ _ _ L _ _ _ _ _ _ _ _ _ B' H')|]. intros [[b2 l2] kp] [B2 H2]. apply ends_ok. now split.
Qed.
Lemma grisu_blank tc u L b base : blank L base b ->
  ends (grisu2 tc u b base) (fun r => blank L (base + snd (fst r)) (fst (fst r)) /\ 0 <= snd (fst r)).
Proof.
  intros B. unfold grisu2. cbv zeta.
  repeat first [now apply digits_blank
    | match goal with |- ends (bind _ _) _ => eapply ends_bind; [apply ends_any|]; intros ? _ end
    | match goal with |- ends (let '(_, _) := ?x in _) _ => destruct x end].
Qed.

Lemma zeros_blank n : forall L m b i, blank L m b -> 0 <= i -> i + Z.of_nat n <= m -> ends (fill_zeros b i n) (blank L m).
Proof.
  induction n as [|n IH]; intros L m b i B H0 H; cbn [fill_zeros]; [now apply ends_ok|].
  eapply ends_bind; [apply (write_blank L m m _ _ _ B); lia|]. intros b' [B' _]. apply IH; [exact B'|lia|lia].
Qed.
Lemma memmove_blank L n m b dst src len : blank L n b -> n <= m -> dst + len <= m ->
  ends (buf_memmove b dst src len) (blank L m).
Proof.
  intros [A B] H1 H2 b' E. unfold buf_memmove in E. cbv zeta in E. destruct (_ && _) eqn:R; [|discriminate E].
  injection E as <-. rewrite !andb_true_iff, !Z.leb_le in R. destruct R as ((((R1 & R2) & R3) & R4) & R5).
  assert (E1 : length (firstn (Z.to_nat dst) b) = Z.to_nat dst) by (apply firstn_length_le; lia).
  assert (E2 : length (firstn (Z.to_nat len) (skipn (Z.to_nat src) b)) = Z.to_nat len)
    by (apply firstn_length_le; rewrite skipn_length; lia).
  split.
  - rewrite !app_length, E1, E2, skipn_length. lia.
  - intros i Hi. rewrite app_nth2; rewrite E1; [|lia]. rewrite app_nth2; rewrite E2; [|lia].
    rewrite <- (firstn_skipn (Z.to_nat (dst + len)) b) in B. specialize (B i ltac:(lia)).
    assert (E3 : length (firstn (Z.to_nat (dst + len)) b) = Z.to_nat (dst + len)) by (apply firstn_length_le; lia).
    rewrite app_nth2, E3 in B by (rewrite E3; lia).
    replace (Z.to_nat i - Z.to_nat dst - Z.to_nat len)%nat with (Z.to_nat i - Z.to_nat (dst + len))%nat by lia. exact B.
Qed.
Lemma exponent_end L k c : fresh_end L c -> ends (writeExponent k c) (at_nul L).
Proof.
  assert (P : forall c j, fresh_end L c -> ends (put_pair c j) (fresh_end L)).
  { intros c0 j H. unfold put_pair. do 2 (eapply ends_bind; [apply ends_any|]; intros ? _).
    eapply (ends_bind _ _ (fresh_end L)); [now apply put_fresh|]. intros y Hy. now apply put_fresh. }
  intros H. unfold writeExponent. eapply (ends_bind _ _ (fun r => fresh_end L (fst r))).
  { destruct (k <? 0); [|now apply ends_ok]. eapply (ends_bind _ _ (fresh_end L)); [now apply put_fresh|].
    intros x Hx. now apply ends_ok. }
  intros [c1 k1] H1. cbn in H1. eapply (ends_bind _ _ (fresh_end L)).
  { destruct (_ >=? 100); [|destruct (_ >=? 10)]; [|now apply P|now apply put_fresh].
    eapply (ends_bind _ _ (fresh_end L)); [now apply put_fresh|]. intros x Hx. now apply P. }
  intros c2 [H2 H3]. apply (terminate L (cpos c2)); [exact H3|lia].
Qed.
Lemma prettify_end L b base len k : 0 <= base -> 0 <= len -> blank L (base + len) b -> ends (prettify b base len k) (at_nul L).
Proof.
  intros Hb Hl B. unfold prettify. cbv zeta. set (kk := len + k).
  destruct ((len <=? kk) && (kk <=? 21)) eqn:C1; [|destruct ((0 <? kk) && (kk <=? 21)) eqn:C2; [|destruct ((-6 <? kk) && (kk <=? 0)) eqn:C3;
    [|destruct (Z.eqb_spec len 1) as [C4|C4]]]].
  - eapply ends_bind; [apply (zeros_blank _ L (base + kk)); [apply (blank_mono L (base + len)); [lia|exact B]|lia|lia]|]. intros b1 B1.
    eapply ends_bind; [apply (write_blank L _ (base + kk + 1) _ _ _ B1); lia|]. intros b2 [B2 _].
    eapply ends_bind; [apply (write_blank L _ (base + kk + 2) _ _ _ B2); lia|]. intros b3 [B3 _].
    apply (terminate L (base + kk + 2)); [exact B3|lia].
  - eapply ends_bind; [apply (memmove_blank L _ (base + len + 1) _ _ _ _ B); lia|]. intros b1 B1.
    eapply ends_bind; [apply (write_blank L _ (base + len + 1) _ _ _ B1); lia|]. intros b2 [B2 _].
    apply (terminate L (base + len + 1)); [exact B2|lia].
  - eapply ends_bind; [apply (memmove_blank L _ (base + len + (2 - kk)) _ _ _ _ B); lia|]. intros b1 B1.
    eapply ends_bind; [apply (write_blank L _ (base + len + (2 - kk)) _ _ _ B1); lia|]. intros b2 [B2 _].
    eapply ends_bind; [apply (write_blank L _ (base + len + (2 - kk)) _ _ _ B2); lia|]. intros b3 [B3 _].
    eapply ends_bind; [apply (zeros_blank _ L (base + len + (2 - kk)) _ _ B3); lia|]. intros b4 B4.
    apply (terminate L (base + len + (2 - kk))); [exact B4|lia].
  - eapply ends_bind; [apply (write_blank L _ (base + 2) _ _ _ B); lia|]. intros b1 [B1 _].
    apply exponent_end. split; cbn; [lia|exact B1].
  - destruct (Z.eq_dec len 0) as [->|N].
    { intros x E. unfold buf_memmove in E. cbn in E. discriminate E. }
    eapply ends_bind; [apply (memmove_blank L _ (base + len + 1) _ _ _ _ B); lia|]. intros b1 B1.
    eapply ends_bind; [apply (write_blank L _ (base + len + 1) _ _ _ B1); lia|]. intros b2 [B2 _].
    eapply ends_bind; [apply (write_blank L _ (base + len + 2) _ _ _ B2); lia|]. intros b3 [B3 _].
    apply exponent_end. split; cbn [cpos cbuf]; [lia|]. apply (blank_mono _ (base + len + 2)); [lia|exact B3].
Qed.
Lemma dtoa_end L tc u c : fresh_end L c -> ends (dtoa tc u c) (at_nul L).
Proof.
  intros H. unfold dtoa. destruct (double_is_zero u).
  - do 3 (eapply (ends_bind _ _ (fresh_end L)); [now apply put_fresh|]; clear H; intros ? H).
    destruct H as [H1 H2]. apply (terminate L (cpos x1)); [exact H2|lia].
  - eapply (ends_bind _ _ (fun r => fresh_end L (fst r))).
    { destruct (double_is_negative u); [|now apply ends_ok]. eapply (ends_bind _ _ (fresh_end L)); [now apply put_fresh|].
      intros x Hx. now apply ends_ok. }
    intros [c1 v] [H1 H2]. cbn [fst] in H1, H2. eapply ends_bind; [apply grisu_blank; exact H2|].
    intros [[b len] k] [B1 B2]. now apply prettify_end.
Qed.
Lemma list_blank L l : forall n b i, blank L n b -> n <= i -> 0 <= i -> ends (buf_write_list b i l) (blank L (i + Z.of_nat (length l))).
Proof.
  induction l as [|c l IH]; intros n b i B H H0; cbn [buf_write_list length].
  - apply ends_ok. apply (blank_mono _ n); [lia|exact B].
  - eapply ends_bind; [apply (write_blank L _ (i + 1) _ _ _ B); lia|]. intros b' [B' _].
    replace (i + Z.of_nat (S (length l))) with (i + 1 + Z.of_nat (length l)) by lia. apply (IH (i + 1)); [exact B'|lia|lia].
Qed.
Lemma write_list_app b i l r : buf_write_list b i (l ++ r) = let* b' := buf_write_list b i l in buf_write_list b' (i + Z.of_nat (length l)) r.
Proof.
  revert b i. induction l as [|c l IH]; intros b i; cbn [buf_write_list app length].
  - cbn. now rewrite Z.add_0_r.
  - destruct (buf_write b i c); cbn [bind]; try reflexivity. rewrite IH.
    replace (i + Z.of_nat (S (length l))) with (i + 1 + Z.of_nat (length l)) by lia. reflexivity.
Qed.
Definition float_end (o : FormatFloat) : Prop := at_nul FLOAT_SIZE (Cursor (ff_buffer o) (ff_last o)).
Lemma special_end s : ends (special s) float_end.
Proof.
  intros o E. unfold special, buf_strncpy_literal in E. rewrite write_list_app in E.
  destruct (buf_write_list (new_buf FLOAT_SIZE) 0 s) as [b| | |] eqn:W; try discriminate E. cbn [bind] in E.
  pose proof (list_blank FLOAT_SIZE s 0 _ 0 (blank_new _ _) ltac:(lia) ltac:(lia) b W) as B.
  cbn [buf_write_list] in E. destruct (buf_write b _ NUL) as [b'| | |] eqn:W'; try discriminate E. injection E as <-.
  apply (terminate FLOAT_SIZE _ b (0 + Z.of_nat (length s)) B ltac:(lia)). cbn [bind ff_buffer ff_last]. now rewrite W'.
Qed.
Lemma bits_end env u : ends (format_bits env u) float_end.
Proof.
  unfold format_bits. repeat match goal with |- ends (if ?b then _ else _) _ => destruct b end; try apply special_end.
  eapply ends_bind; [apply (dtoa_end FLOAT_SIZE); split; cbn; [lia|apply blank_new]|]. intros c H. now apply ends_ok.
Qed.

Definition capacity (c : class) : nat := match c with CFloat => FLOAT_SIZE | _ => INTEGER_SIZE end.
Lemma number_end e v f : Format e v = Ok f -> ~ self_contained v -> forall r,
  exists c b z, new_object r f = ONumber c b (Ptr r 0) (Ptr r z) /\ at_nul (capacity c) (Cursor b z).
Proof.
  intros H N r. destruct (first_zero e v f H N r) as (c & b & z & A & _ & _). exists c, b, z. split; [exact A|].
  destruct v; cbn [Format] in H; try discriminate H; try (exfalso; exact (N Logic.I));
    match type of H with bind ?m _ = _ => destruct m as [o| | |] eqn:E; try discriminate H end;
    injection H as <-; injection A as <- <- _ <-.
  all: try exact (int_ends _ _ _ o E). all: exact (bits_end _ _ o E).
Qed.

(** ** Reading on *)
Lemma read_n_app b n : forall i m, buf_read_n b i (n + m) =
  let* s := buf_read_n b i n in let* t := buf_read_n b (i + Z.of_nat n) m in Ok (s ++ t).
Proof.
  induction n as [|n IH]; intros i m.
  - cbn. rewrite Z.add_0_r. now destruct (buf_read_n b i m).
  - cbn [Nat.add buf_read_n]. destruct (buf_read b i); cbn [bind]; try reflexivity. rewrite IH.
    replace (i + Z.of_nat (S n)) with (i + 1 + Z.of_nat n) by lia.
    destruct (buf_read_n b (i + 1) n); cbn [bind]; try reflexivity.
    now destruct (buf_read_n b (i + 1 + Z.of_nat n) m).
Qed.
Lemma changed_exactly e h st i r v w s t : run e h = Ok st -> stands_for h i = Some v -> ~ self_contained v ->
  origin h i = Some r -> stands_for h r = Some w -> text_of e v s -> text_of e w t ->
  object_string st i =
    if (length s <=? length t)%nat then Ok (firstn (length s) t)
    else if (length s =? S (length t))%nat then Ok (t ++ [NUL])
    else UB "read of an indeterminate byte".
Proof.
  intros R Si C O Sr Tv Tw. destruct (Nat.leb_spec (length s) (length t)) as [L|L].
  { eapply changed_string; eauto. }
  destruct Tv as (f & Ef & Es). destruct Tw as (g & Eg & Et).
  pose proof (same_class e h st i r v w R Si O Sr) as Q.
  assert (C' : ~ self_contained w) by (destruct v, w; cbn in *; try discriminate Q; tauto).
  pose proof (run_inv e h st R i) as I. rewrite Si in I.
  destruct I as (f' & r' & Ef' & O' & E). rewrite Ef in Ef'. injection Ef' as <-. rewrite O in O'. injection O' as <-.
  pose proof (run_inv e h st R r) as J. rewrite Sr in J. destruct J as (g' & q & Eg' & _ & E'). rewrite Eg in Eg'. injection Eg' as <-.
  destruct (first_zero e v f Ef C r) as (c & b & z & N1 & N2 & N3).
  destruct (first_zero e w g Eg C' q) as (c' & b' & z' & N1' & N2' & N3').
  destruct (number_end e v f Ef C r) as (c1 & b1 & z1 & M1 & M2). rewrite N1 in M1. injection M1 as <- <- <-.
  destruct (number_end e w g Eg C' q) as (c2 & b2 & z2 & M1' & M2'). rewrite N1' in M1'. injection M1' as <- <- <-.
  assert (K : capacity c = capacity c').
  { destruct (class_right e v f r Ef) as (k & Q1 & Q2). destruct (class_right e w g q Eg) as (k' & Q3 & Q4).
    rewrite N1 in Q2. rewrite N1' in Q4. cbn in Q2, Q4. rewrite Q1, Q3 in Q. injection Q as <-. congruence. }
  rewrite K in M2. clear K Q.
  unfold object_string. rewrite E, N1, Nat.eqb_refl, E', N1'. cbn [object_buffer].
  rewrite Es in N3. rewrite Et in N3'. symmetry in N3, N3'. pose proof (read_n_length _ _ _ _ N3) as L1.
  pose proof (read_n_length _ _ _ _ N3') as L2. rewrite <- L1.
  destruct M2 as (P1 & P2 & P3 & _). destruct M2' as (P1' & P2' & P3' & P4). cbn [cpos cbuf] in *.
  assert (P5 : z < Z.of_nat (length b)).
  { unfold buf_read, in_range in P2. destruct (_ && _) eqn:X in P2; [lia|discriminate P2]. }
  replace (length s) with (length t + 1 + (length s - S (length t)))%nat at 1 by lia.
  assert (N4 : buf_read_n b' 0 (length t) = Ok t) by (rewrite L2; exact N3').
  rewrite read_n_app, read_n_app, N4. cbn [bind].
  replace (0 + Z.of_nat (length t)) with z' by lia. cbn [buf_read_n]. rewrite P2'. cbn [bind].
  destruct (Nat.eqb_spec (length s) (S (length t))) as [X|X].
  - rewrite X, Nat.sub_diag. cbn [buf_read_n bind]. now rewrite app_nil_r.
  - replace (length s - S (length t))%nat with (S (length s - S (S (length t)))) by lia.
    cbn [buf_read_n]. unfold buf_read, in_range.
    replace ((0 <=? _) && _) with true by (symmetry; apply andb_true_iff; lia).
    rewrite P4 by lia. reflexivity.
Qed.
