(** Lemmas for C107. *)
From Verif Require Import Machine LibMachine SpecApi ModelItoa ModelInt ModelText ModelIeee ModelDiyfp ModelDtoa ModelFloat ModelLexi ModelParallel SpecParallel.

(** ** Running alone *)
Inductive runs {A} : memory -> action A -> nat -> memory -> A -> Prop :=
| runs_return m a : runs m (Return a) 0 m a
| runs_load m o i k n m' a : in_range i (Z.of_nat (length (m o))) = true -> runs m (k (nth (Z.to_nat i) (m o) None)) n m' a -> runs m (Load o i k) (S n) m' a
| runs_store m o i x k n m' a : in_range i (Z.of_nat (length (m o))) = true ->
    runs (set_object m o (set_nth (m o) (Z.to_nat i) x)) k n m' a -> runs m (Store o i x k) (S n) m' a.

Lemma runs_sequence A B (p : action A) (f : A -> action B) m n m' a n' m'' b :
  runs m p n m' a -> runs m' (f a) n' m'' b -> runs m (sequence p f) (n + n') m'' b.
Proof.
  induction 1; intros H1; cbn; [exact H1| |].
  - apply runs_load; auto.
  - apply runs_store; auto.
Qed.

Fixpoint confined {A} (own : Z) (Q : A -> Prop) (p : action A) : Prop :=
  match p with
  | Return a => Q a
  | Stop _ => True
  | Load o _ k => (o = own \/ 0 <= o) /\ forall c, confined own Q (k c)
  | Store o _ _ k => o = own /\ confined own Q k
  end.

Lemma confined_sequence A B own (Q : A -> Prop) (R : B -> Prop) (p : action A) (f : A -> action B) :
  confined own Q p -> (forall a, Q a -> confined own R (f a)) -> confined own R (sequence p f).
Proof.
  induction p as [a|why|o i k IH|o i c k IH]; cbn; intros H F; auto.
  - destruct H as [H K]. split; [exact H|]. intros c. apply IH; auto.
  - destruct H as [H K]. split; auto.
Qed.

Definition agree (own : Z) (m m2 : memory) : Prop := m own = m2 own /\ forall o, 0 <= o -> m o = m2 o.

Lemma agree_runs A own Q (p : action A) m n m' a : runs m p n m' a -> confined own Q p -> own < 0 -> forall m2, agree own m m2 ->
  exists m2', runs m2 p n m2' a.
Proof.
  induction 1; cbn; intros C O m2 G.
  - exists m2. constructor.
  - destruct C as [C K]. assert (E : m o = m2 o) by (destruct C; [subst; exact (proj1 G)|apply (proj2 G); assumption]).
    destruct (IHruns (K _) O m2 G) as [m2' R]. exists m2'. rewrite E in *. apply runs_load; [exact H|exact R].
  - destruct C as [-> K]. assert (E : m own = m2 own) by exact (proj1 G).
    destruct (IHruns K O (set_object m2 own (set_nth (m2 own) (Z.to_nat i) x))) as [m2' R].
    + split; [unfold set_object; rewrite Z.eqb_refl, E; auto|]. intros o Ho. unfold set_object.
      destruct (Z.eqb_spec o own); [lia|]. apply (proj2 G); auto.
    + exists m2'. apply runs_store; [rewrite <- E; exact H|exact R].
Qed.

(** ** One function against the other *)
Section Follow.
Context (e : env) (o : Z) (O : o < 0).
Definition tables (m : memory) : Prop := forall x, 0 <= x < 8 -> m x = constants e x.

Definition follows {A R} (b : buf) (P : action A) (Q : outcome R) (view : R -> buf * A) : Prop :=
  forall r, Q = Ok r -> forall m, tables m -> m o = b ->
  exists n m', runs m P n m' (snd (view r)) /\ m' o = fst (view r) /\ (forall o', o' <> o -> m' o' = m o').

Lemma follows_bind A R A' R' b (P : action A) (Q : outcome R) view (F : A -> action A') (G : R -> outcome R') view' :
  follows b P Q view -> (forall r, follows (fst (view r)) (F (snd (view r))) (G r) view') ->
  follows b (sequence P F) (bind Q G) view'.
Proof using O.
  intros H1 H2 k E m T M. destruct Q as [k1| | |]; try discriminate.
  destruct (H1 k1 eq_refl m T M) as (n & m1 & R1 & B & K).
  destruct (H2 k1 k E m1) as (n2 & m2 & R2 & B2 & K2).
  - intros x X. rewrite K by lia. apply T; lia.
  - exact B.
  - exists (n + n2)%nat, m2. split; [eapply runs_sequence; eauto|]. split; [auto|]. intros o' Ho. rewrite K2, K; auto.
Qed.

Lemma follows_return A R b (a : A) (r : R) view : view r = (b, a) -> follows b (Return a) (Ok r) view.
Proof using O. intros V k E m T M. injection E as <-. rewrite V. cbn. exists 0%nat, m. repeat split; auto. constructor. Qed.

Definition lifted {A} (b : buf) (a : A) : buf * A := (b, a).
Lemma follows_lift A b (Q : outcome A) : follows b (lift Q) Q (lifted b).
Proof using O. intros r -> m T M. exists 0%nat, m. repeat split; auto. constructor. Qed.

Definition of_buf (b : buf) : buf * unit := (b, tt).
Lemma follows_set b i c : follows b (t_set o i c) (buf_write b i c) of_buf.
Proof using O.
  intros r E m T M. unfold buf_write in E. destruct (in_range i (Z.of_nat (length b))) eqn:I; [|discriminate]. injection E as <-.
  exists 1%nat, (set_object m o (set_nth (m o) (Z.to_nat i) (Some c))). split; [apply runs_store; [rewrite M; exact I|constructor]|].
  split; [unfold set_object; rewrite Z.eqb_refl, M; reflexivity|].
  intros o' Ho. unfold set_object. destruct (Z.eqb_spec o' o); [contradiction|reflexivity].
Qed.

Lemma follows_get b i : follows b (t_get o i) (buf_read b i) (lifted b).
Proof using O.
  intros r E m T M. unfold buf_read in E. destruct (in_range i (Z.of_nat (length b))) eqn:I; [|discriminate].
  destruct (nth (Z.to_nat i) b None) as [c|] eqn:N; [|discriminate]. injection E as <-.
  exists 1%nat, m. split; [|auto]. apply runs_load; [rewrite M; exact I|]. rewrite M, N. constructor.
Qed.

(** A load of a constant. *)
Lemma follows_constant b x i (Q : outcome ascii) : 0 <= x < 8 -> (forall c, Q = Ok c -> buf_read (constants e x) i = Ok c) ->
  follows b (t_get x i) Q (lifted b).
Proof using O.
  intros X H c E m T M. specialize (H c E). rewrite <- (T x X) in H. unfold buf_read in H.
  destruct (in_range i (Z.of_nat (length (m x)))) eqn:I; [|discriminate].
  destruct (nth (Z.to_nat i) (m x) None) as [c'|] eqn:N; [|discriminate]. injection H as <-.
  exists 1%nat, m. split; [|auto]. apply runs_load; [exact I|]. rewrite N. constructor.
Qed.

Definition of_cursor (k : cursor) : buf * place := (cbuf k, (o, cpos k)).
Lemma follows_put k c : follows (cbuf k) (t_put (o, cpos k) c) (put k c) of_cursor.
Proof using O. unfold t_put, put. cbn [fst snd]. eapply follows_bind; [apply follows_set|]. intros b. apply follows_return. reflexivity. Qed.

Lemma read_table (s : bytes) i c : buf_read (map Some s) i = Ok c <-> in_range i (Z.of_nat (length s)) = true /\ nth_error s (Z.to_nat i) = Some c.
Proof.
  unfold buf_read. rewrite map_length. destruct (in_range i (Z.of_nat (length s))) eqn:I; [|split; [discriminate|intros []; discriminate]].
  destruct (nth_error s (Z.to_nat i)) as [c'|] eqn:E.
  - rewrite (nth_error_nth (map Some s) _ None (x := Some c')); [|apply map_nth_error; exact E]. split; [intros H; injection H as <-; auto|intros [_ H]; injection H as <-; auto].
  - rewrite nth_overflow; [|rewrite map_length; apply nth_error_None; exact E]. split; [discriminate|intros []; discriminate].
Qed.

Lemma follows_put_digit k i : follows (cbuf k) (t_put_digit (o, cpos k) i) (put_digit k i) of_cursor.
Proof using O.
  unfold t_put_digit, put_digit. eapply follows_bind.
  - apply follows_constant; [unfold DIGITS_OBJECT; lia|]. intros c H. change (constants e DIGITS_OBJECT) with (map Some DIGITS_TABLE).
    apply read_table. unfold digits_at in H. destruct (in_range i (Z.of_nat (length DIGITS_TABLE))); [|discriminate].
    destruct (nth_error DIGITS_TABLE (Z.to_nat i)); [|discriminate]. injection H as ->. auto.
  - intros c. apply follows_put.
Qed.

Lemma follows_put_digit_if k x i : follows (cbuf k) (t_put_digit_if x (o, cpos k) i) (put_digit_if x k i) of_cursor.
Proof using O. unfold t_put_digit_if, put_digit_if. destruct x; [apply follows_put_digit|]. apply follows_return. reflexivity. Qed.

Ltac follow :=
  cbv zeta;
  repeat lazymatch goal with
    | |- follows _ (t_put _ _) _ _ => apply follows_put
    | |- follows _ (t_put_digit _ _) _ _ => apply follows_put_digit
    | |- follows _ (t_put_digit_if _ _ _) _ _ => apply follows_put_digit_if
    | |- follows _ (if ?c then _ else _) (if ?c then _ else _) _ => destruct c
    | |- follows _ (sequence _ _) (bind _ _) _ => apply follows_bind with (view := of_cursor); [|intros ?; cbn [of_cursor fst snd]]
    end.

Lemma follows_u32toa k v : follows (cbuf k) (t_u32toa v (o, cpos k)) (u32toa v k) of_cursor.
Proof using O. unfold t_u32toa, u32toa. follow. Qed.
Lemma follows_u64toa k v : follows (cbuf k) (t_u64toa v (o, cpos k)) (u64toa v k) of_cursor.
Proof using O. unfold t_u64toa, u64toa. follow. Qed.
Lemma follows_i32toa k v : follows (cbuf k) (t_i32toa v (o, cpos k)) (i32toa v k) of_cursor.
Proof using O. unfold t_i32toa, i32toa. follow; apply follows_u32toa. Qed.
Lemma follows_i64toa k v : follows (cbuf k) (t_i64toa v (o, cpos k)) (i64toa v k) of_cursor.
Proof using O. unfold t_i64toa, i64toa. follow; apply follows_u64toa. Qed.

(** ** int.cpp *)
Definition of_int (f : FormatInt) : buf * Z := (fi_buffer f, fi_last f).
Lemma follows_body xtoa xtoa' v : (forall k, follows (cbuf k) (xtoa' v (o, cpos k)) (xtoa v k) of_cursor) ->
  follows (new_buf INTEGER_SIZE) (t_FormatInt_body o xtoa' v) (FormatInt_body xtoa v) of_int.
Proof using O.
  intros H. unfold t_FormatInt_body, FormatInt_body. eapply follows_bind; [apply (H (Cursor (new_buf INTEGER_SIZE) 0))|].
  intros k. cbn [of_cursor fst snd]. eapply follows_bind; [apply follows_set|]. intros b. apply follows_return. reflexivity.
Qed.

Lemma follows_int p t v : follows (new_buf INTEGER_SIZE) (t_FormatInt_new p o t v) (FormatInt_new p t v) of_int.
Proof using O.
  unfold t_FormatInt_new, FormatInt_new. destruct t; try destruct (sys64 p); apply follows_body; intros k;
    lazymatch goal with
    | |- follows _ (t_i32toa _ _) _ _ => apply follows_i32toa
    | |- follows _ (t_u32toa _ _) _ _ => apply follows_u32toa
    | |- follows _ (t_i64toa _ _) _ _ => apply follows_i64toa
    | |- follows _ (t_u64toa _ _) _ _ => apply follows_u64toa
    end.
Qed.

(** ** Literals *)
Lemma follows_strncpy x s : 0 <= x < 8 -> constants e x = map Some (s ++ [NUL]) -> forall r pre b, s ++ [NUL] = pre ++ r ->
  follows b (t_strncpy o x (Z.of_nat (length pre)) (length r)) (buf_write_list b (Z.of_nat (length pre)) r) of_buf.
Proof using O.
  intros X E r. induction r as [|c r IH]; intros pre b S; cbn [t_strncpy length buf_write_list].
  - apply follows_return. reflexivity.
  - change (buf_write b (Z.of_nat (length pre)) c) with (bind (Ok c) (fun c => buf_write b (Z.of_nat (length pre)) c)).
    assert (F : follows b (sequence (t_get x (Z.of_nat (length pre))) (fun c0 => sequence (t_set o (Z.of_nat (length pre)) c0) (fun _ => t_strncpy o x (Z.of_nat (length pre) + 1) (length r))))
       (bind (Ok c) (fun c => bind (buf_write b (Z.of_nat (length pre)) c) (fun b => buf_write_list b (Z.of_nat (length pre) + 1) r))) of_buf).
    { eapply follows_bind; [apply follows_constant; [exact X|]|].
      - intros c' H. injection H as <-. rewrite E. apply read_table. rewrite S. split.
        + unfold in_range. apply andb_true_iff. rewrite app_length. cbn [length]. split; [apply Z.leb_le|apply Z.ltb_lt]; lia.
        + rewrite Nat2Z.id, nth_error_app2, Nat.sub_diag by lia. reflexivity.
      - intros c'. cbn [lifted fst snd]. eapply follows_bind; [apply follows_set|]. intros b'. cbn [of_buf fst snd].
        replace (Z.of_nat (length pre) + 1) with (Z.of_nat (length (pre ++ [c]))) by (rewrite app_length; cbn [length]; lia).
        apply IH. rewrite S, <- app_assoc. reflexivity. }
    exact F.
Qed.

Lemma follows_literal x s b : 0 <= x < 8 -> constants e x = map Some (s ++ [NUL]) ->
  follows b (t_literal o x s) (buf_strncpy_literal b 0 s) of_buf.
Proof using O.
  intros X E. unfold t_literal, buf_strncpy_literal. replace (S (length s)) with (length (s ++ [NUL])) by (rewrite app_length; cbn; lia).
  exact (follows_strncpy x s X E (s ++ [NUL]) [] b eq_refl).
Qed.

Definition of_text (f : FormatText) : buf * Z := (ft_buffer f, ft_size f).
Lemma follows_bool b : follows (new_buf 6) (t_FormatBool (e_lit e) o b) (FormatBool_new (e_lit e) b) of_text.
Proof using O.
  unfold t_FormatBool, FormatBool_new. destruct b; (eapply follows_bind; [apply follows_literal; [vm_compute; intuition discriminate|reflexivity]|]);
    intros; apply follows_return; reflexivity.
Qed.
Lemma follows_null : follows (new_buf 5) (t_FormatNull (e_lit e) o) (FormatNull_new (e_lit e)) of_text.
Proof using O.
  unfold t_FormatNull, FormatNull_new. eapply follows_bind; [apply follows_literal; [vm_compute; intuition discriminate|reflexivity]|].
  intros; apply follows_return; reflexivity.
Qed.
Lemma follows_char c : follows (new_buf 2) (t_FormatChar o c) (FormatChar_new c) of_text.
Proof using O.
  unfold t_FormatChar, FormatChar_new. eapply follows_bind; [apply follows_set|]. intros b. cbn [of_buf fst snd].
  eapply follows_bind; [apply follows_set|]. intros b'. apply follows_return; reflexivity.
Qed.

(** ** dtoa.cpp *)
Lemma follows_undefined A R b (P : action A) (Q : outcome R) view : (forall r, Q <> Ok r) -> follows b P Q view.
Proof using O. intros H r E. destruct (H r E). Qed.

Lemma follows_decrement b i : follows b (t_decrement o i) (buf_decrement b i) of_buf.
Proof using O. unfold t_decrement, buf_decrement. eapply follows_bind; [apply follows_get|]. intros c. apply follows_set. Qed.

Lemma follows_round fuel : forall b base len delta rest ten_kappa wp_w,
  follows b (t_grisuRound fuel o base len delta rest ten_kappa wp_w) (grisuRound fuel b base len delta rest ten_kappa wp_w) of_buf.
Proof using O.
  induction fuel as [|fuel IH]; intros; cbn [t_grisuRound grisuRound]; destruct (grisuRound_continue _ _ _ _);
    try (apply follows_return; reflexivity).
  - apply follows_undefined. discriminate.
  - eapply follows_bind; [apply follows_decrement|]. intros b'. apply IH.
Qed.

Definition of_pair (r : buf * Z) : buf * Z := r.
Lemma follows_push b base len d : follows b (t_push_digit o base len d) (push_digit b base len d) of_pair.
Proof using O.
  unfold t_push_digit, push_digit. destruct (negb (d =? 0) || negb (len =? 0)).
  - eapply follows_bind; [apply follows_set|]. intros b'. apply follows_return. reflexivity.
  - apply follows_return. reflexivity.
Qed.

Definition of_loop (r : first_loop) : buf * t_first_loop :=
  match r with Done b len kappa => (b, TDone len kappa) | Continue b len => (b, TContinue len) end.
Lemma follows_integral pol kappa : forall s p1 p2 delta wp_w b base len,
  follows b (t_generate_integral pol kappa s p1 p2 delta wp_w o base len) (generate_integral pol kappa s p1 p2 delta wp_w b base len) of_loop.
Proof using O.
  induction kappa as [|kappa IH]; intros; cbn [t_generate_integral generate_integral].
  - apply follows_return. reflexivity.
  - destruct (switch_divisor (Z.of_nat (S kappa))) as [q|]; [|apply follows_undefined; discriminate].
    cbv zeta. eapply follows_bind; [apply follows_push|]. intros [b1 len1]. cbn [of_pair fst snd].
    eapply follows_bind; [apply follows_lift|]. intros hi. cbn [lifted fst snd].
    destruct (u64 (hi + p2) <=? delta).
    + eapply follows_bind; [apply follows_lift|]. intros pw. cbn [lifted fst snd].
      eapply follows_bind; [apply follows_lift|]. intros tk. cbn [lifted fst snd].
      eapply follows_bind; [apply follows_round|]. intros b2. cbn [of_buf fst snd]. apply follows_return. reflexivity.
    + apply IH.
Qed.

Definition of_triple (r : buf * Z * Z) : buf * (Z * Z) := let '(b, len, k) := r in (b, (len, k)).
Lemma follows_fraction pol cs fuel : forall s one p2 delta kappa wp_w b base len,
  follows b (t_generate_fraction pol cs fuel s one p2 delta kappa wp_w o base len)
    (generate_fraction pol cs fuel s one p2 delta kappa wp_w b base len) of_triple.
Proof using O.
  induction fuel as [|fuel IH]; intros; cbn [t_generate_fraction generate_fraction].
  - apply follows_undefined. discriminate.
  - cbv zeta. eapply follows_bind; [apply follows_lift|]. intros d. cbn [lifted fst snd].
    eapply follows_bind; [apply follows_push|]. intros [b1 len1]. cbn [of_pair fst snd].
    match goal with |- follows _ (if ?c then _ else _) _ _ => destruct c end.
    + eapply follows_bind; [apply follows_lift|]. intros pw. cbn [lifted fst snd].
      eapply follows_bind; [apply follows_round|]. intros b2. cbn [of_buf fst snd]. apply follows_return. reflexivity.
    + apply IH.
Qed.

Lemma follows_generate pol cs W Mp delta b base k :
  follows b (t_generateDigits pol cs W Mp delta o base k) (generateDigits pol cs W Mp delta b base k) of_triple.
Proof using O.
  unfold t_generateDigits, generateDigits. cbv zeta.
  eapply follows_bind; [apply follows_lift|]. intros one. cbn [lifted fst snd].
  eapply follows_bind; [apply follows_lift|]. intros hi. cbn [lifted fst snd].
  eapply follows_bind; [apply follows_integral|]. intros [b1 len kappa|b1 len]; cbn [of_loop fst snd].
  - apply follows_return. reflexivity.
  - eapply follows_bind; [apply follows_fraction|]. intros [[b2 len2] k2]. cbn [of_triple fst snd]. apply follows_return. reflexivity.
Qed.

Lemma follows_grisu2 tc v b base : follows b (t_grisu2 tc v o base) (grisu2 tc v b base) of_triple.
Proof using O.
  unfold t_grisu2, grisu2. cbv zeta.
  eapply follows_bind; [apply follows_lift|]. intros [w_m w_p]. cbn [lifted fst snd].
  eapply follows_bind; [apply follows_lift|]. intros [c_mk k]. cbn [lifted fst snd].
  eapply follows_bind; [apply follows_lift|]. intros vn. cbn [lifted fst snd].
  apply follows_generate.
Qed.

Lemma nth_table (t : bytes) i c why : length t = 200%nat -> (if in_range i 200 then Ok (nth (Z.to_nat i) t NUL) else UB why) = Ok c ->
  in_range i (Z.of_nat (length t)) = true /\ nth_error t (Z.to_nat i) = Some c.
Proof.
  intros L H. rewrite L. change (Z.of_nat 200) with 200. destruct (in_range i 200) eqn:I; [|discriminate]. split; [reflexivity|].
  injection H as <-. apply nth_error_nth'. unfold in_range in I. apply andb_true_iff in I. destruct I as [I1 I2].
  apply Z.leb_le in I1. apply Z.ltb_lt in I2. lia.
Qed.
Lemma follows_dtoa_digit b i : follows b (t_get DTOA_DIGITS_OBJECT i) (dtoa_digits_at i) (lifted b).
Proof using O.
  apply follows_constant; [unfold DTOA_DIGITS_OBJECT; lia|]. intros c H.
  replace (constants e DTOA_DIGITS_OBJECT) with (map Some DTOA_DIGITS) by reflexivity.
  apply read_table. unfold dtoa_digits_at in H. revert H. apply nth_table. reflexivity.
Qed.

Lemma follows_put_pair k i : follows (cbuf k) (t_put_pair (o, cpos k) i) (put_pair k i) of_cursor.
Proof using O.
  unfold t_put_pair, put_pair. eapply follows_bind; [apply follows_dtoa_digit|]. intros d0. cbn [lifted fst snd].
  eapply follows_bind; [apply follows_dtoa_digit|]. intros d1. cbn [lifted fst snd].
  eapply follows_bind; [apply follows_put|]. intros k'. apply follows_put.
Qed.

Lemma follows_exponent k c : follows (cbuf c) (t_writeExponent k (o, cpos c)) (writeExponent k c) of_cursor.
Proof using O.
  unfold t_writeExponent, writeExponent.
  apply follows_bind with (view := fun r : cursor * Z => (cbuf (fst r), ((o, cpos (fst r)), snd r))).
  - destruct (k <? 0).
    + eapply follows_bind; [apply follows_put|]. intros c'. apply follows_return. reflexivity.
    + apply follows_return. reflexivity.
  - intros [c1 k1]. cbn [fst snd]. apply follows_bind with (view := of_cursor).
    + destruct (k1 >=? 100); [|destruct (k1 >=? 10)].
      * eapply follows_bind; [apply follows_put|]. intros c2. apply follows_put_pair.
      * apply follows_put_pair.
      * apply follows_put.
    + intros c2. cbn [of_cursor fst snd]. eapply follows_bind; [apply follows_set|]. intros b. apply follows_return. reflexivity.
Qed.

Lemma follows_zeros n : forall b i, follows b (t_fill_zeros o i n) (fill_zeros b i n) of_buf.
Proof using O.
  induction n as [|n IH]; intros; cbn [t_fill_zeros fill_zeros]; [apply follows_return; reflexivity|].
  eapply follows_bind; [apply follows_set|]. intros b'. apply IH.
Qed.

Lemma fetch_runs n : forall m i, 0 <= i -> i + Z.of_nat n <= Z.of_nat (length (m o)) ->
  runs m (t_fetch o i n) n m (firstn n (skipn (Z.to_nat i) (m o))).
Proof using O.
  induction n as [|n IH]; intros m i I L; cbn [t_fetch]; [constructor|].
  apply runs_load; [unfold in_range; apply andb_true_iff; split; [apply Z.leb_le|apply Z.ltb_lt]; lia|].
  assert (E : skipn (Z.to_nat i) (m o) = nth (Z.to_nat i) (m o) None :: skipn (Z.to_nat (i + 1)) (m o)).
  { replace (Z.to_nat (i + 1)) with (S (Z.to_nat i)) by lia. assert (H : (Z.to_nat i < length (m o))%nat) by lia. clear - H.
    revert H. generalize (Z.to_nat i) as j. induction (m o) as [|x l IHl]; intros j H; [cbn in H; lia|].
    destruct j; [reflexivity|]. cbn [skipn nth]. apply IHl. cbn in H. lia. }
  rewrite E. cbn [firstn]. replace n with (n + 0)%nat at 2 by lia.
  eapply runs_sequence; [apply IH; lia|]. constructor.
Qed.

Lemma set_nth_split A (b : list A) x : forall i, (i < length b)%nat -> set_nth b i x = firstn i b ++ x :: skipn (S i) b.
Proof. induction b as [|y b IH]; intros [|i] H; cbn in *; try lia; [reflexivity|]. rewrite IH by lia. reflexivity. Qed.

Lemma skipn_twice A (b : list A) i : forall j, skipn j (skipn i b) = skipn (i + j) b.
Proof. revert b. induction i as [|i IH]; intros b j; [reflexivity|]. destruct b; [cbn; apply skipn_nil|]. cbn. apply IH. Qed.

Lemma deposit_runs l : forall m i, 0 <= i -> i + Z.of_nat (length l) <= Z.of_nat (length (m o)) ->
  exists m', runs m (t_deposit o i l) (length l) m' tt /\ m' o = firstn (Z.to_nat i) (m o) ++ l ++ skipn (Z.to_nat i + length l) (m o) /\
    (forall o', o' <> o -> m' o' = m o').
Proof using O.
  induction l as [|x l IH]; intros m i I L; cbn [t_deposit length] in *.
  - exists m. split; [constructor|]. split; [|auto]. cbn [app]. rewrite Nat.add_0_r. symmetry. apply firstn_skipn.
  - set (m1 := set_object m o (set_nth (m o) (Z.to_nat i) x)).
    assert (M1 : m1 o = firstn (Z.to_nat i) (m o) ++ x :: skipn (S (Z.to_nat i)) (m o))
      by (unfold m1, set_object; rewrite Z.eqb_refl; apply set_nth_split; lia).
    assert (L1 : length (m1 o) = length (m o)) by (rewrite M1, app_length; cbn [length]; rewrite firstn_length, skipn_length; lia).
    destruct (IH m1 (i + 1)) as (m' & R & E & K); [lia|rewrite L1; lia|].
    exists m'. split; [|split].
    + apply runs_store; [unfold in_range; apply andb_true_iff; split; [apply Z.leb_le|apply Z.ltb_lt]; lia|]. exact R.
    + rewrite E, M1. replace (Z.to_nat (i + 1)) with (length (firstn (Z.to_nat i) (m o)) + 1)%nat by (rewrite firstn_length; lia).
      rewrite firstn_app_2. cbn [firstn]. rewrite <- app_assoc. cbn [app]. f_equal. f_equal. f_equal.
      rewrite skipn_app, skipn_all2 by lia. cbn [app].
      replace (length (firstn (Z.to_nat i) (m o)) + 1 + length l - length (firstn (Z.to_nat i) (m o)))%nat with (S (length l)) by lia.
      rewrite skipn_cons, skipn_twice. f_equal. lia.
    + intros o' Ho. rewrite K by exact Ho. unfold m1, set_object. destruct (Z.eqb_spec o' o); [contradiction|reflexivity].
Qed.

Lemma follows_memmove b dst src n : follows b (t_memmove o dst src n) (buf_memmove b dst src n) of_buf.
Proof using O.
  intros r E m T M. unfold buf_memmove in E.
  match type of E with (if ?c then _ else _) = _ => destruct c eqn:C; [|discriminate] end. injection E as <-.
  rewrite !andb_true_iff, !Z.leb_le in C. destruct C as ((((C1 & C2) & C3) & C4) & C5). rewrite <- M in *.
  set (l := firstn (Z.to_nat n) (skipn (Z.to_nat src) (m o))) in *.
  assert (LL : length l = Z.to_nat n) by (unfold l; rewrite firstn_length, skipn_length; lia).
  destruct (deposit_runs l m dst) as (m' & R & E & K); [lia|lia|].
  exists (Z.to_nat n + length l)%nat, m'. split; [eapply runs_sequence; [apply fetch_runs; lia|exact R]|]. split; [|exact K].
  cbn [of_buf fst]. rewrite E, LL. do 3 f_equal. lia.
Qed.

Lemma follows_prettify b base len k : follows b (t_prettify o base len k) (prettify b base len k) of_cursor.
Proof using O.
  unfold t_prettify, prettify. cbv zeta.
  repeat match goal with |- follows _ (if ?c then _ else _) (if ?c then _ else _) _ => destruct c end;
  repeat lazymatch goal with
    | |- follows _ (sequence (t_set _ _ _) _) (bind _ _) _ => eapply follows_bind; [apply follows_set|intros ?; cbn [of_buf fst snd]]
    | |- follows _ (sequence (t_memmove _ _ _ _) _) (bind _ _) _ => eapply follows_bind; [apply follows_memmove|intros ?; cbn [of_buf fst snd]]
    | |- follows _ (sequence (t_fill_zeros _ _ _) _) (bind _ _) _ => eapply follows_bind; [apply follows_zeros|intros ?; cbn [of_buf fst snd]]
    | |- follows _ (Return _) _ _ => apply follows_return; reflexivity
    | |- follows ?b (t_writeExponent _ (_, ?p)) _ _ => exact (follows_exponent _ (Cursor b p))
    end.
Qed.

Lemma follows_dtoa tc v c : follows (cbuf c) (t_dtoa tc v (o, cpos c)) (dtoa tc v c) of_cursor.
Proof using O.
  unfold t_dtoa, dtoa. destruct (double_is_zero v).
  - do 3 (eapply follows_bind; [apply follows_put|intros ?; cbn [of_cursor fst snd]]).
    eapply follows_bind; [apply follows_set|]. intros b. apply follows_return. reflexivity.
  - apply follows_bind with (view := fun r : cursor * Z => (cbuf (fst r), ((o, cpos (fst r)), snd r))).
    + destruct (double_is_negative v).
      * eapply follows_bind; [apply follows_put|]. intros c'. apply follows_return. reflexivity.
      * apply follows_return. reflexivity.
    + intros [c1 v1]. cbn [fst snd]. eapply follows_bind; [apply follows_grisu2|]. intros [[b len] k]. cbn [of_triple fst snd]. apply follows_prettify.
Qed.

(** ** float.cpp *)
Definition of_float (f : FormatFloat) : buf * Z := (ff_buffer f, ff_last f).
Lemma follows_special x s : 0 <= x < 8 -> constants e x = map Some (s ++ [NUL]) -> follows (new_buf FLOAT_SIZE) (t_special o x s) (special s) of_float.
Proof using O.
  intros X E. unfold t_special, special. eapply follows_bind; [apply follows_literal; [exact X|exact E]|]. intros b. apply follows_return. reflexivity.
Qed.
Lemma follows_format x : follows (new_buf FLOAT_SIZE) (t_format (e_float e) o x) (format (e_float e) x) of_float.
Proof using O.
  unfold t_format, format, t_format_bits, format_bits.
  match goal with |- follows _ (if negb (isFinite ?u) then _ else _) _ _ => generalize u end. intros u.
  destruct (negb (isFinite u)); [destruct (isNan u); [|destruct (isInfinity u)]|];
    try (apply follows_special; [vm_compute; intuition discriminate|reflexivity]).
  eapply follows_bind; [apply (follows_dtoa (fe_tc (e_float e)) u (Cursor (new_buf FLOAT_SIZE) 0))|]. intros c. apply follows_return. reflexivity.
Qed.

(** ** lexi.hpp *)
Definition of_formatter (f : formatter) : buf * Z :=
  match f with
  | FNull t | FBool t | FChar t => of_text t
  | FInt t | FEnum t => of_int t
  | FFloat t => of_float t
  end.
Lemma follows_Format v : has_formatter v -> follows (new_buf (array_size v)) (t_Format e o v) (Format e v) of_formatter.
Proof using O.
  intros V.
  assert (H : forall R (P : action Z) (Q : outcome R) (C : R -> formatter) view b, follows b P Q view -> (forall r, of_formatter (C r) = view r) ->
    follows b P (bind Q (fun r => Ok (C r))) of_formatter).
  { intros R P Q C view b F E r Hr m T M. destruct Q as [q| | |]; try discriminate. cbn in Hr. injection Hr as <-. rewrite E.
    exact (F q eq_refl m T M). }
  destruct v; cbn [t_Format Format array_size]; try contradiction;
    [ eapply H; [apply follows_null|reflexivity] | eapply H; [apply follows_bool|reflexivity] | eapply H; [apply follows_char|reflexivity]
    | eapply H; [apply follows_int|reflexivity] | eapply H; [apply follows_format|reflexivity] | eapply H; [apply follows_format|reflexivity]
    | eapply H; [apply follows_format|reflexivity] | eapply H; [apply follows_int|reflexivity] | eapply H; [apply follows_int|reflexivity] ].
Qed.
End Follow.

(** ** What a thread does not touch *)
Definition at_own (own : Z) (q : place) : Prop := fst q = own.
Definition whatever {A} (a : A) : Prop := True.

Section Confine.
Context (own : Z).
Lemma confined_lift A (Q : outcome A) : confined own whatever (lift Q).
Proof. destruct Q; exact I. Qed.
Lemma confined_get x i : x = own \/ 0 <= x -> confined own whatever (t_get x i).
Proof. intros H. cbn. split; [exact H|]. intros [c|]; exact I. Qed.
Lemma confined_set i c : confined own whatever (t_set own i c).
Proof. cbn. split; [reflexivity|exact I]. Qed.
Lemma confined_put q c : at_own own q -> confined own (at_own own) (t_put q c).
Proof. intros H. cbn. auto. Qed.
Lemma confined_put_digit q i : at_own own q -> confined own (at_own own) (t_put_digit q i).
Proof. intros H. eapply confined_sequence; [apply confined_get; right; unfold DIGITS_OBJECT; lia|]. intros c _. apply confined_put. exact H. Qed.
Lemma confined_put_digit_if q x i : at_own own q -> confined own (at_own own) (t_put_digit_if x q i).
Proof. intros H. unfold t_put_digit_if. destruct x; [apply confined_put_digit; auto|exact H]. Qed.

Ltac confine :=
  cbv zeta;
  repeat lazymatch goal with
    | |- confined _ _ (t_put _ _) => apply confined_put; assumption
    | |- confined _ _ (t_put_digit _ _) => apply confined_put_digit; assumption
    | |- confined _ _ (t_put_digit_if _ _ _) => apply confined_put_digit_if; assumption
    | |- confined _ _ (if ?c then _ else _) => destruct c
    | |- confined ?own _ (sequence _ _) => apply confined_sequence with (Q := at_own own); [|intros ? ?]
    end.

Lemma confined_u32toa q v : at_own own q -> confined own (at_own own) (t_u32toa v q).
Proof. intros H. unfold t_u32toa. confine. Qed.
Lemma confined_u64toa q v : at_own own q -> confined own (at_own own) (t_u64toa v q).
Proof. intros H. unfold t_u64toa. confine. Qed.
Lemma confined_i32toa q v : at_own own q -> confined own (at_own own) (t_i32toa v q).
Proof. intros H. unfold t_i32toa. confine; apply confined_u32toa; auto. Qed.
Lemma confined_i64toa q v : at_own own q -> confined own (at_own own) (t_i64toa v q).
Proof. intros H. unfold t_i64toa. confine; apply confined_u64toa; auto. Qed.

Lemma confined_body xtoa v : (forall q, at_own own q -> confined own (at_own own) (xtoa v q)) ->
  confined own whatever (t_FormatInt_body own xtoa v).
Proof. intros H. unfold t_FormatInt_body. eapply confined_sequence; [apply H; reflexivity|]. intros q Q. cbn. split; [exact Q|exact I]. Qed.
Lemma confined_int p t v : confined own whatever (t_FormatInt_new p own t v).
Proof.
  unfold t_FormatInt_new. destruct t; try destruct (sys64 p); apply confined_body; intros;
    lazymatch goal with
    | |- confined _ _ (t_i32toa _ _) => apply confined_i32toa; assumption
    | |- confined _ _ (t_u32toa _ _) => apply confined_u32toa; assumption
    | |- confined _ _ (t_i64toa _ _) => apply confined_i64toa; assumption
    | |- confined _ _ (t_u64toa _ _) => apply confined_u64toa; assumption
    end.
Qed.

Lemma confined_read_n x n : (x = own \/ 0 <= x) -> forall i, confined own whatever (t_read_n x i n).
Proof.
  intros H. induction n as [|n IH]; intros i; cbn [t_read_n]; [exact I|].
  eapply confined_sequence; [apply confined_get; exact H|]. intros c _. eapply confined_sequence; [apply IH|]. intros; exact I.
Qed.
Lemma confined_strncpy x n : 0 <= x -> forall i, confined own whatever (t_strncpy own x i n).
Proof.
  intros H. induction n as [|n IH]; intros i; cbn [t_strncpy]; [exact I|].
  eapply confined_sequence; [apply confined_get; auto|]. intros c _. eapply confined_sequence; [apply confined_set|]. intros _ _. apply IH.
Qed.
Lemma confined_round fuel : forall base len delta rest tk wp, confined own whatever (t_grisuRound fuel own base len delta rest tk wp).
Proof.
  induction fuel as [|fuel IH]; intros; cbn [t_grisuRound]; destruct (grisuRound_continue _ _ _ _); try exact I.
  eapply confined_sequence; [|intros _ _; apply IH]. eapply confined_sequence; [apply confined_get; auto|]. intros c _. apply confined_set.
Qed.
Lemma confined_push base len d : confined own whatever (t_push_digit own base len d).
Proof. unfold t_push_digit. destruct (_ || _); [|exact I]. eapply confined_sequence; [apply confined_set|]. intros; exact I. Qed.

Ltac confine2 :=
  cbv zeta;
  repeat lazymatch goal with
    | |- confined _ _ (Return _) => exact I
    | |- confined _ _ (Stop _) => exact I
    | |- confined _ _ (t_grisuRound _ _ _ _ _ _ _ _) => apply confined_round
    | |- confined _ _ (t_push_digit _ _ _ _) => apply confined_push
    | |- confined _ _ (lift _) => apply confined_lift
    | |- confined _ _ (t_set _ _ _) => apply confined_set
    | |- confined _ _ (if ?c then _ else _) => destruct c
    | |- confined _ _ (let (_, _) := ?r in _) => destruct r
    | |- confined _ _ (match ?r with TDone _ _ => _ | TContinue _ => _ end) => destruct r
    | |- confined _ _ (match ?r with Some _ => _ | None => _ end) => destruct r
    | |- confined _ _ (sequence _ _) => apply confined_sequence with (Q := whatever); [|intros ? _]
    end.

Lemma confined_integral pol kappa : forall s p1 p2 delta wp base len, confined own whatever (t_generate_integral pol kappa s p1 p2 delta wp own base len).
Proof. induction kappa as [|kappa IH]; intros; cbn [t_generate_integral]; confine2. apply IH. Qed.
Lemma confined_fraction pol cs fuel : forall s one p2 delta kappa wp base len, confined own whatever (t_generate_fraction pol cs fuel s one p2 delta kappa wp own base len).
Proof. induction fuel as [|fuel IH]; intros; cbn [t_generate_fraction]; confine2. apply IH. Qed.
Lemma confined_grisu2 tc v base : confined own whatever (t_grisu2 tc v own base).
Proof. unfold t_grisu2, t_generateDigits. confine2; [apply confined_integral|apply confined_fraction]. Qed.
Lemma confined_put_pair q k : at_own own q -> confined own (at_own own) (t_put_pair q k).
Proof.
  intros H. unfold t_put_pair. do 2 (eapply confined_sequence; [apply confined_get; right; unfold DTOA_DIGITS_OBJECT; lia|intros ? _]).
  eapply confined_sequence; [apply confined_put; exact H|]. intros q' H'. apply confined_put. exact H'.
Qed.
Lemma confined_exponent k q : at_own own q -> confined own (at_own own) (t_writeExponent k q).
Proof.
  intros H. unfold t_writeExponent. apply confined_sequence with (Q := fun r : place * Z => at_own own (fst r)).
  - destruct (k <? 0); [|exact H]. eapply confined_sequence; [apply confined_put; exact H|]. intros q' H'. exact H'.
  - intros [q1 k1] H1. cbn [fst] in H1. apply confined_sequence with (Q := at_own own).
    + destruct (k1 >=? 100); [|destruct (k1 >=? 10)].
      * eapply confined_sequence; [apply confined_put; exact H1|]. intros q' H'. apply confined_put_pair. exact H'.
      * apply confined_put_pair. exact H1.
      * apply confined_put. exact H1.
    + intros q2 H2. rewrite <- H2. eapply confined_sequence with (Q := whatever); [cbn; split; [reflexivity|exact I]|]. intros _ _. reflexivity.
Qed.
Lemma confined_zeros n : forall i, confined own whatever (t_fill_zeros own i n).
Proof. induction n as [|n IH]; intros; cbn [t_fill_zeros]; [exact I|]. eapply confined_sequence; [apply confined_set|]. intros _ _. apply IH. Qed.
Lemma confined_fetch n : forall i, confined own whatever (t_fetch own i n).
Proof. induction n as [|n IH]; intros; cbn [t_fetch confined]; [exact I|]. split; [auto|]. intros x. eapply confined_sequence; [apply IH|]. intros; exact I. Qed.
Lemma confined_deposit l : forall i, confined own whatever (t_deposit own i l).
Proof. induction l as [|x l IH]; intros; cbn [t_deposit confined]; [exact I|]. split; [reflexivity|apply IH]. Qed.
Lemma confined_memmove dst src n : confined own whatever (t_memmove own dst src n).
Proof. eapply confined_sequence; [apply confined_fetch|]. intros l _. apply confined_deposit. Qed.
Lemma confined_prettify base len k : confined own (at_own own) (t_prettify own base len k).
Proof.
  unfold t_prettify. cbv zeta.
  repeat lazymatch goal with
    | |- confined _ _ (Return _) => reflexivity
    | |- confined _ _ (t_writeExponent _ _) => apply confined_exponent; reflexivity
    | |- confined _ _ (t_memmove _ _ _ _) => apply confined_memmove
    | |- confined _ _ (t_fill_zeros _ _ _) => apply confined_zeros
    | |- confined _ _ (t_set _ _ _) => apply confined_set
    | |- confined _ _ (if ?c then _ else _) => destruct c
    | |- confined _ _ (sequence _ _) => apply confined_sequence with (Q := whatever); [|intros ? _]
    end.
Qed.
Lemma confined_dtoa tc v q : at_own own q -> confined own (at_own own) (t_dtoa tc v q).
Proof.
  intros H. unfold t_dtoa. destruct (double_is_zero v).
  - do 3 (apply confined_sequence with (Q := at_own own); [apply confined_put; assumption|intros ? ?]).
    match goal with H : at_own own ?c |- context [fst ?c] => rewrite H end.
    eapply confined_sequence; [apply confined_set|]. intros _ _. assumption.
  - apply confined_sequence with (Q := fun r : place * Z => at_own own (fst r)).
    + destruct (double_is_negative v); [|exact H]. eapply confined_sequence; [apply confined_put; exact H|]. intros q' H'. exact H'.
    + intros [[x y] v1] H1. unfold at_own in H1. cbn [fst] in H1. subst x. cbn [fst snd]. eapply confined_sequence; [apply confined_grisu2|]. intros lk _. apply confined_prettify.
Qed.
Lemma confined_literal x s : 0 <= x -> confined own whatever (t_literal own x s).
Proof. intros H. apply confined_strncpy. exact H. Qed.
Lemma confined_format env x : confined own whatever (t_format env own x).
Proof.
  unfold t_format, t_format_bits, t_special.
  match goal with |- confined _ _ (if negb (isFinite ?u) then _ else _) => generalize u end. intros u.
  destruct (negb (isFinite u)); [destruct (isNan u); [|destruct (isInfinity u)]|];
    try (eapply confined_sequence; [apply confined_literal; vm_compute; discriminate|intros _ _; exact I]).
  eapply confined_sequence; [apply confined_dtoa; reflexivity|]. intros; exact I.
Qed.
Lemma confined_Format e v : confined own whatever (t_Format e own v).
Proof.
  destruct v; cbn [t_Format]; try apply confined_int; try apply confined_format; try exact I.
  - eapply confined_sequence; [apply confined_literal; vm_compute; discriminate|]. intros; exact I.
  - unfold t_FormatBool. destruct b; (eapply confined_sequence; [apply confined_literal; vm_compute; discriminate|]; intros; exact I).
  - unfold t_FormatChar. do 2 (eapply confined_sequence; [apply confined_set|intros _ _]). exact I.
Qed.
Lemma confined_run e point strings w : task_ok e strings w -> confined own whatever (t_run e point own w).
Proof.
  intros K. destruct w as [v|T x n|x n|x n]; cbn [task_ok] in K; unfold t_run.
  - eapply confined_sequence; [apply confined_Format|]. intros n _. eapply confined_sequence; [apply confined_read_n; auto|]. intros; exact I.
  - destruct K as (s & [S1 _] & _). eapply confined_sequence; [apply confined_read_n; right; lia|]. intros; exact I.
  - destruct K as (s & [S1 _] & _). eapply confined_sequence; [apply confined_read_n; right; lia|]. intros; exact I.
  - destruct K as (s & [S1 _] & _). eapply confined_sequence; [apply confined_read_n; right; lia|]. intros; exact I.
Qed.
End Confine.

(** ** A task alone *)
Lemma read_n_runs o n : forall m i s, buf_read_n (m o) i n = Ok s -> exists k, runs m (t_read_n o i n) k m s.
Proof.
  induction n as [|n IH]; intros m i s H; cbn [t_read_n buf_read_n] in *.
  - injection H as <-. exists 0%nat. constructor.
  - destruct (buf_read (m o) i) as [c| | |] eqn:R; try discriminate. cbn [bind] in H.
    destruct (buf_read_n (m o) (i + 1) n) as [r| | |] eqn:R2; try discriminate. cbn [bind] in H. injection H as <-.
    destruct (IH m (i + 1) r R2) as [k K].
    unfold buf_read in R. destruct (in_range i (Z.of_nat (length (m o)))) eqn:I; [|discriminate].
    destruct (nth (Z.to_nat i) (m o) None) as [c'|] eqn:N; [|discriminate]. injection R as <-.
    exists (1 + (k + 0))%nat. eapply runs_sequence with (m' := m).
    + apply runs_load; [exact I|]. rewrite N. constructor.
    + eapply runs_sequence; [exact K|constructor].
Qed.

Lemma string_read s : forall pre post, buf_read_n (map Some (pre ++ s ++ post)) (Z.of_nat (length pre)) (length s) = Ok s.
Proof.
  induction s as [|c s IH]; intros pre post; cbn [length buf_read_n]; [reflexivity|].
  assert (B : buf_read (map Some (pre ++ (c :: s) ++ post)) (Z.of_nat (length pre)) = Ok c).
  { apply read_table. rewrite Nat2Z.id. split.
    - unfold in_range. apply andb_true_iff. rewrite !app_length. cbn [length]. split; [apply Z.leb_le|apply Z.ltb_lt]; lia.
    - rewrite nth_error_app2, Nat.sub_diag by lia. reflexivity. }
  rewrite B. cbn [bind]. specialize (IH (pre ++ [c]) post). rewrite <- app_assoc in IH. cbn [app] in IH. cbn [app].
  rewrite app_length in IH. cbn [length] in IH. replace (Z.of_nat (length pre) + 1) with (Z.of_nat (length pre + 1)) by lia.
  rewrite IH. reflexivity.
Qed.

Lemma lexi_formatter e v : has_formatter v -> lexi e v = bind (Format e v) f_string.
Proof. destruct v; cbn; intros; try contradiction; reflexivity. Qed.

Definition first_zero (f : formatter) : Prop :=
  match f with FInt t | FEnum t => fi_first t = 0 | FFloat t => ff_first t = 0 | _ => True end.
Lemma int_first p t n f : FormatInt_new p t n = Ok f -> fi_first f = 0.
Proof.
  assert (B : forall x v, FormatInt_body x v = Ok f -> fi_first f = 0).
  { intros x v. unfold FormatInt_body. destruct (x v _); try discriminate. cbn. destruct (buf_write _ _ _); try discriminate.
    cbn. intros H. injection H as <-. reflexivity. }
  unfold FormatInt_new. destruct t; try destruct (sys64 p); apply B.
Qed.
Lemma format_first env x f : format env x = Ok f -> ff_first f = 0.
Proof.
  unfold format, format_bits, special.
  match goal with |- (if negb (isFinite ?u) then _ else _) = _ -> _ => generalize u end. intros u.
  assert (L : forall s, bind (buf_strncpy_literal (new_buf FLOAT_SIZE) 0 s) (fun b => Ok (MkFormatFloat b 0 (0 + Z.of_nat (length s)))) = Ok f -> ff_first f = 0).
  { intros s. destruct (buf_strncpy_literal _ _ _); try discriminate. cbn. intros H. injection H as <-. reflexivity. }
  destruct (negb (isFinite u)); [destruct (isNan u); [|destruct (isInfinity u)]; apply L|].
  destruct (dtoa _ _ _); try discriminate. cbn. intros H. injection H as <-. reflexivity.
Qed.

Lemma string_of_view e v f s : Format e v = Ok f -> f_string f = Ok s -> buf_read_n (fst (of_formatter f)) 0 (Z.to_nat (snd (of_formatter f))) = Ok s.
Proof.
  intros F S.
  assert (Z0 : first_zero f).
  { destruct v; cbn [Format] in F; try discriminate;
    match type of F with bind ?x _ = _ => destruct x as [r| | |] eqn:E; try discriminate end; cbn in F; injection F as <-; cbn; auto;
    first [eapply int_first; exact E|eapply format_first; exact E]. }
  destruct f; cbn in *; try exact S;
    unfold FormatInt_string, FormatInt_size, FormatFloat_string, FormatFloat_size in S; rewrite Z0, Z.sub_0_r in S; exact S.
Qed.

Lemma task_runs e point strings own w m : own < 0 -> task_ok e strings w -> m own = new_buf (task_array w) ->
  (forall o, 0 <= o -> m o = start_memory e strings [] o) ->
  exists a n m', alone e point strings w a /\ runs m (t_run e point own w) n m' a.
Proof.
  intros O K B M.
  assert (SM : forall o s, shared strings o s -> buf_read_n (m o) 0 (length s) = Ok s).
  { intros o s [S1 S2]. rewrite M by lia. unfold start_memory, FIRST_STRING. destruct (Z.ltb_spec o 0); [lia|].
    destruct (Z.ltb_spec o 8); [lia|]. rewrite S2. exact (string_read s [] [NUL]). }
  destruct w as [v|T x n|x n|x n]; cbn [task_ok alone task_array] in *.
  - destruct K as [V [s L]]. exists (Text (Ok s)). rewrite L. rewrite (lexi_formatter e v V) in L.
    destruct (Format e v) as [f| | |] eqn:F; try discriminate. cbn [bind] in L.
    destruct (follows_Format e own O v V f F m) as (n & m1 & R & B1 & _).
    + intros x X. rewrite M by lia. unfold start_memory, FIRST_STRING. destruct (Z.ltb_spec x 0); [lia|]. destruct (Z.ltb_spec x 8); [reflexivity|lia].
    + exact B.
    + pose proof (string_of_view e v f s F L) as S. rewrite <- B1 in S.
      destruct (read_n_runs own _ m1 0 s S) as [k R2]. exists (n + (k + 0))%nat, m1. split; [reflexivity|].
      unfold t_run. eapply runs_sequence; [exact R|]. eapply runs_sequence; [exact R2|constructor].
  - destruct K as (s & S & <-). destruct (read_n_runs x _ m 0 s (SM x s S)) as [k R].
    eexists _, (k + 0)%nat, m. split; [exists s; split; [exact S|reflexivity]|]. unfold t_run. eapply runs_sequence; [exact R|constructor].
  - destruct K as (s & S & <-). destruct (read_n_runs x _ m 0 s (SM x s S)) as [k R].
    eexists _, (k + 0)%nat, m. split; [exists s; split; [exact S|reflexivity]|]. unfold t_run. eapply runs_sequence; [exact R|constructor].
  - destruct K as (s & S & <-). destruct (read_n_runs x _ m 0 s (SM x s S)) as [k R].
    eexists _, (k + 0)%nat, m. split; [exists s; split; [exact S|reflexivity]|]. unfold t_run. eapply runs_sequence; [exact R|constructor].
Qed.

(** ** Interleaving *)
Definition invariant (e : env) (point : ascii) (strings : list bytes) (work : list task) (need : nat -> nat) (order : list nat)
    (state : memory * list (action answer)) : Prop :=
  length (snd state) = length work /\
  forall i w, nth_error work i = Some w -> exists p, nth_error (snd state) i = Some p /\ confined (own_array i) whatever p /\
    exists a n m', alone e point strings w a /\ runs (fst state) p n m' a /\ (n = 0 \/ n + turns i order <= need i)%nat.

Lemma own_negative i : own_array i < 0.
Proof. unfold own_array. lia. Qed.

Lemma start_threads_nth e point work : forall j i w, nth_error work i = Some w -> nth_error (start_threads e point j work) i = Some (t_run e point (own_array (j + i)) w).
Proof.
  induction work as [|x work IH]; intros j [|i] w H; try discriminate; cbn in *.
  - injection H as ->. rewrite Nat.add_0_r. reflexivity.
  - rewrite (IH (S j) i w H). do 3 f_equal. lia.
Qed.
Lemma start_threads_length e point work : forall j, length (start_threads e point j work) = length work.
Proof. induction work; intros; cbn; auto. Qed.

Lemma thread_runs e point strings work i w : Forall (task_ok e strings) work -> nth_error work i = Some w ->
  exists a n m', alone e point strings w a /\ runs (start_memory e strings work) (t_run e point (own_array i) w) n m' a.
Proof.
  intros K W. assert (KW : task_ok e strings w) by (rewrite Forall_forall in K; apply K; eapply nth_error_In; eauto).
  apply task_runs; [apply own_negative|exact KW| |].
  - unfold start_memory. destruct (Z.ltb_spec (own_array i) 0); [|unfold own_array in *; lia].
    replace (Z.to_nat (- own_array i - 1)) with i by (unfold own_array; lia). rewrite W. reflexivity.
  - intros o Ho. unfold start_memory. destruct (Z.ltb_spec o 0); [lia|reflexivity].
Qed.

(** The accesses each thread needs. *)
Lemma needs e point strings work : Forall (task_ok e strings) work ->
  exists need : nat -> nat, forall i w, nth_error work i = Some w ->
    exists a n m', alone e point strings w a /\ runs (start_memory e strings work) (t_run e point (own_array i) w) n m' a /\ (n <= need i)%nat.
Proof.
  intros K.
  assert (H : forall l, exists need : nat, forall i w, (i < l)%nat -> nth_error work i = Some w ->
    exists a n m', alone e point strings w a /\ runs (start_memory e strings work) (t_run e point (own_array i) w) n m' a /\ (n <= need)%nat).
  { induction l as [|l [need IH]]; [exists 0%nat; intros; lia|]. destruct (nth_error work l) as [w|] eqn:W.
    - destruct (thread_runs e point strings work l w K W) as (a & n & m' & A & R). exists (need + n)%nat. intros i w' I W'.
      destruct (Nat.eq_dec i l) as [->|D].
      + rewrite W in W'. injection W' as <-. exists a, n, m'. split; [exact A|]. split; [exact R|lia].
      + destruct (IH i w' ltac:(lia) W') as (a' & n' & m2 & A' & R' & N'). exists a', n', m2. split; [exact A'|]. split; [exact R'|lia].
    - exists need. intros i w' I W'. apply (IH i w'); [|exact W']. destruct (Nat.eq_dec i l) as [->|]; [congruence|lia]. }
  destruct (H (length work)) as [need N]. exists (fun _ => need). intros i w W. apply N; [apply nth_error_Some; congruence|exact W].
Qed.

Lemma set_nth_same A (l : list A) x : forall i, (i < length l)%nat -> nth_error (set_nth l i x) i = Some x.
Proof. induction l as [|y l IH]; intros [|i] H; cbn in *; try lia; [reflexivity|apply IH; lia]. Qed.
Lemma set_nth_other A (l : list A) x : forall i j, i <> j -> nth_error (set_nth l i x) j = nth_error l j.
Proof. induction l as [|y l IH]; intros [|i] [|j] H; cbn in *; try congruence; auto. Qed.
Lemma set_nth_len A (l : list A) x : forall i, length (set_nth l i x) = length l.
Proof. induction l as [|y l IH]; intros [|i]; cbn in *; auto. Qed.

Lemma runs_advance A own (p : action A) m n m' a : confined own whatever p -> own < 0 -> runs m p n m' a ->
  confined own whatever (snd (advance m p)) /\ (exists n', runs (fst (advance m p)) (snd (advance m p)) n' m' a /\ (n = 0 /\ n' = 0 \/ n = S n')%nat) /\
  (forall o, o <> own -> fst (advance m p) o = m o).
Proof.
  intros C O R. inversion R; subst; cbn [advance] in *.
  - cbn. split; [exact C|]. split; [|reflexivity]. exists 0%nat. split; [constructor|auto].
  - rewrite H. cbn [fst snd]. destruct C as [_ C]. split; [apply C|]. split; [eauto|reflexivity].
  - rewrite H. cbn [fst snd]. destruct C as [-> C]. split; [exact C|]. split; [eauto|].
    intros o' D. unfold set_object. destruct (Z.eqb_spec o' own); [contradiction|reflexivity].
Qed.

Lemma turns_app i order j : turns i (order ++ [j]) = (turns i order + if Nat.eq_dec j i then 1 else 0)%nat.
Proof. unfold turns. rewrite count_occ_app. cbn. destruct (Nat.eq_dec j i); reflexivity. Qed.

Lemma invariant_step e point strings work need order j state :
  invariant e point strings work need order state -> invariant e point strings work need (order ++ [j]) (schedule j state).
Proof.
  intros [L I]. destruct state as [m ps]. unfold schedule. cbn [fst snd] in *.
  destruct (nth_error ps j) as [q|] eqn:Q.
  - assert (J : (j < length ps)%nat) by (apply nth_error_Some; congruence).
    destruct (nth_error work j) as [wj|] eqn:WJ; [|apply nth_error_None in WJ; lia].
    destruct (I j wj WJ) as (q' & Q' & CQ & aj & nj & mj & AJ & RJ & NJ). rewrite Q in Q'. injection Q' as <-.
    destruct (runs_advance _ _ _ _ _ _ _ CQ (own_negative j) RJ) as (CQ' & (nj' & RJ' & NJ') & KJ).
    destruct (advance m q) as [m2 q2] eqn:E. cbn [fst snd] in *. split; [cbn [snd]; rewrite set_nth_len; exact L|]. cbn [fst snd].
    intros i w W. destruct (Nat.eq_dec j i) as [<-|D].
    + rewrite WJ in W. injection W as <-. exists q2. split; [apply set_nth_same; exact J|]. split; [exact CQ'|].
      exists aj, nj', mj. split; [exact AJ|]. split; [exact RJ'|]. rewrite turns_app. destruct (Nat.eq_dec j j); [|contradiction]. lia.
    + destruct (I i w W) as (p & Pn & C & a & n & m' & A & R & N). exists p.
      split; [rewrite set_nth_other; auto|]. split; [exact C|].
      destruct (agree_runs _ _ _ _ _ _ _ _ R C (own_negative i) m2) as [m3 R3].
      { split; [symmetry; apply KJ; unfold own_array; lia|]. intros o Ho. symmetry. apply KJ. pose proof (own_negative j). lia. }
      exists a, n, m3. split; [exact A|]. split; [exact R3|]. rewrite turns_app. destruct (Nat.eq_dec j i); [contradiction|]. lia.
  - split; [exact L|]. intros i w W. destruct (I i w W) as (p & Pn & C & a & n & m' & A & R & N). exists p.
    split; [exact Pn|]. split; [exact C|]. exists a, n, m'. split; [exact A|]. split; [exact R|].
    rewrite turns_app. destruct (Nat.eq_dec j i) as [<-|]; [|lia]. cbn [snd] in Pn. congruence.
Qed.

Section Result.
Context (e : env) (point : ascii) (strings : list bytes) (work : list task).
Let start := (start_memory e strings work, start_threads e point 0 work).

Lemma invariant_all : Forall (task_ok e strings) work ->
  exists need, forall order, invariant e point strings work need order (execute order start).
Proof using All.
  intros K. destruct (needs e point strings work K) as [need N]. exists need.
  intros order. induction order as [|j order IH] using rev_ind.
  - split; [apply start_threads_length|]. intros i w W. exists (t_run e point (own_array i) w).
    split; [apply (start_threads_nth e point work 0 i w W)|]. split.
    + eapply confined_run. rewrite Forall_forall in K. apply K. eapply nth_error_In; eauto.
    + destruct (N i w W) as (a & n & m' & A & R & B). exists a, n, m'. split; [exact A|]. split; [exact R|]. right. cbn. lia.
  - unfold execute. rewrite fold_left_app. cbn [fold_left]. apply invariant_step. exact IH.
Qed.

Lemma no_race order : Forall (task_ok e strings) work -> ~ race (snd (execute order start)).
Proof using All.
  intros K (i & j & p & q & o & x & D & Pn & Qn & (c & k & ->) & U).
  destruct (invariant_all K) as [need N]. destruct (N order) as [L I].
  set (after := snd (execute order start)) in *.
  assert (W : forall n r, nth_error after n = Some r -> exists w, nth_error work n = Some w).
  { intros n r R. destruct (nth_error work n) eqn:E; [eauto|]. apply nth_error_None in E.
    assert (n < length after)%nat by (apply nth_error_Some; congruence). lia. }
  destruct (W i _ Pn) as [wi Wi]. destruct (W j _ Qn) as [wj Wj].
  destruct (I i wi Wi) as (p' & P' & CP & _). rewrite Pn in P'. injection P' as <-.
  destruct (I j wj Wj) as (q' & Q' & CQ & _). rewrite Qn in Q'. injection Q' as <-.
  destruct CP as [-> _]. pose proof (own_negative i).
  assert (own_array i <> own_array j) by (unfold own_array; lia).
  destruct U as [[k' ->]|[c' [k' ->]]]; cbn in CQ; destruct CQ as [CQ _]; [destruct CQ|]; lia.
Qed.

Lemma answers_alone order i w : Forall (task_ok e strings) work -> nth_error work i = Some w ->
  exists p, nth_error (snd (execute order start)) i = Some p /\ (forall why, p <> Stop why) /\ (forall a, p = Return a -> alone e point strings w a).
Proof using All.
  intros K W. destruct (invariant_all K) as [need N]. destruct (N order) as [L I]. destruct (I i w W) as (p & Pn & C & a & n & m' & A & R & B).
  exists p. split; [exact Pn|]. split; [intros why ->; inversion R|]. intros a' ->. inversion R; subst. exact A.
Qed.

Lemma finishes : Forall (task_ok e strings) work ->
  exists n, forall order i w, nth_error work i = Some w -> (n <= turns i order)%nat ->
    exists a, nth_error (snd (execute order start)) i = Some (Return a) /\ alone e point strings w a.
Proof using All.
  intros K. destruct (invariant_all K) as [need N].
  assert (B : exists b, forall i, (i < length work)%nat -> (need i <= b)%nat).
  { generalize (length work). intros l. induction l as [|l [b IH]]; [exists 0%nat; intros; lia|]. exists (b + need l)%nat.
    intros i H. destruct (Nat.eq_dec i l) as [->|]; [lia|]. specialize (IH i ltac:(lia)). lia. }
  destruct B as [b B]. exists b. intros order i w W T. destruct (N order) as [L I]. destruct (I i w W) as (p & Pn & C & a & n & m' & A & R & D).
  assert (i < length work)%nat by (apply nth_error_Some; congruence). specialize (B i ltac:(lia)).
  assert (n = 0)%nat by lia. subst n. inversion R; subst. exists a. split; [exact Pn|exact A].
Qed.
End Result.
