(** Lemmas for C106. *)
From Verif Require Import Machine LibMachine SpecApi SpecInt ModelItoa ModelInt ModelText ModelIeee ModelDiyfp ModelDtoa ModelFloat ModelLexi ModelThreads SpecThreads ProofApi.

(** ** Running alone *)
Inductive runs {A} : memory -> program A -> nat -> memory -> A -> Prop :=
| runs_return m a : runs m (Return a) 0 m a
| runs_load m o i k c n m' a : buf_read (m o) i = Ok c -> runs m (k c) n m' a -> runs m (Load o i k) (S n) m' a
| runs_store m o i c k b n m' a : buf_write (m o) i c = Ok b -> runs (set_object m o b) k n m' a -> runs m (Store o i c k) (S n) m' a.

Lemma runs_sequence A B (p : program A) (f : A -> program B) m n m' a n' m'' b :
  runs m p n m' a -> runs m' (f a) n' m'' b -> runs m (sequence p f) (n + n') m'' b.
Proof.
  induction 1; intros H1; cbn; [exact H1| |].
  - econstructor; [exact H|auto].
  - econstructor; [exact H|auto].
Qed.

Fixpoint confined {A} (own : Z) (Q : A -> Prop) (p : program A) : Prop :=
  match p with
  | Return a => Q a
  | Undefined _ => True
  | Load o _ k => (o = own \/ 0 <= o) /\ forall c, confined own Q (k c)
  | Store o _ _ k => o = own /\ confined own Q k
  end.

Lemma confined_sequence A B own (Q : A -> Prop) (R : B -> Prop) (p : program A) (f : A -> program B) :
  confined own Q p -> (forall a, Q a -> confined own R (f a)) -> confined own R (sequence p f).
Proof.
  induction p as [a|why|o i k IH|o i c k IH]; cbn; intros H F; auto.
  - destruct H as [H K]. split; [exact H|]. intros c. apply IH; auto.
  - destruct H as [H K]. split; auto.
Qed.

Definition agree (own : Z) (m m2 : memory) : Prop := m own = m2 own /\ forall o, 0 <= o -> m o = m2 o.

Lemma agree_runs A own Q (p : program A) m n m' a : runs m p n m' a -> confined own Q p -> own < 0 -> forall m2, agree own m m2 ->
  exists m2', runs m2 p n m2' a.
Proof.
  induction 1; cbn; intros C O m2 G.
  - exists m2. constructor.
  - destruct C as [C K]. assert (E : m o = m2 o) by (destruct C; [subst; exact (proj1 G)|apply (proj2 G); assumption]).
    destruct (IHruns (K c) O m2 G) as [m2' R]. exists m2'. econstructor; [rewrite <- E; exact H|exact R].
  - destruct C as [-> K]. assert (E : m own = m2 own) by exact (proj1 G).
    destruct (IHruns K O (set_object m2 own b)) as [m2' R].
    + split; [unfold set_object; rewrite Z.eqb_refl; auto|]. intros o Ho. unfold set_object.
      destruct (Z.eqb_spec o own); [lia|]. apply (proj2 G); auto.
    + exists m2'. econstructor; [rewrite <- E; exact H|exact R].
Qed.

(** ** itoa *)
Definition follows (o : Z) (b : buf) (i : Z) (P : program place) (Q : outcome cursor) : Prop :=
  forall k, Q = Ok k -> forall m, m DIGITS_OBJECT = map Some DIGITS_TABLE -> m o = b ->
  exists n m', runs m P n m' (o, cpos k) /\ m' o = cbuf k /\ (forall o', o' <> o -> m' o' = m o') /\ Z.of_nat n <= 2 * (cpos k - i).

Lemma follows_bind o b i P Q F G : o < 0 -> follows o b i P Q -> (forall k, follows o (cbuf k) (cpos k) (F (o, cpos k)) (G k)) ->
  follows o b i (sequence P F) (bind Q G).
Proof.
  intros O H1 H2 k E m T M. destruct Q as [k1| | |]; try discriminate.
  destruct (H1 k1 eq_refl m T M) as (n & m1 & R & B & K & N).
  destruct (H2 k1 k E m1) as (n2 & m2 & R2 & B2 & K2 & N2).
  - rewrite K; auto. unfold DIGITS_OBJECT; lia.
  - exact B.
  - exists (n + n2)%nat, m2. split; [eapply runs_sequence; eauto|]. split; [auto|]. split.
    + intros o' Ho. rewrite K2, K; auto.
    + lia.
Qed.

Lemma follows_put o k c : follows o (cbuf k) (cpos k) (t_put (o, cpos k) c) (put k c).
Proof.
  intros k' E m T M. unfold put in E. destruct (buf_write (cbuf k) (cpos k) c) as [b'| | |] eqn:W; try discriminate.
  cbn in E. injection E as <-. exists 1%nat, (set_object m o b'). split.
  - unfold t_put. econstructor; [cbn; rewrite M; exact W|]. cbn. constructor.
  - split; [unfold set_object; rewrite Z.eqb_refl; reflexivity|]. split; [|cbn [cpos]; lia].
    intros o' Ho. unfold set_object. destruct (Z.eqb_spec o' o); [congruence|reflexivity].
Qed.

Lemma digits_load m i c : m DIGITS_OBJECT = map Some DIGITS_TABLE -> digits_at i = Ok c -> buf_read (m DIGITS_OBJECT) i = Ok c.
Proof.
  intros -> H. unfold digits_at in H. unfold buf_read. rewrite map_length.
  destruct (in_range i (Z.of_nat (length DIGITS_TABLE))); [|discriminate].
  destruct (nth_error DIGITS_TABLE (Z.to_nat i)) as [c'|] eqn:E; [|discriminate]. injection H as ->.
  rewrite (nth_error_nth (map Some DIGITS_TABLE) _ None (x := Some c)); [reflexivity|]. apply map_nth_error. exact E.
Qed.

Lemma follows_put_digit o k i : o < 0 -> follows o (cbuf k) (cpos k) (t_put_digit (o, cpos k) i) (put_digit k i).
Proof.
  intros O k' E m T M. unfold put_digit in E. destruct (digits_at i) as [c| | |] eqn:D; try discriminate. cbn in E.
  destruct (follows_put o k c k' E m T M) as (n & m' & R & B & K & N).
  assert (P1 : n = 1%nat /\ cpos k' = cpos k + 1).
  { split.
    - unfold t_put in R. inversion R; subst. match goal with H : runs _ (Return _) _ _ _ |- _ => inversion H; reflexivity end.
    - unfold put in E. destruct (buf_write _ _ _); try discriminate. injection E as <-. reflexivity. }
  destruct P1 as [-> P1]. exists 2%nat, m'. split; [|split; [exact B|split; [exact K|lia]]].
  unfold t_put_digit. econstructor; [apply digits_load; eauto|]. exact R.
Qed.

Lemma follows_put_digit_if o k x i : o < 0 -> follows o (cbuf k) (cpos k) (t_put_digit_if x (o, cpos k) i) (put_digit_if x k i).
Proof.
  intros O. unfold t_put_digit_if, put_digit_if. destruct x; [apply follows_put_digit; auto|].
  intros k' E m T M. injection E as <-. exists 0%nat, m. repeat split; auto; [constructor|lia].
Qed.

Ltac follow :=
  cbv zeta;
  repeat first
    [ apply follows_put | apply follows_put_digit; assumption | apply follows_put_digit_if; assumption
    | match goal with |- follows _ _ _ (if ?c then _ else _) (if ?c then _ else _) => destruct c end
    | apply follows_bind; [assumption| |intros ?] ].

Lemma follows_u32toa o k v : o < 0 -> follows o (cbuf k) (cpos k) (t_u32toa v (o, cpos k)) (u32toa v k).
Proof. intros O. unfold t_u32toa, u32toa. follow. Qed.
Lemma follows_u64toa o k v : o < 0 -> follows o (cbuf k) (cpos k) (t_u64toa v (o, cpos k)) (u64toa v k).
Proof. intros O. unfold t_u64toa, u64toa. follow. Qed.
Lemma follows_i32toa o k v : o < 0 -> follows o (cbuf k) (cpos k) (t_i32toa v (o, cpos k)) (i32toa v k).
Proof. intros O. unfold t_i32toa, i32toa. follow; apply follows_u32toa; auto. Qed.
Lemma follows_i64toa o k v : o < 0 -> follows o (cbuf k) (cpos k) (t_i64toa v (o, cpos k)) (i64toa v k).
Proof. intros O. unfold t_i64toa, i64toa. follow; apply follows_u64toa; auto. Qed.

Definition at_own (own : Z) (q : place) : Prop := fst q = own.
Lemma confined_put own q c : at_own own q -> confined own (at_own own) (t_put q c).
Proof. intros H. cbn. auto. Qed.
Lemma confined_put_digit own q i : at_own own q -> confined own (at_own own) (t_put_digit q i).
Proof. intros H. cbn. unfold DIGITS_OBJECT. split; [right; lia|]. intros c. split; auto. Qed.
Lemma confined_put_digit_if own q x i : at_own own q -> confined own (at_own own) (t_put_digit_if x q i).
Proof. intros H. unfold t_put_digit_if. destruct x; [apply confined_put_digit; auto|exact H]. Qed.

Ltac confine :=
  cbv zeta;
  repeat lazymatch goal with
    | |- confined _ _ (t_put _ _) => apply confined_put; assumption
    | |- confined _ _ (t_put_digit _ _) => apply confined_put_digit; assumption
    | |- confined _ _ (t_put_digit_if _ _ _) => apply confined_put_digit_if; assumption
    | |- confined _ _ (if ?c then _ else _) => destruct c
    | |- confined ?own _ (sequence _ _) => apply confined_sequence with (Q := at_own own); [|intros ? ?]
    end.

Lemma confined_u32toa own q v : at_own own q -> confined own (at_own own) (t_u32toa v q).
Proof. intros H. unfold t_u32toa. confine. Qed.
Lemma confined_u64toa own q v : at_own own q -> confined own (at_own own) (t_u64toa v q).
Proof. intros H. unfold t_u64toa. confine. Qed.
Lemma confined_i32toa own q v : at_own own q -> confined own (at_own own) (t_i32toa v q).
Proof. intros H. unfold t_i32toa. confine; apply confined_u32toa; auto. Qed.
Lemma confined_i64toa own q v : at_own own q -> confined own (at_own own) (t_i64toa v q).
Proof. intros H. unfold t_i64toa. confine; apply confined_u64toa; auto. Qed.

(** ** int.cpp *)
Definition whatever {A} (a : A) : Prop := True.

Lemma body_confined own xtoa v : (forall q, at_own own q -> confined own (at_own own) (xtoa v q)) ->
  confined own whatever (t_FormatInt_body own xtoa v).
Proof. intros H. unfold t_FormatInt_body. eapply confined_sequence; [apply H; reflexivity|]. intros q Q. cbn. split; [exact Q|exact I]. Qed.

Lemma new_confined p own t v : confined own whatever (t_FormatInt_new p own t v).
Proof.
  unfold t_FormatInt_new. destruct t; try destruct (sys64 p); apply body_confined; intros;
    lazymatch goal with
    | |- confined _ _ (t_i32toa _ _) => apply confined_i32toa; assumption
    | |- confined _ _ (t_u32toa _ _) => apply confined_u32toa; assumption
    | |- confined _ _ (t_i64toa _ _) => apply confined_i64toa; assumption
    | |- confined _ _ (t_u64toa _ _) => apply confined_u64toa; assumption
    end.
Qed.

Lemma read_n_confined own o n : (o = own \/ 0 <= o) -> forall i, confined own whatever (t_read_n o i n).
Proof.
  intros H. induction n as [|n IH]; intros i; cbn; [exact I|]. split; [exact H|]. intros c.
  eapply confined_sequence; [apply IH|]. intros; exact I.
Qed.
Lemma c_string_confined own o n : (o = own \/ 0 <= o) -> forall i, confined own whatever (t_c_string n o i).
Proof.
  intros H. induction n as [|n IH]; intros i; cbn; [exact I|]. split; [exact H|]. intros c.
  destruct (code c =? 0); [exact I|]. eapply confined_sequence; [apply IH|]. intros; exact I.
Qed.

Lemma run_confined p strings own w : own < 0 -> task_ok p strings w -> confined own whatever (t_run p own w).
Proof.
  intros O K. destruct w as [t v|t o n|o n]; cbn in K; unfold t_run.
  - eapply confined_sequence; [apply new_confined|]. intros last _. eapply confined_sequence; [apply read_n_confined; auto|]. intros; exact I.
  - destruct K as (s & [S1 _] & _). eapply confined_sequence; [apply c_string_confined; right; lia|]. intros; exact I.
  - destruct K as (s & [S1 _] & _). eapply confined_sequence; [apply c_string_confined; right; lia|]. intros; exact I.
Qed.

Lemma read_n_runs o n : forall m i s, buf_read_n (m o) i n = Ok s -> runs m (t_read_n o i n) n m s.
Proof.
  induction n as [|n IH]; intros m i s H; cbn in *.
  - injection H as <-. constructor.
  - destruct (buf_read (m o) i) as [c| | |] eqn:R; try discriminate. cbn in H.
    destruct (buf_read_n (m o) (i + 1) n) as [r| | |] eqn:R2; try discriminate. cbn in H. injection H as <-.
    econstructor; [exact R|]. replace n with (n + 0)%nat at 2 by lia. eapply runs_sequence; [apply IH; exact R2|]. constructor.
Qed.

Lemma c_string_runs o m s : forall pre n, m o = map Some (pre ++ s ++ [NUL]) -> (length s <= n)%nat ->
  exists k, runs m (t_c_string (S n) o (Z.of_nat (length pre))) k m (c_str_of s) /\ (k <= S (length s))%nat.
Proof.
  induction s as [|c s IH]; intros pre n M L.
  - exists 1%nat. split; [|cbn; lia]. cbn. econstructor.
    + unfold buf_read. rewrite M. rewrite map_length, app_length. unfold in_range. cbn [length app].
      replace ((0 <=? Z.of_nat (length pre)) && (Z.of_nat (length pre) <? Z.of_nat (length pre + 1))) with true
        by (symmetry; apply andb_true_iff; split; [apply Z.leb_le|apply Z.ltb_lt]; lia).
      rewrite Nat2Z.id, map_app, app_nth2; rewrite map_length; [|lia]. rewrite Nat.sub_diag. reflexivity.
    + cbn. constructor.
  - destruct n as [|n]; [cbn in L; lia|]. cbn [length] in L.
    destruct (IH (pre ++ [c]) n) as (k & R & K).
    + rewrite M. rewrite <- app_assoc. reflexivity.
    + lia.
    + assert (B : buf_read (m o) (Z.of_nat (length pre)) = Ok c).
      { unfold buf_read. rewrite M. rewrite map_length, !app_length. unfold in_range. cbn [length app].
        replace ((0 <=? Z.of_nat (length pre)) && (Z.of_nat (length pre) <? Z.of_nat (length pre + (S (length s) + 1)))) with true
          by (symmetry; apply andb_true_iff; split; [apply Z.leb_le|apply Z.ltb_lt]; lia).
        rewrite Nat2Z.id, map_app, app_nth2; rewrite map_length; [|lia]. rewrite Nat.sub_diag. reflexivity. }
      cbn [c_str_of]. destruct (code c =? 0) eqn:Z0.
      * exists 1%nat. split; [|lia]. cbn [t_c_string]. econstructor; [exact B|]. cbn beta. rewrite Z0. constructor.
      * exists (S (k + 0))%nat. split; [|cbn [length]; lia]. cbn [t_c_string]. econstructor; [exact B|]. cbn beta. rewrite Z0.
        eapply runs_sequence; [|constructor]. rewrite app_length in R. cbn [length] in R.
        replace (Z.of_nat (length pre) + 1) with (Z.of_nat (length pre + 1)) by lia. exact R.
Qed.

Lemma body_runs own xtoa xtoa' v o f m : own < 0 -> (forall k, follows own (cbuf k) (cpos k) (xtoa' v (own, cpos k)) (xtoa v k)) ->
  FormatInt_body xtoa v = Ok o -> FormatInt_string o = Ok f -> 0 <= FormatInt_size o <= 21 -> m DIGITS_OBJECT = map Some DIGITS_TABLE -> m own = new_buf INTEGER_SIZE ->
  exists n m', runs m (sequence (t_FormatInt_body own xtoa' v) (fun last => sequence (t_read_n own 0 (Z.to_nat last)) (fun s => Return (Text s)))) n m' (Text f) /\
    (n <= 64)%nat.
Proof.
  intros O F B S L T M. unfold FormatInt_body in B.
  destruct (xtoa v (Cursor (new_buf INTEGER_SIZE) 0)) as [k| | |] eqn:X; try discriminate. cbn [bind] in B.
  destruct (buf_write (cbuf k) (cpos k) NUL) as [b| | |] eqn:W; try discriminate. cbn [bind] in B. injection B as <-.
  destruct (F (Cursor (new_buf INTEGER_SIZE) 0) k X m T M) as (n & m1 & R & B1 & K1 & N). cbn [cbuf cpos] in *.
  unfold FormatInt_string, FormatInt_size in *. cbn [fi_first fi_last fi_buffer] in *. rewrite Z.sub_0_r in *.
  set (m2 := set_object m1 own b). exists ((n + 1) + (Z.to_nat (cpos k) + 0))%nat, m2. split; [|lia].
  eapply runs_sequence.
  - unfold t_FormatInt_body. eapply runs_sequence; [exact R|]. cbn [fst snd]. econstructor; [rewrite B1; exact W|]. constructor.
  - eapply runs_sequence; [apply read_n_runs|constructor]. fold m2. unfold m2, set_object. rewrite Z.eqb_refl. exact S.
Qed.

Lemma format_runs e own t v m : own < 0 -> platform_ok (e_platform e) -> has_int_type (e_platform e) t v ->
  m DIGITS_OBJECT = map Some DIGITS_TABLE -> m own = new_buf INTEGER_SIZE ->
  exists s n m', lexi e (VInt t v) = Ok s /\ runs m (t_run (e_platform e) own (DoFormat t v)) n m' (Text s) /\ (n <= 64)%nat.
Proof.
  intros O P H T M. destruct (integer_object e t v P H) as (f & s & F & _ & (S1 & _ & S2 & _ & _ & S3 & _) & _).
  exists s. cbn [lexi]. rewrite F. cbn [bind]. cbn [Format] in F.
  destruct (FormatInt_new (e_platform e) t v) as [o| | |] eqn:N; try discriminate. injection F as <-. cbn [f_string f_size] in *.
  assert (L : 0 <= FormatInt_size o <= 21) by (rewrite S2; unfold INTEGER_SIZE in S3; lia).
  cut (exists n m', runs m (t_run (e_platform e) own (DoFormat t v)) n m' (Text s) /\ (n <= 64)%nat).
  { intros (n & m' & R). exists n, m'. split; [exact S1|exact R]. }
  unfold t_run, t_FormatInt_new. unfold FormatInt_new in N.
  destruct t; try destruct (sys64 (e_platform e)); (eapply body_runs; [exact O| |exact N|exact S1|exact L|exact T|exact M]); intros k;
    lazymatch goal with
    | |- follows _ _ _ (t_i32toa _ _) _ => apply follows_i32toa; exact O
    | |- follows _ _ _ (t_u32toa _ _) _ => apply follows_u32toa; exact O
    | |- follows _ _ _ (t_i64toa _ _) _ => apply follows_i64toa; exact O
    | |- follows _ _ _ (t_u64toa _ _) _ => apply follows_u64toa; exact O
    end.
Qed.

Lemma c_str_of_split s : exists u r, ~ In NUL u /\ (s = u \/ s = u ++ NUL :: r) /\ c_str_of s = u.
Proof.
  induction s as [|c s IH]; [exists [], []; cbn; tauto|]. cbn [c_str_of]. destruct (code c =? 0) eqn:E.
  - exists [], s. split; [cbn; tauto|]. split; [|reflexivity]. right. cbn. f_equal.
    apply Z.eqb_eq in E. apply code_inj. exact E.
  - destruct IH as (u & r & N & S & C). exists (c :: u), r. rewrite C. split; [|split; [|reflexivity]].
    + intros [->|I]; [|contradiction]. discriminate E.
    + destruct S as [->| ->]; [left|right]; reflexivity.
Qed.

Lemma task_runs e strings own w m : own < 0 -> platform_ok (e_platform e) -> task_ok (e_platform e) strings w ->
  (forall o, 0 <= o \/ o = own -> m o = start_memory strings o) ->
  exists a n m', alone e strings w a /\ runs m (t_run (e_platform e) own w) n m' a /\ (n <= enough w)%nat.
Proof.
  intros O P K M.
  assert (SM : forall o s, shared strings o s -> m o = map Some ([] ++ s ++ [NUL])).
  { intros o s [S1 S2]. rewrite M by lia. unfold start_memory, DIGITS_OBJECT. destruct (Z.eqb_spec o 0); [lia|].
    destruct (Z.ltb_spec o 0); [lia|]. rewrite S2. reflexivity. }
  destruct w as [t v|t o n|o n]; cbn [task_ok alone enough] in *.
  - destruct (format_runs e own t v m O P K) as (s & n & m' & L & R & N).
    + rewrite M by (unfold DIGITS_OBJECT; lia). reflexivity.
    + rewrite M by lia. unfold start_memory, DIGITS_OBJECT. destruct (Z.eqb_spec own 0); [lia|]. destruct (Z.ltb_spec own 0); [reflexivity|lia].
    + exists (Text s), n, m'. split; [|split; assumption]. exists s. auto.
  - destruct K as (s & S & <-). destruct (c_string_runs o m s [] (length s) (SM o s S) (le_n _)) as (k & R & L).
    eexists (Number _), (k + 0)%nat, m. split; [|split; [unfold t_run; eapply runs_sequence; [exact R|constructor]|lia]].
    exists s. eexists. split; [exact S|]. split; [reflexivity|]. f_equal. f_equal. unfold strtoull.
    assert (C : c_str_of (c_str_of s) = c_str_of s) by (clear; induction s as [|c s IH]; cbn; [reflexivity|]; destruct (code c =? 0) eqn:E; cbn; [reflexivity|]; rewrite E, IH; reflexivity).
    rewrite C. reflexivity.
  - destruct K as (s & S & <-). destruct (c_string_runs o m s [] (length s) (SM o s S) (le_n _)) as (k & R & L).
    exists (Text (c_str_of s)), (k + 0)%nat, m. split; [|split; [unfold t_run; eapply runs_sequence; [exact R|constructor]|lia]].
    destruct (c_str_of_split s) as (u & r & N & C & ->). exists s, u, r. auto.
Qed.

(** ** Interleaving *)
Definition invariant (e : env) (strings : list bytes) (work : list task) (order : list nat) (state : memory * list (program answer)) : Prop :=
  length (snd state) = length work /\
  forall i w, nth_error work i = Some w -> exists p, nth_error (snd state) i = Some p /\ confined (own_buffer i) whatever p /\
    exists a n m', alone e strings w a /\ runs (fst state) p n m' a /\ (n = 0 \/ n + turns i order <= enough w)%nat.

Lemma own_negative i : own_buffer i < 0.
Proof. unfold own_buffer. lia. Qed.

Lemma start_threads_nth p work : forall j i w, nth_error work i = Some w -> nth_error (start_threads p j work) i = Some (t_run p (own_buffer (j + i)) w).
Proof.
  induction work as [|x work IH]; intros j [|i] w H; try discriminate; cbn in *.
  - injection H as ->. rewrite Nat.add_0_r. reflexivity.
  - rewrite (IH (S j) i w H). do 3 f_equal. lia.
Qed.
Lemma start_threads_length p work : forall j, length (start_threads p j work) = length work.
Proof. induction work; intros; cbn; auto. Qed.

Lemma invariant_start e strings work : platform_ok (e_platform e) -> Forall (task_ok (e_platform e) strings) work ->
  invariant e strings work [] (start_memory strings, start_threads (e_platform e) 0 work).
Proof.
  intros P K. split; [apply start_threads_length|]. intros i w W. exists (t_run (e_platform e) (own_buffer i) w).
  assert (KW : task_ok (e_platform e) strings w) by (rewrite Forall_forall in K; apply K; eapply nth_error_In; eauto).
  split; [apply (start_threads_nth _ work 0 i w W)|]. split; [eapply run_confined; [apply own_negative|exact KW]|].
  destruct (task_runs e strings (own_buffer i) w (start_memory strings) (own_negative i) P KW) as (a & n & m' & A & R & N); [auto|].
  exists a, n, m'. split; [exact A|]. split; [exact R|]. right. cbn. lia.
Qed.

Lemma set_nth_same A (l : list A) x : forall i, (i < length l)%nat -> nth_error (set_nth l i x) i = Some x.
Proof. induction l as [|y l IH]; intros [|i] H; cbn in *; try lia; [reflexivity|apply IH; lia]. Qed.
Lemma set_nth_other A (l : list A) x : forall i j, i <> j -> nth_error (set_nth l i x) j = nth_error l j.
Proof. induction l as [|y l IH]; intros [|i] [|j] H; cbn in *; try congruence; auto. Qed.
Lemma set_nth_len A (l : list A) x : forall i, length (set_nth l i x) = length l.
Proof. induction l as [|y l IH]; intros [|i]; cbn in *; auto. Qed.

Lemma runs_advance A own (p : program A) m n m' a : confined own whatever p -> own < 0 -> runs m p n m' a ->
  confined own whatever (snd (advance m p)) /\ (exists n', runs (fst (advance m p)) (snd (advance m p)) n' m' a /\ (n = 0 /\ n' = 0 \/ n = S n')%nat) /\
  (forall o, o <> own -> fst (advance m p) o = m o).
Proof.
  intros C O R. inversion R; subst; cbn [advance] in *.
  - cbn. split; [exact C|]. split; [|reflexivity]. exists 0%nat. split; [constructor|auto].
  - rewrite H. cbn [fst snd]. destruct C as [_ C]. split; [apply C|]. split; [eauto|reflexivity].
  - rewrite H. cbn [fst snd]. destruct C as [-> C]. split; [exact C|]. split; [eauto|].
    intros o' D. unfold set_object. destruct (Z.eqb_spec o' own); [contradiction|reflexivity].
Qed.

Lemma turns_app i order j : turns i (order ++ [j]) = (turns i order + if Nat.eq_dec j i then 1 else 0)%nat.
Proof. unfold turns. rewrite count_occ_app. cbn. destruct (Nat.eq_dec j i); reflexivity. Qed.

Lemma invariant_step e strings work order j state : invariant e strings work order state -> invariant e strings work (order ++ [j]) (schedule j state).
Proof.
  intros [L I]. destruct state as [m ps]. unfold schedule. cbn [fst snd] in *.
  destruct (nth_error ps j) as [q|] eqn:Q.
  - assert (J : (j < length ps)%nat) by (apply nth_error_Some; congruence).
    destruct (nth_error work j) as [wj|] eqn:WJ; [|apply nth_error_None in WJ; lia].
    destruct (I j wj WJ) as (q' & Q' & CQ & aj & nj & mj & AJ & RJ & NJ). rewrite Q in Q'. injection Q' as <-.
    destruct (runs_advance _ _ _ _ _ _ _ CQ (own_negative j) RJ) as (CQ' & (nj' & RJ' & NJ') & KJ).
    destruct (advance m q) as [m2 q2] eqn:E. cbn [fst snd] in *. split; [cbn [snd]; rewrite set_nth_len; exact L|]. cbn [fst snd].
    intros i w W. destruct (Nat.eq_dec j i) as [<-|D].
    + rewrite WJ in W. injection W as <-. exists q2. split; [apply set_nth_same; exact J|]. split; [exact CQ'|].
      exists aj, nj', mj. split; [exact AJ|]. split; [exact RJ'|]. rewrite turns_app. destruct (Nat.eq_dec j j); [|contradiction]. lia.
    + destruct (I i w W) as (p & Pn & C & a & n & m' & A & R & N). exists p.
      split; [rewrite set_nth_other; auto|]. split; [exact C|].
      destruct (agree_runs _ _ _ _ _ _ _ _ R C (own_negative i) m2) as [m3 R3].
      { split; [symmetry; apply KJ; unfold own_buffer; lia|]. intros o Ho. symmetry. apply KJ. pose proof (own_negative j). lia. }
      exists a, n, m3. split; [exact A|]. split; [exact R3|]. rewrite turns_app. destruct (Nat.eq_dec j i); [contradiction|]. lia.
  - split; [exact L|]. intros i w W. destruct (I i w W) as (p & Pn & C & a & n & m' & A & R & N). exists p.
    split; [exact Pn|]. split; [exact C|]. exists a, n, m'. split; [exact A|]. split; [exact R|].
    rewrite turns_app. destruct (Nat.eq_dec j i) as [<-|]; [|lia]. cbn [snd] in Pn. congruence.
Qed.

Lemma invariant_all e strings work order : platform_ok (e_platform e) -> Forall (task_ok (e_platform e) strings) work ->
  invariant e strings work order (execute order (start_memory strings, start_threads (e_platform e) 0 work)).
Proof.
  intros P K. induction order as [|j order IH] using rev_ind; [apply invariant_start; auto|].
  unfold execute. rewrite fold_left_app. cbn [fold_left]. apply invariant_step. exact IH.
Qed.

Section Result.
Context (e : env) (strings : list bytes) (work : list task) (order : list nat).
Let after := snd (execute order (start_memory strings, start_threads (e_platform e) 0 work)).

Lemma no_race : platform_ok (e_platform e) -> Forall (task_ok (e_platform e) strings) work -> ~ race after.
Proof using All.
  intros P K (i & j & p & q & o & x & D & Pn & Qn & (c & k & ->) & U).
  destruct (invariant_all e strings work order P K) as [L I]. fold after in L, I.
  assert (W : forall n r, nth_error after n = Some r -> exists w, nth_error work n = Some w).
  { intros n r R. destruct (nth_error work n) eqn:E; [eauto|]. apply nth_error_None in E.
    assert (n < length after)%nat by (apply nth_error_Some; congruence). lia. }
  destruct (W i _ Pn) as [wi Wi]. destruct (W j _ Qn) as [wj Wj].
  destruct (I i wi Wi) as (p' & P' & CP & _). rewrite Pn in P'. injection P' as <-.
  destruct (I j wj Wj) as (q' & Q' & CQ & _). rewrite Qn in Q'. injection Q' as <-.
  destruct CP as [-> _]. pose proof (own_negative i).
  assert (own_buffer i <> own_buffer j) by (unfold own_buffer; lia).
  destruct U as [[k' ->]|[c' [k' ->]]]; cbn in CQ; destruct CQ as [CQ _]; [destruct CQ|]; lia.
Qed.

Lemma answers_alone i w : platform_ok (e_platform e) -> Forall (task_ok (e_platform e) strings) work -> nth_error work i = Some w ->
  exists p, nth_error after i = Some p /\ (forall why, p <> Undefined why) /\ (forall a, p = Return a -> alone e strings w a).
Proof using All.
  intros P K W. destruct (invariant_all e strings work order P K) as [L I]. destruct (I i w W) as (p & Pn & C & a & n & m' & A & R & N).
  exists p. split; [exact Pn|]. split; [intros why ->; inversion R|]. intros a' ->. inversion R; subst. exact A.
Qed.

Lemma finishes i w : platform_ok (e_platform e) -> Forall (task_ok (e_platform e) strings) work -> nth_error work i = Some w ->
  (enough w <= turns i order)%nat -> exists a, nth_error after i = Some (Return a) /\ alone e strings w a.
Proof using All.
  intros P K W T. destruct (invariant_all e strings work order P K) as [L I]. destruct (I i w W) as (p & Pn & C & a & n & m' & A & R & N).
  assert (n = 0)%nat by lia. subst n. inversion R; subst. exists a. split; [exact Pn|exact A].
Qed.
End Result.
