(** Programs on several BigIntegers. *)
From Verif Require Import Machine LibMachine SpecDecimal SpecBig SpecBigProgram SpecBigStore ModelDiyfp ModelBigint ModelThrown ModelBigStore
  ProofBig ProofBig2 ProofBig3 ProofBig4 ProofBig5 ProofThrown.
Ltac Zify.zify_post_hook ::= idtac.

(** ** Lists *)

Lemma Forall2_nth {A B} (R : A -> B -> Prop) s st : Forall2 R s st -> forall x v, nth_error s x = Some v -> exists b, nth_error st x = Some b /\ R v b.
Proof.
  induction 1 as [|a b s st Hab _ IH]; intros x v E; [destruct x; discriminate E|].
  destruct x as [|x]; cbn [nth_error] in *; [injection E as ->; eauto|exact (IH x v E)].
Qed.
Lemma Forall2_put {A B} (R : A -> B -> Prop) s st : Forall2 R s st -> forall x v b, R v b -> Forall2 R (put x v s) (put x b st).
Proof.
  induction 1 as [|a b s st Hab Hr IH]; intros x v c Hc; [destruct x; constructor|].
  destruct x as [|x]; cbn [put]; constructor; auto.
Qed.
Lemma put_same {A} (l : list A) : forall x v, nth_error l x = Some v -> put x v l = l.
Proof.
  induction l as [|a l IH]; intros [|x] v E; try discriminate E; cbn [nth_error put] in *; [injection E as ->; reflexivity|].
  rewrite (IH x v E). reflexivity.
Qed.
Lemma Forall2_exists {A B} (R : A -> B -> Prop) s st x : Forall2 R s st -> (x < length s)%nat -> exists v b, nth_error s x = Some v /\ nth_error st x = Some b /\ R v b.
Proof.
  intros F L. destruct (nth_error s x) as [v|] eqn:E; [|apply nth_error_None in E; lia].
  destruct (Forall2_nth R s st F x v E) as (b & E' & H). eauto.
Qed.
Lemma object_ok st x b : nth_error st x = Some b -> object st x = Ok b.
Proof. unfold object. intros ->. reflexivity. Qed.

(** ** Objects *)

(** The object shows the number; of one that a refused operation left nothing is said. *)
Definition shows (v : option Z) (b : BigInteger) : Prop :=
  match v with
  | Some n => holds_number (digits_ b) (count_ b) n
  | None => Z.of_nat (length (digits_ b)) = 416
  end.

Lemma shows_length v b : shows v b -> Z.of_nat (length (digits_ b)) = 416.
Proof. destruct v as [n|]; cbn [shows]; [|auto]. intros (ws & rest & _ & L & _). exact L. Qed.

Lemma full_length b n : full b n -> Z.of_nat (length (digits_ b)) = 416.
Proof. intros (_ & ws & E & L & _). rewrite E, map_length. exact L. Qed.

Lemma assign_word_any b d : Z.of_nat (length (digits_ b)) = 416 -> word d -> exists b', assign_word b d = Ok b' /\ holds b' d.
Proof.
  intros L Hd. destruct b as [ds c]. cbn [digits_] in L. destruct ds as [|x ds]; [cbn in L; lia|].
  unfold assign_word. cbn [digits_]. change (x :: ds) with ([] ++ x :: ds) at 1. pose proof (word_write_app [] x ds d) as E. cbn [length] in E.
  change (Z.of_nat 0) with 0 in E. rewrite E. cbn [bind app]. eexists. split; [reflexivity|].
  exists [d], ds. cbn [digits_ count_]. split; [reflexivity|]. split; [cbn [length] in *; exact L|]. split; [reflexivity|]. split; [discriminate|].
  split; [repeat constructor; apply Hd|]. split; [cbn; intros ->; reflexivity|cbn; lia].
Qed.

Lemma t_perform_ok cc o b n : op_ok o -> (forall k, o <> OShift k) -> holds b n -> op_value o n < LIMIT ->
  exists b', t_perform cc o b = Ok (b', None) /\ holds b' (op_value o n).
Proof.
  intros K NS H L. destruct o as [d|d|d|e|s|d]; cbn [t_perform op_value op_ok] in *.
  - destruct (t_add_ok b n d H K) as [(_ & b' & E)|(G & _)]; [eauto|exfalso; lia].
  - destruct (t_mul_ok cc b n d H K) as [(_ & b' & E)|(G & _)]; [eauto|exfalso; lia].
  - destruct (t_mul32_ok b n d H K) as [(_ & b' & E)|(G & _)]; [eauto|exfalso; lia].
  - destruct (proj1 (mulPow5_split cc b n e H (proj1 K)) L) as (b' & E & H'). exists b'. split; [|exact H'].
    apply erase_ok. rewrite erase_mulPow5. exact E.
  - exfalso. exact (NS s eq_refl).
  - destruct (proj2 (word_starts d K) b n H) as (b' & E & H'). exists b'. split; [|exact H'].
    unfold returned. rewrite E. reflexivity.
Qed.

Lemma t_perform_refused cc o b n : op_ok o -> (forall k, o <> OShift k) -> holds b n -> LIMIT <= op_value o n ->
  exists b' w, t_perform cc o b = Ok (b', Some w) /\ Z.of_nat (length (digits_ b')) = 416.
Proof.
  intros K NS H L. destruct o as [d|d|d|e|s|d]; cbn [t_perform op_value op_ok] in *.
  - destruct (t_add_ok b n d H K) as [(G & _)|(_ & b' & w & E & F)]; [exfalso; lia|]. exists b', w. split; [exact E|exact (full_length _ _ F)].
  - destruct (t_mul_ok cc b n d H K) as [(G & _)|(_ & b' & w & E & F)]; [exfalso; lia|]. exists b', w. split; [exact E|exact (full_length _ _ F)].
  - destruct (t_mul32_ok b n d H K) as [(G & _)|(_ & b' & w & E & F)]; [exfalso; lia|]. exists b', w. split; [exact E|exact (full_length _ _ F)].
  - destruct (t_mulPow5_left cc b n e H (proj1 K) L) as (a & f & b' & w & _ & _ & E & F). exists b', w. split; [exact E|exact (full_length _ _ F)].
  - exfalso. exact (NS s eq_refl).
  - exfalso. pose proof (small_limit d K). lia.
Qed.

Lemma count_of b n : holds b n -> 1 <= count_ b <= 416 /\ n < 2 ^ (64 * count_ b) /\ (n = 0 -> count_ b = 1) /\ (n <> 0 -> 2 ^ (64 * (count_ b - 1)) <= n).
Proof.
  intros H. destruct (queries b n H) as (_ & _ & _ & _ & C & U & Lw). unfold count in *. split; [exact C|]. split; [exact U|]. split; [|exact Lw].
  intros ->. apply holds_rep in H. destruct H as (ws & (rest & A & B & C' & D & E) & N & V).
  destruct (normal_lower ws E D N) as [[_ X]|X]; [rewrite C', X; reflexivity|]. rewrite V in X. pose proof (Wp_pos (Nat.pred (length ws))). lia.
Qed.

Lemma shift_room_count b n k : holds b n -> 0 <= k -> (k mod 64 <> 0 -> n = 0 \/ ~ 2 ^ (64 * (415 - k / 64)) <= n < 2 ^ (64 * (416 - k / 64))) ->
  k mod 64 <> 0 -> n = 0 \/ count_ b + k / 64 <> 416.
Proof.
  intros H K C M. destruct (C M) as [Z0|N]; [left; exact Z0|]. destruct (Z.eq_dec n 0) as [Z0|NZ]; [left; exact Z0|right]. intros E. apply N.
  destruct (count_of b n H) as (_ & U & _ & Lw). specialize (Lw NZ).
  replace (415 - k / 64) with (count_ b - 1) by (clear - E; lia). replace (416 - k / 64) with (count_ b) by (clear - E; lia). split; assumption.
Qed.

(** ** One operation *)

Lemma step_ok cc s o s' v st : step s o s' v -> Forall2 shows s st -> exists st', execute cc st o = Ok (st', v) /\ Forall2 shows s' st'.
Proof.
  intros ST F. destruct ST as [s d D|s y n Ny|s t Lt Dt|s t Lt Dt|s x y n Ny Lx|s x d D Lx|s x o n Nx K NS L|s x o n Nx K NS L|s x k n Nx K A B L|s x k n Nx K A B L
    |s x y z n m Nx Ny NE Lz Zx Zy BF|s x y z n m Nx Ny NE ZZ Bn Bm|s x y z n Nx Ny Lz|s x y n m Nx Ny|s x y n m Nx Ny|s x d n Nx D|s x n Nx|s x i n Nx I C|s x i n Nx I C]; cbn [execute].
  - destruct (BigInteger_word_ok d D) as (b & E & H). rewrite E. cbn [bind]. eexists. split; [reflexivity|]. apply Forall2_app; [exact F|]. constructor; [exact H|constructor].
  - destruct (Forall2_nth shows s st F y _ Ny) as (b & Eb & H). rewrite (object_ok _ _ _ Eb). cbn [bind].
    destruct (copy_ok b n H) as (c & E & Hc). rewrite E. cbn [bind]. eexists. split; [reflexivity|]. apply Forall2_app; [exact F|]. constructor; [exact Hc|constructor].
  - destruct (proj1 (decimals_any cc t Lt) Dt) as (b & E & H). rewrite E. cbn [bind]. eexists. split; [reflexivity|]. apply Forall2_app; [exact F|]. constructor; [exact H|constructor].
  - destruct (proj2 (decimals_any cc t Lt) Dt) as (w & E). rewrite E. eexists. split; [reflexivity|exact F].
  - destruct (Forall2_nth shows s st F y _ Ny) as (b & Eb & H). destruct (Forall2_exists shows s st x F Lx) as (v & a & Ev & Ea & Ha).
    destruct (Nat.eqb_spec x y) as [->|NE].
    + rewrite (object_ok _ _ _ Ea). cbn [bind]. eexists. split; [reflexivity|]. rewrite (put_same s y (Some n) Ny). exact F.
    + rewrite (object_ok _ _ _ Eb). cbn [bind]. unfold on_object. rewrite (object_ok _ _ _ Ea). cbn [bind].
      destruct (assign_ok a b n (shows_length _ _ Ha) H) as (c & E & Hc). unfold returned. rewrite E. cbn [bind caught]. eexists. split; [reflexivity|].
      apply Forall2_put; [exact F|exact Hc].
  - destruct (Forall2_exists shows s st x F Lx) as (v & a & Ev & Ea & Ha). unfold on_object. rewrite (object_ok _ _ _ Ea). cbn [bind t_perform].
    destruct (assign_word_any a d (shows_length _ _ Ha) D) as (c & E & Hc). unfold returned. rewrite E. cbn [bind caught]. eexists. split; [reflexivity|].
    apply Forall2_put; [exact F|exact Hc].
  - destruct (Forall2_nth shows s st F x _ Nx) as (b & Eb & H). unfold on_object. rewrite (object_ok _ _ _ Eb). cbn [bind].
    destruct (t_perform_ok cc o b n K NS H L) as (b' & E & H'). rewrite E. cbn [bind caught]. eexists. split; [reflexivity|]. apply Forall2_put; [exact F|exact H'].
  - destruct (Forall2_nth shows s st F x _ Nx) as (b & Eb & H). unfold on_object. rewrite (object_ok _ _ _ Eb). cbn [bind].
    destruct (t_perform_refused cc o b n K NS H L) as (b' & w & E & H'). rewrite E. cbn [bind caught]. eexists. split; [reflexivity|]. apply Forall2_put; [exact F|exact H'].
  - destruct (Forall2_nth shows s st F x _ Nx) as (b & Eb & H). unfold on_object. rewrite (object_ok _ _ _ Eb). cbn [bind].
    destruct (proj1 (shift_split b n k H K A (shift_room_count b n k H K B)) L) as (b' & E & H').
    rewrite (erase_ok (t_shift_left b k) b') by (rewrite erase_shift; exact E). cbn [bind caught].
    eexists. split; [reflexivity|]. apply Forall2_put; [exact F|exact H'].
  - destruct (Forall2_nth shows s st F x _ Nx) as (b & Eb & H). unfold on_object. rewrite (object_ok _ _ _ Eb). cbn [bind].
    destruct (t_shift_refused b n k H K (proj2 (shift_split b n k H K A (shift_room_count b n k H K B)) L)) as (w & E). rewrite E. cbn [bind caught].
    rewrite (put_same st x b Eb). eexists. split; [reflexivity|exact F].
  - destruct (Forall2_nth shows s st F x _ Nx) as (a & Ea & Ha). destruct (Forall2_nth shows s st F y _ Ny) as (b & Eb & Hb).
    destruct (Forall2_exists shows s st z F Lz) as (v & c & Ev & Ec & Hc).
    rewrite (object_ok _ _ _ Ea), (object_ok _ _ _ Eb), (object_ok _ _ _ Ec). cbn [bind].
    destruct (Nat.eqb_spec z x) as [X|_]; [contradiction|]. destruct (Nat.eqb_spec z y) as [X|_]; [contradiction|].
    destruct (difference_ok a b c n m Ha Hb (shows_length _ _ Hc) NE) as (o & r & E & Hr & _ & X). rewrite (proj2 X BF) in Hr.
    unfold t_difference. rewrite (compare_ok a b n m Ha Hb). cbn [bind].
    assert (S0 : (sign_of (n ?= m) =? 0) = false) by (destruct (Z.compare_spec n m); [contradiction|reflexivity ..]). rewrite S0, E. cbn [bind].
    eexists. split; [reflexivity|]. apply Forall2_put; [exact F|exact Hr].
  - destruct (Forall2_nth shows s st F x _ Nx) as (a & Ea & Ha). destruct (Forall2_nth shows s st F y _ Ny) as (b & Eb & Hb).
    assert (EC : exists c, nth_error st z = Some c) by (destruct ZZ as [-> | ->]; eauto). destruct EC as (c & Ec).
    rewrite (object_ok _ _ _ Ea), (object_ok _ _ _ Eb), (object_ok _ _ _ Ec). cbn [bind].
    assert (EO : exists o, (if (z =? x)%nat then OutThis else if (z =? y)%nat then OutOther else OutApart c) = o /\ (o = OutThis \/ o = OutOther)).
    { destruct (Nat.eqb_spec z x); [eauto|]. destruct (Nat.eqb_spec z y); [eauto|]. destruct ZZ; contradiction. }
    destruct EO as (o & -> & O). destruct (difference_alias a b o n m Ha Hb Bn Bm NE O) as (r & E & Hr).
    unfold t_difference. rewrite (compare_ok a b n m Ha Hb). cbn [bind].
    assert (S0 : (sign_of (n ?= m) =? 0) = false) by (destruct (Z.compare_spec n m); [contradiction|reflexivity ..]). rewrite S0, E. cbn [bind].
    eexists. split; [reflexivity|]. apply Forall2_put; [exact F|exact Hr].
  - destruct (Forall2_nth shows s st F x _ Nx) as (a & Ea & Ha). destruct (Forall2_nth shows s st F y _ Ny) as (b & Eb & Hb).
    destruct (Forall2_exists shows s st z F Lz) as (v & c & Ev & Ec & Hc).
    rewrite (object_ok _ _ _ Ea), (object_ok _ _ _ Eb), (object_ok _ _ _ Ec). cbn [bind].
    unfold t_difference. rewrite (compare_ok a b n n Ha Hb), Z.compare_refl. cbn [bind sign_of Z.eqb].
    assert (EP : put z (match (if (z =? x)%nat then OutThis else if (z =? y)%nat then OutOther else OutApart c) with OutApart out => out | OutThis => a | OutOther => b end) st = st).
    { destruct (Nat.eqb_spec z x) as [->|_]; [exact (put_same _ _ _ Ea)|]. destruct (Nat.eqb_spec z y) as [->|_]; [exact (put_same _ _ _ Eb)|exact (put_same _ _ _ Ec)]. }
    rewrite EP. eexists. split; [reflexivity|exact F].
  - destruct (Forall2_nth shows s st F x _ Nx) as (a & Ea & Ha). destruct (Forall2_nth shows s st F y _ Ny) as (b & Eb & Hb).
    rewrite (object_ok _ _ _ Ea), (object_ok _ _ _ Eb). cbn [bind]. rewrite (compare_ok a b n m Ha Hb). eexists. split; [reflexivity|exact F].
  - destruct (Forall2_nth shows s st F x _ Nx) as (a & Ea & Ha). destruct (Forall2_nth shows s st F y _ Ny) as (b & Eb & Hb).
    rewrite (object_ok _ _ _ Ea), (object_ok _ _ _ Eb). cbn [bind]. rewrite (equal_ok a b n m Ha Hb). eexists. split; [reflexivity|exact F].
  - destruct (Forall2_nth shows s st F x _ Nx) as (a & Ea & Ha). rewrite (object_ok _ _ _ Ea). cbn [bind].
    destruct (queries a n Ha) as (_ & Q & _). rewrite (Q d D). eexists. split; [reflexivity|exact F].
  - destruct (Forall2_nth shows s st F x _ Nx) as (a & Ea & Ha). rewrite (object_ok _ _ _ Ea). cbn [bind].
    destruct (queries a n Ha) as (Q & _). rewrite Q. eexists. split; [reflexivity|exact F].
  - destruct (Forall2_nth shows s st F x _ Nx) as (a & Ea & Ha). rewrite (object_ok _ _ _ Ea). cbn [bind].
    destruct (queries a n Ha) as (_ & _ & Q & _). destruct (count_of a n Ha) as (C1 & U & _ & _).
    rewrite Q; [eexists; split; [reflexivity|exact F]|]. unfold count. split; [exact I|].
    destruct C as [->|C]; [clear - C1; lia|]. destruct (Z.lt_ge_cases i (count_ a)) as [X|X]; [exact X|exfalso].
    assert (Y : 2 ^ (64 * count_ a) <= 2 ^ (64 * i)) by (apply Z.pow_le_mono_r; clear - X; lia). clear - Y U C. lia.
  - destruct (Forall2_nth shows s st F x _ Nx) as (a & Ea & Ha). rewrite (object_ok _ _ _ Ea). cbn [bind].
    destruct (queries a n Ha) as (_ & _ & _ & Q & _). destruct (count_of a n Ha) as (C1 & _ & Z1 & Lw).
    destruct (Q i) as (w & E).
    { unfold count. destruct (Z.eq_dec n 0) as [N|N]; [rewrite (Z1 N); clear - I; lia|].
      destruct (Z.lt_ge_cases i (count_ a)) as [X|X]; [exfalso|exact X]. specialize (Lw N).
      assert (Y : 2 ^ (64 * i) <= 2 ^ (64 * (count_ a - 1))) by (apply Z.pow_le_mono_r; clear - X; lia). clear - Y Lw C. lia. }
    rewrite E. eexists. split; [reflexivity|exact F].
Qed.

Lemma programs_ok cc ops : forall s s' vs st, runs s ops s' vs -> Forall2 shows s st -> exists st', execute_all cc st ops = Ok (st', vs) /\ Forall2 shows s' st'.
Proof.
  induction ops as [|o r IH]; intros s s' vs st R F.
  - inversion R; subst. exists st. split; [reflexivity|exact F].
  - inversion R as [|? ? ? s1 ? v vs1 ST R1]; subst. destruct (step_ok cc s o s1 v st ST F) as (st1 & E1 & F1).
    destruct (IH s1 s' vs1 st1 R1 F1) as (st2 & E2 & F2). exists st2. cbn [execute_all]. rewrite E1. cbn [bind]. rewrite E2. split; [reflexivity|exact F2].
Qed.

(** ** The statements *)

Lemma store_programs cc ops s vs : runs [] ops s vs -> exists st, execute_all cc [] ops = Ok (st, vs) /\ Forall2 (fun v b => forall n, v = Some n -> holds_number (digits_ b) (count_ b) n) s st.
Proof.
  intros R. destruct (programs_ok cc ops [] s vs [] R (Forall2_nil _)) as (st & E & F). exists st. split; [exact E|].
  clear - F. induction F as [|v b s st H F IH]; constructor; [|exact IH]. intros n ->. exact H.
Qed.

Lemma shift_difference_left b n : holds_number (digits_ b) (count_ b) n ->
  (forall s, 0 <= s -> (exists w, shift_left b s = Throw w) -> exists w, t_shift_left b s = Ok (b, Some w)) /\
  (forall x out, holds_number (digits_ x) (count_ x) n ->
     exists w, t_difference b x out = Ok (match out with OutApart o => o | OutThis => b | OutOther => x end, inl w)).
Proof.
  intros H. split.
  - intros s S X. exact (t_shift_refused b n s H S X).
  - intros x out Hx. unfold t_difference. rewrite (compare_ok b x n n H Hx), Z.compare_refl. cbn [bind sign_of Z.eqb]. eauto.
Qed.

Lemma add_left b n d : holds_number (digits_ b) (count_ b) n -> 0 <= d < 2 ^ 64 -> LIMIT <= n + d ->
  exists b' w, t_add_word b d = Ok (b', Some w) /\ holds_full (digits_ b') (count_ b') (n + d - LIMIT).
Proof.
  intros H D L. destruct (t_add_ok b n d H D) as [(X & _)|(_ & b' & w & E & F)]; [lia|]. exists b', w. split; [exact E|].
  pose proof (holds_bounds b n H) as NB. pose proof (small_limit d D) as SD.
  replace (n + d - LIMIT) with ((n + d) mod LIMIT); [exact F|]. symmetry. apply (Z.mod_unique_pos _ _ 1); lia.
Qed.

Lemma mul_left cc b n d : holds_number (digits_ b) (count_ b) n -> 0 <= d < 2 ^ 64 -> LIMIT <= n * d ->
  exists b' w, t_mul_word cc b d = Ok (b', Some w) /\ holds_full (digits_ b') (count_ b') ((n * d) mod LIMIT).
Proof. intros H D L. destruct (t_mul_ok cc b n d H D) as [(X & _)|(_ & b' & w & E & F)]; [lia|]. exists b', w. split; assumption. Qed.

Lemma mul32_left b n d : holds_number (digits_ b) (count_ b) n -> 0 <= d < 2 ^ 32 -> LIMIT <= n * d ->
  exists b' w, t_mul_word32 b d = Ok (b', Some w) /\ holds_full (digits_ b') (count_ b') ((n * d) mod LIMIT).
Proof. intros H D L. destruct (t_mul32_ok b n d H D) as [(X & _)|(_ & b' & w & E & F)]; [lia|]. exists b', w. split; assumption. Qed.

Lemma largest : holds_number (map Some (repeat (2 ^ 64 - 1) (Z.to_nat 416))) 416 (LIMIT - 1).
Proof.
  exists (repeat (2 ^ 64 - 1) (Z.to_nat 416)), []. rewrite app_nil_r, map_length, repeat_length. split; [reflexivity|]. split; [reflexivity|]. split; [reflexivity|].
  split; [discriminate|]. split; [apply Forall_forall; intros w I; apply repeat_spec in I; subst; lia|]. split; [vm_compute; discriminate|].
  vm_compute. reflexivity.
Qed.

(** After a refused addition the object is not what it was, nor a number. *)
Lemma add_damages : exists b n d b' w, holds_number (digits_ b) (count_ b) n /\ 0 <= d < 2 ^ 64 /\ t_add_word b d = Ok (b', Some w) /\ b' <> b /\
  (forall m, ~ holds_number (digits_ b') (count_ b') m) /\ big_isZero b' = Ok false /\ holds_full (digits_ b') (count_ b') 0.
Proof.
  pose (b := Big (map Some (repeat (2 ^ 64 - 1) (Z.to_nat 416))) 416). pose (b' := Big (map Some (repeat 0 (Z.to_nat 416))) 416).
  exists b, (LIMIT - 1), 1, b'. eexists. split; [exact largest|]. split; [lia|]. split; [vm_compute; reflexivity|]. split; [vm_compute; discriminate|].
  split; [|split; [vm_compute; reflexivity|]].
  - intros m (ws & rest & E & L & C & N & _ & Nm & _). cbn [b' digits_ count_] in *.
    assert (Lr : rest = []).
    { apply (f_equal (@length _)) in E. rewrite app_length, !map_length, repeat_length in E. destruct rest; [reflexivity|cbn [length] in E; lia]. }
    subst rest. rewrite app_nil_r in E. assert (W0 : ws = repeat 0 (Z.to_nat 416)).
    { apply (f_equal (map (fun o => match o with Some w => w | None => 0 end))) in E. rewrite !map_map in E.
      rewrite !map_id in E. symmetry. exact E. }
    subst ws. specialize (Nm ltac:(vm_compute; reflexivity)). vm_compute in Nm. discriminate Nm.
  - split; [reflexivity|]. exists (repeat 0 (Z.to_nat 416)). split; [reflexivity|]. split; [rewrite repeat_length; reflexivity|].
    split; [apply Forall_forall; intros w I; apply repeat_spec in I; subst; lia|apply wv_zeros].
Qed.

(** ** An example *)

Definition example_program : list store_op :=
  [New 18446744073709551615; Do 0 (OMul 10000000000000000000); NewCopy 0; Do 1 (OAdd 7); Compare 0 1; New 0; Difference 0 1 2;
   NewText (str "12x"); NewText (str "184467440737095516150000000000000000000"); Equal 0 3; Difference 0 3 1; Shift 0 100; Shift 0 26630; Assign 2 0;
   Assign 2 2; Digit 2 2; Digit 2 4; IsZero 2; EqualWord 1 7; Do 2 (OPow5 20000); Do 2 (OAssign 5); New 9; Difference 2 4 4].

Lemma RCons_as s o r s' s'' v u vs : step s o s' v -> v = u -> runs s' r s'' vs -> runs s (o :: r) s'' (u :: vs).
Proof. intros S <- R. econstructor; eassumption. Qed.

Lemma example_borrow n m : 0 <= m < 2 ^ 128 -> nth_word m 1 <> 2 ^ 64 - 1 -> borrow_free n m.
Proof.
  intros B N j J H. destruct (Z.eq_dec j 0) as [->|J0]; [cbn [Z.mul]; rewrite !Z.pow_0_r, !Z.mod_1_r; lia|].
  destruct (Z.eq_dec j 1) as [->|J1]; [contradiction|]. exfalso. unfold nth_word in H. rewrite Z.div_small in H; [discriminate H|].
  split; [apply B|]. apply Z.lt_le_trans with (2 ^ 128); [apply B|]. apply Z.pow_le_mono_r; lia.
Qed.

Lemma scaled p l m : 0 < m -> l <= p -> 0 <= l -> l <= m * p.
Proof. nia. Qed.

Lemma example_large m : 0 < m -> LIMIT <= m * 5 ^ 20000.
Proof.
  intros M. apply scaled; [exact M| |rewrite LIMIT_Wp; apply Z.lt_le_incl; apply Wp_pos].
  rewrite LIMIT_Wp. apply Z.le_trans with (2 ^ (2 * 20000)); [rewrite Wp_pow; apply Z.pow_le_mono_r; vm_compute; congruence|].
  rewrite Z.pow_mul_r by discriminate. apply Z.pow_le_mono_l. split; discriminate.
Qed.

Lemma example_shifted m : 0 < m -> LIMIT <= m * 2 ^ 26630.
Proof.
  intros M. apply scaled; [exact M| |rewrite LIMIT_Wp; apply Z.lt_le_incl; apply Wp_pos].
  rewrite LIMIT_Wp, Wp_pow. apply Z.pow_le_mono_r; vm_compute; congruence.
Qed.

Lemma example_runs : let n := (2 ^ 64 - 1) * 10 ^ 19 in
  runs [] example_program [Some (n * 2 ^ 100); Some (n + 7); Some 5; Some n; Some 4]
  [Nothing; Nothing; Nothing; Nothing; Number (-1); Nothing; Number 1; Refused; Nothing; Number 1; Refused; Nothing; Refused; Nothing;
   Nothing; Number ((n * 2 ^ 100 / 2 ^ 128) mod 2 ^ 64); Refused; Number 0; Number 0; Refused; Nothing; Nothing; Number 1].
Proof.
  assert (SL : forall x, x < 2 ^ 256 -> x < LIMIT).
  { intros x X. rewrite LIMIT_Wp. apply Z.lt_le_trans with (1 := X). rewrite Wp_pow. apply Z.pow_le_mono_r; vm_compute; congruence. }
  unfold example_program. cbn zeta.
  eapply RCons_as; [apply SNew; lia|reflexivity|]. cbn [app].
  eapply RCons_as; [eapply SDo; [reflexivity|cbn; lia|discriminate|apply SL; reflexivity]|reflexivity|]. cbn [put op_value].
  eapply RCons_as; [eapply SNewCopy; reflexivity|reflexivity|]. cbn [app].
  eapply RCons_as; [eapply SDo; [reflexivity|cbn; lia|discriminate|apply SL; reflexivity]|reflexivity|]. cbn [put op_value].
  eapply RCons_as; [eapply SCompare; reflexivity|reflexivity|].
  eapply RCons_as; [apply SNew; lia|reflexivity|]. cbn [app].
  eapply RCons_as; [eapply SDifference; [reflexivity|reflexivity|discriminate|cbn; lia|discriminate|discriminate|]|reflexivity|].
  { apply example_borrow; vm_compute; [split; [discriminate|reflexivity]|discriminate]. }
  cbn [put].
  eapply RCons_as; [apply SNewTextRefused; [vm_compute; discriminate|]|reflexivity|].
  { intros F. inversion F as [|? ? _ F1]; subst. inversion F1 as [|? ? _ F2]; subst. inversion F2 as [|? ? X _]; subst. vm_compute in X. destruct X as [_ X]. apply X. reflexivity. }
  eapply RCons_as; [apply SNewText; [vm_compute; discriminate|]|reflexivity|].
  { cbv [str list_ascii_of_string]. repeat (constructor; [vm_compute; split; discriminate|]). constructor. }
  cbn [app].
  eapply RCons_as; [eapply SEqual; reflexivity|vm_compute; reflexivity|].
  eapply RCons_as; [eapply (SDifferenceRefused _ 0 3 1); [reflexivity|vm_compute; reflexivity|cbn; lia]|reflexivity|].
  eapply RCons_as; [eapply SShift; [reflexivity|lia|discriminate|intros _; right; vm_compute; intros [X _]; apply X; reflexivity|apply SL; reflexivity]|reflexivity|]. cbn [put].
  eapply RCons_as; [eapply SShiftRefused; [reflexivity|discriminate|discriminate|intros _; right; vm_compute; intros [_ X]; discriminate X|apply example_shifted; reflexivity]|reflexivity|].
  eapply RCons_as; [eapply SAssign; [reflexivity|cbn; lia]|reflexivity|]. cbn [put].
  eapply RCons_as; [eapply SAssign; [reflexivity|cbn; lia]|reflexivity|]. cbn [put].
  eapply RCons_as; [eapply SDigit; [reflexivity|discriminate|right; vm_compute; discriminate]|reflexivity|].
  eapply RCons_as; [eapply SDigitRefused; [reflexivity|reflexivity|vm_compute; reflexivity]|reflexivity|].
  eapply RCons_as; [eapply SIsZero; reflexivity|reflexivity|].
  eapply RCons_as; [eapply SEqualWord; [reflexivity|split; [discriminate|reflexivity]]|reflexivity|].
  eapply RCons_as; [eapply SDoRefused; [reflexivity|split; [discriminate|reflexivity]|discriminate|apply example_large; reflexivity]|reflexivity|]. cbn [put].
  eapply RCons_as; [apply SAssignWord; [split; [discriminate|reflexivity]|cbn; lia]|reflexivity|]. cbn [put].
  eapply RCons_as; [apply SNew; split; [discriminate|reflexivity]|reflexivity|]. cbn [app].
  eapply RCons_as; [eapply (SInPlace _ 2 4 4 5 9); [reflexivity|reflexivity|discriminate|right; reflexivity|reflexivity|reflexivity]|reflexivity|]. cbn [put].
  match goal with |- runs ?a [] ?b [] => replace b with a by (vm_compute; reflexivity) end. apply RNil.
Qed.
