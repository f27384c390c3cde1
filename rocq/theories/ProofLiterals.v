(** Proofs about configured literals. *)
From Coq Require Import Lia.
From Verif Require Import Machine LibMachine SpecMachine SpecLiterals SpecBytes ModelText ModelFloat ModelLiterals ProofBytes.
Open Scope Z_scope.

Lemma is_nul c : (code c =? 0) = true <-> c = NUL.
Proof. rewrite Z.eqb_eq. split; [intros H; apply code_inj; rewrite H; reflexivity|intros ->; reflexivity]. Qed.

Lemma text_of_array l c : c_text l c -> c_text_of (literal_array l) = c.
Proof.
  intros [N E]. assert (exists r, literal_array l = c ++ NUL :: r) as [r ->].
  { unfold literal_array. destruct E as [->|[r ->]]; [exists []; reflexivity|]. exists (r ++ [NUL]). rewrite <- app_assoc. reflexivity. }
  clear E. induction c as [|x c IH]; [reflexivity|]. cbn [app c_text_of]. destruct (code x =? 0) eqn:Z.
  - apply is_nul in Z. subst x. exfalso. apply N. left. reflexivity.
  - f_equal. apply IH. intros H. apply N. right. exact H.
Qed.

Lemma text_length l c : c_text l c -> (length c <= length l)%nat.
Proof. intros [_ [->|[r ->]]]; [lia|]. rewrite app_length. lia. Qed.

Lemma text_exists l : exists c, c_text l c.
Proof.
  induction l as [|x l [c [N E]]]; [exists []; split; [intros []|left; reflexivity]|]. destruct (ascii_dec x NUL) as [->|X].
  - exists []. split; [intros []|right; exists l; reflexivity].
  - exists (x :: c). split; [intros [H|H]; [congruence|exact (N H)]|]. destruct E as [->|[r ->]]; [left; reflexivity|right; exists r; reflexivity].
Qed.

Lemma text_unique l c c' : c_text l c -> c_text l c' -> c = c'.
Proof. intros H H'. rewrite <- (text_of_array l c H). apply text_of_array. exact H'. Qed.

(** ** strncpy *)

Lemma pad_list n : forall d i, pad d i n = buf_write_list d i (repeat NUL n).
Proof. induction n as [|n IH]; intros d i; [reflexivity|]. cbn [pad repeat buf_write_list]. destruct (buf_write d i NUL); cbn [bind]; [apply IH|reflexivity..]. Qed.

Definition stored (l c : bytes) : bytes := c ++ repeat NUL (S (length l) - length c).

Lemma copy_list l c : c_text l c -> forall d i, c_strncpy d i (literal_array l) (length (literal_array l)) = buf_write_list d i (stored l c).
Proof.
  unfold stored, literal_array. revert c. induction l as [|x l IH]; intros c H d i.
  - assert (c = []) as -> by (destruct H as [_ [<-|[r H]]]; [reflexivity|destruct c; discriminate H]). reflexivity.
  - cbn [app length c_strncpy]. destruct (code x =? 0) eqn:Z.
    + apply is_nul in Z. subst x. assert (c = []) as ->.
      { destruct H as [N E]. destruct c as [|y c]; [reflexivity|]. exfalso. apply N. left. destruct E as [E|[r E]]; injection E; intros; congruence. }
      rewrite app_length. cbn [app length repeat buf_write_list Nat.sub]. destruct (buf_write d i NUL); cbn [bind]; [|reflexivity..]. rewrite pad_list, Nat.add_1_r. reflexivity.
    + destruct c as [|y c].
      { exfalso. destruct H as [_ [H|[r H]]]; [discriminate H|]. injection H as -> _. discriminate Z. }
      assert (x = y /\ c_text l c) as [-> H'].
      { destruct H as [N E]. destruct E as [E|[r E]]; injection E as -> E; (split; [reflexivity|]); (split; [intros G; apply N; right; exact G|]); [left; exact E|right; exists r; exact E]. }
      cbn [app buf_write_list length Nat.sub]. destruct (buf_write d i y); cbn [bind]; [|reflexivity..]. exact (IH c H' _ _).
Qed.

Lemma stored_length l c : c_text l c -> length (stored l c) = S (length l).
Proof. intros H. apply text_length in H. unfold stored. rewrite app_length, repeat_length. lia. Qed.

Lemma copy_ok N l c : c_text l c -> (length l < N)%nat ->
  copy_literal (new_buf N) l = Ok (map Some (stored l c) ++ repeat None (N - S (length l))).
Proof.
  intros H L. unfold copy_literal. rewrite (copy_list l c H). unfold new_buf.
  replace N with (S (length l) + (N - S (length l)))%nat at 1 by lia. rewrite repeat_app.
  apply (buf_write_list_app []). rewrite repeat_length, stored_length by exact H. reflexivity.
Qed.

Lemma copy_ub N l : (N <= length l)%nat -> undefined (copy_literal (new_buf N) l).
Proof.
  intros L. destruct (text_exists l) as [c H]. unfold copy_literal. rewrite (copy_list l c H). apply write_outside.
  - unfold new_buf. rewrite repeat_length, stored_length by exact H. lia.
  - intros E. apply (f_equal (@length _)) in E. rewrite stored_length in E by exact H. discriminate E.
Qed.

Lemma read_stored n l c q : c_text l c -> (n <= S (length l))%nat ->
  buf_read_n (map Some (stored l c) ++ q) 0 n = Ok (firstn n (stored l c)).
Proof.
  intros H L. rewrite <- (firstn_skipn n (stored l c)) at 1. rewrite map_app, <- app_assoc.
  pose proof (buf_read_n_app [] (firstn n (stored l c)) (map Some (skipn n (stored l c)) ++ q)) as R. cbn [app length] in R.
  rewrite firstn_length_le in R by (rewrite stored_length by exact H; exact L). exact R.
Qed.

Lemma read_past n l c k : c_text l c -> (S (length l) < n)%nat -> undefined (buf_read_n (map Some (stored l c) ++ repeat None k) 0 n).
Proof.
  intros H L. rewrite <- (stored_length l c H) in L. generalize dependent (stored l c). clear. intros s L.
  assert (G : forall p s n, (length s < n)%nat -> undefined (buf_read_n (p ++ map Some s ++ repeat None k) (Z.of_nat (length p)) n)).
  { clear. intros p s. revert p. induction s as [|x s IH]; intros p n L; (destruct n as [|n]; [lia|]); cbn [map app buf_read_n].
    - assert (U : undefined (buf_read (p ++ repeat None k) (Z.of_nat (length p)))).
      { unfold buf_read. rewrite Nat2Z.id, app_nth2, Nat.sub_diag by lia. destruct k; cbn [repeat nth]; destruct (in_range _ _); unfold undefined; eexists; reflexivity. }
      destruct U as [w ->]. unfold undefined. eexists. reflexivity.
    - rewrite buf_read_app. cbn [bind]. replace (p ++ Some x :: map Some s ++ repeat None k) with ((p ++ [Some x]) ++ map Some s ++ repeat None k) by (rewrite <- app_assoc; reflexivity).
      replace (Z.of_nat (length p) + 1) with (Z.of_nat (length (p ++ [Some x]))) by (rewrite app_length; cbn [length]; lia).
      destruct (IH (p ++ [Some x]) n) as [w ->]; [cbn [length] in L; lia|]. unfold undefined. eexists. reflexivity. }
  exact (G [] s n L).
Qed.

(** ** Booleans and null *)

Lemma fixed_size N n l c : c_text l c -> forall (s := let* o := (let* m := copy_literal (new_buf N) l in Ok (MkFormatText m (Z.of_nat n))) in FormatText_string o),
  ((length l < N)%nat /\ (n <= S (length l))%nat -> s = Ok (firstn n (c ++ repeat NUL N))) /\
  (~ ((length l < N)%nat /\ (n <= S (length l))%nat) -> undefined s).
Proof.
  intros H s. unfold s. split.
  - intros [L M]. rewrite (copy_ok N l c H L). cbn [bind]. unfold FormatText_string, FormatText_size. cbn [ft_buffer ft_size]. rewrite Nat2Z.id, read_stored by assumption.
    f_equal. unfold stored. pose proof (text_length l c H) as T. rewrite !firstn_app. f_equal.
    assert (F : forall a b, (a <= b)%nat -> firstn a (repeat NUL b) = repeat NUL a).
    { induction a as [|a IH]; intros b B; [reflexivity|]. destruct b; [lia|]. cbn [repeat firstn]. rewrite IH by lia. reflexivity. }
    rewrite !F by lia. reflexivity.
  - intros X. destruct (Nat.lt_ge_cases (length l) N) as [L|L].
    + rewrite (copy_ok N l c H L). cbn [bind]. unfold FormatText_string, FormatText_size. cbn [ft_buffer ft_size]. rewrite Nat2Z.id. apply read_past; [exact H|lia].
    + destruct (copy_ub N l L) as [w ->]. exists_ub.
Qed.

Lemma view N n l c : c_text l c -> (length l < N)%nat ->
  (let* o := (let* m := copy_literal (new_buf N) l in Ok (MkFormatText m n)) in FormatText_c_str o) = Ok c.
Proof.
  intros H L. rewrite (copy_ok N l c H L). cbn [bind]. unfold FormatText_c_str. cbn [ft_buffer]. pose proof (text_length l c H) as T.
  unfold stored. replace (S (length l) - length c)%nat with (S (length l - length c)) by lia. cbn [repeat].
  rewrite map_app, <- app_assoc. cbn [map app]. apply (buf_c_string_app _ []).
  - apply Forall_forall. intros x X ->. exact (proj1 H X).
  - rewrite app_length, map_length. lia.
Qed.

Lemma bool_text lit (b : bool) c : let l := if b then lit_true lit else lit_false lit in let n := if b then 4%nat else 5%nat in c_text l c ->
  ((length l <= 5)%nat /\ (n <= S (length l))%nat -> (let* o := FormatBool_any lit b in FormatText_string o) = Ok (firstn n (c ++ repeat NUL 6))) /\
  (~ ((length l <= 5)%nat /\ (n <= S (length l))%nat) -> undefined (let* o := FormatBool_any lit b in FormatText_string o)).
Proof.
  intros l n H. unfold l, n in *. destruct b; pose proof (fixed_size 6 (if true then 4 else 5) _ c H) as F1; pose proof (fixed_size 6 5 _ c H) as F2;
    cbv zeta in F1, F2; unfold FormatBool_any; (split; [intros [A B]; first [apply F1|apply F2]; lia|intros X; first [apply F1|apply F2]; lia]).
Qed.

Lemma null_text lit c : c_text (lit_null lit) c ->
  (length (lit_null lit) = 4%nat \/ length (lit_null lit) = 3%nat -> (let* o := FormatNull_any lit in FormatText_string o) = Ok (firstn 4 (c ++ repeat NUL 5))) /\
  (~ (length (lit_null lit) = 4%nat \/ length (lit_null lit) = 3%nat) -> undefined (let* o := FormatNull_any lit in FormatText_string o)).
Proof. intros H. pose proof (fixed_size 5 4 _ c H) as F. cbv zeta in F. unfold FormatNull_any. split; intros X; apply F; lia. Qed.

Lemma special_text l c : c_text l c ->
  ((length l < 30)%nat -> (let* o := special_any l in FormatFloat_string o) = Ok (c ++ repeat NUL (length l - length c))) /\
  (~ (length l < 30)%nat -> undefined (let* o := special_any l in FormatFloat_string o)).
Proof.
  intros H. unfold special_any. change FLOAT_SIZE with 30%nat. split; intros L.
  - rewrite (copy_ok 30 l c H L). cbn [bind]. unfold FormatFloat_string, FormatFloat_size. cbn [ff_buffer ff_first ff_last]. unfold literal_array. rewrite app_length. cbn [length].
    match goal with |- buf_read_n _ 0 ?k = _ => replace k with (length l) by lia end.
    rewrite read_stored by (try exact H; lia). f_equal. unfold stored. pose proof (text_length l c H) as T. rewrite firstn_app, firstn_all2 by lia. f_equal.
    replace (S (length l) - length c)%nat with ((length l - length c) + 1)%nat by lia. rewrite repeat_app, firstn_app, repeat_length, Nat.sub_diag, firstn_O, app_nil_r.
    apply firstn_all2. rewrite repeat_length. lia.
  - destruct (copy_ub 30 l) as [w ->]; [lia|]. exists_ub.
Qed.

Lemma special_view l c : c_text l c -> (length l < 30)%nat -> (let* o := special_any l in FormatFloat_c_str o) = Ok c.
Proof.
  intros H L. rewrite <- (view 30 0 l c H L). unfold special_any. change FLOAT_SIZE with 30%nat. destruct (copy_literal (new_buf 30) l); reflexivity.
Qed.

Lemma views lit : (forall (b : bool) c, c_text (if b then lit_true lit else lit_false lit) c -> (length (if b then lit_true lit else lit_false lit) <= 5)%nat ->
    (let* o := FormatBool_any lit b in FormatText_c_str o) = Ok c) /\
  (forall c, c_text (lit_null lit) c -> (length (lit_null lit) <= 4)%nat -> (let* o := FormatNull_any lit in FormatText_c_str o) = Ok c) /\
  (forall l c, c_text l c -> (length l <= 29)%nat -> (let* o := special_any l in FormatFloat_c_str o) = Ok c).
Proof.
  split; [|split].
  - intros b c H L. destruct b; apply view; try exact H; lia.
  - intros c H L. apply view; [exact H|lia].
  - intros l c H L. apply special_view; [exact H|lia].
Qed.

(** ** Extraction *)

Lemma equals_text s l : equals_array s (literal_array l) = true <-> c_text l s.
Proof.
  unfold equals_array, string_eqb. destruct (text_exists l) as [c H]. rewrite (text_of_array l c H). destruct (list_eq_dec ascii_dec s c) as [->|N].
  - split; auto.
  - split; [discriminate|]. intros G. exfalso. apply N. exact (text_unique l s c G H).
Qed.

Lemma extract_bool lit s :
  (ExtractBool_any lit s = Ok true <-> c_text (lit_true lit) s) /\
  (ExtractBool_any lit s = Ok false <-> c_text (lit_false lit) s /\ ~ c_text (lit_true lit) s) /\
  (ExtractBool_any lit s = Throw "String is not boolean." <-> ~ c_text (lit_false lit) s /\ ~ c_text (lit_true lit) s).
Proof.
  unfold ExtractBool_any. rewrite <- !equals_text.
  destruct (equals_array s (literal_array (lit_true lit))), (equals_array s (literal_array (lit_false lit))); intuition congruence.
Qed.

Lemma extract_null lit s :
  (ExtractNull_any lit s = Ok tt <-> c_text (lit_null lit) s) /\ (ExtractNull_any lit s = Throw """String is not null.""" <-> ~ c_text (lit_null lit) s).
Proof. unfold ExtractNull_any. rewrite <- !equals_text. destruct (equals_array s (literal_array (lit_null lit))); intuition congruence. Qed.

(** ** Round trips *)

Lemma firstn_is n c k : ~ In NUL c -> (n <= length c + k)%nat -> (firstn n (c ++ repeat NUL k) = c <-> length c = n).
Proof.
  intros N L. split.
  - intros E. apply (f_equal (@length _)) in E. rewrite firstn_length_le in E; [congruence|]. rewrite app_length, repeat_length. exact L.
  - intros <-. rewrite firstn_app, Nat.sub_diag, firstn_all. apply app_nil_r.
Qed.

Lemma self_text c : ~ In NUL c -> c_text c c.
Proof. intros N. split; [exact N|left; reflexivity]. Qed.

Lemma not_ok {A B} (m : outcome A) (f : A -> outcome B) v : undefined m -> bind m f = Ok v -> False.
Proof. intros [w ->]. discriminate. Qed.

Lemma bool_round lit ct cf : c_text (lit_true lit) ct -> c_text (lit_false lit) cf ->
  ((forall b, (let* s := (let* o := FormatBool_any lit b in FormatText_string o) in ExtractBool_any lit s) = Ok b) <->
   length ct = 4%nat /\ (length (lit_true lit) <= 5)%nat /\ length cf = 5%nat /\ (length (lit_false lit) <= 5)%nat).
Proof.
  intros T F. pose proof (bool_text lit true ct T) as [A1 A2]. pose proof (bool_text lit false cf F) as [B1 B2]. cbv zeta in *.
  pose proof (text_length _ _ T) as LT. pose proof (text_length _ _ F) as LF. split.
  - intros R. pose proof (R true) as Rt. pose proof (R false) as Rf.
    assert (dec : forall l n, {(length (l : bytes) <= 5)%nat /\ (n <= S (length l))%nat} + {~ ((length l <= 5)%nat /\ (n <= S (length l))%nat)})
      by (clear; intros l n; destruct (le_dec (length l) 5), (le_dec n (S (length l))); intuition).
    destruct (dec (lit_true lit) 4%nat) as [D1|D1]; [|exfalso; exact (not_ok _ _ _ (A2 D1) Rt)].
    destruct (dec (lit_false lit) 5%nat) as [D2|D2]; [|exfalso; exact (not_ok _ _ _ (B2 D2) Rf)].
    rewrite (A1 D1) in Rt. rewrite (B1 D2) in Rf. cbn [bind] in Rt, Rf. apply extract_bool in Rt. apply extract_bool in Rf. destruct Rf as [Rf _].
    apply (text_unique _ _ _ T) in Rt. apply (text_unique _ _ _ F) in Rf. symmetry in Rt, Rf.
    apply firstn_is in Rt; [|exact (proj1 T)|lia]. apply firstn_is in Rf; [|exact (proj1 F)|lia]. intuition.
  - intros (E1 & L1 & E2 & L2) b. destruct b.
    + rewrite A1 by lia. cbn [bind]. apply extract_bool. rewrite (proj2 (firstn_is 4 ct 6 (proj1 T) ltac:(lia))) by exact E1. exact T.
    + rewrite B1 by lia. cbn [bind]. apply extract_bool. rewrite (proj2 (firstn_is 5 cf 6 (proj1 F) ltac:(lia))) by exact E2. split; [exact F|].
      intros G. pose proof (text_unique _ _ _ T G) as E. rewrite E in E1. lia.
Qed.

Lemma null_round lit c : c_text (lit_null lit) c ->
  ((let* s := (let* o := FormatNull_any lit in FormatText_string o) in ExtractNull_any lit s) = Ok tt <-> lit_null lit = c /\ length c = 4%nat).
Proof.
  intros H. pose proof (null_text lit c H) as [A B]. pose proof (text_length _ _ H) as L. split.
  - intros R. assert (D : {length (lit_null lit) = 4%nat \/ length (lit_null lit) = 3%nat} + {~ (length (lit_null lit) = 4%nat \/ length (lit_null lit) = 3%nat)})
      by (clear; destruct (Nat.eq_dec (length (lit_null lit)) 4), (Nat.eq_dec (length (lit_null lit)) 3); intuition).
    destruct D as [D|D]; [|exfalso; exact (not_ok _ _ _ (B D) R)]. rewrite (A D) in R. cbn [bind] in R. apply extract_null in R.
    apply (text_unique _ _ _ H) in R. symmetry in R. apply firstn_is in R; [|exact (proj1 H)|lia]. split; [|exact R].
    destruct H as [_ [E|[r E]]]; [exact E|]. rewrite E, app_length in D. cbn [length] in D. lia.
  - intros [E L4]. rewrite A by (rewrite E; lia). cbn [bind]. apply extract_null. rewrite (proj2 (firstn_is 4 c 5 (proj1 H) ltac:(lia))) by exact L4. exact H.
Qed.

(** ** Without NUL this is the model of ModelText.v *)

Lemma plain_copy l d : ~ In NUL l -> copy_literal d l = buf_strncpy_literal d 0 l.
Proof.
  intros N. unfold copy_literal. rewrite (copy_list l l (self_text l N)). unfold buf_strncpy_literal, stored. replace (S (length l) - length l)%nat with 1%nat by lia. reflexivity.
Qed.

Lemma plain_equal s l : ~ In NUL l -> equals_array s (literal_array l) = string_eqb s l.
Proof. intros N. unfold equals_array. rewrite (text_of_array l l (self_text l N)). reflexivity. Qed.

Lemma plain lit : ~ In NUL (lit_true lit) -> ~ In NUL (lit_false lit) -> ~ In NUL (lit_null lit) ->
  (forall b, FormatBool_any lit b = FormatBool_new lit b) /\ (forall s, ExtractBool_any lit s = ExtractBool lit s) /\
  FormatNull_any lit = FormatNull_new lit /\ (forall s, ExtractNull_any lit s = ExtractNull lit s) /\
  (forall l, ~ In NUL l -> special_any l = special l).
Proof.
  intros T F N. repeat split.
  - intros [|]; unfold FormatBool_any, FormatBool_new; rewrite plain_copy by assumption; reflexivity.
  - intros s. unfold ExtractBool_any, ExtractBool. rewrite !plain_equal by assumption. reflexivity.
  - unfold FormatNull_any, FormatNull_new. rewrite plain_copy by assumption. reflexivity.
  - intros s. unfold ExtractNull_any, ExtractNull. rewrite plain_equal by assumption. reflexivity.
  - intros l L. unfold special_any, special. rewrite plain_copy by assumption. unfold literal_array. rewrite app_length. cbn [length].
    destruct (buf_strncpy_literal _ _ _); cbn [bind]; [|reflexivity..]. do 2 f_equal. lia.
Qed.
