(** Lemmas about Machine.v *)
From Verif Require Import Machine SpecDecimal.
Ltac Zify.zify_post_hook ::= Z.div_mod_to_equations.

Lemma code_range c : 0 <= code c < 256.
Proof.
  unfold code. pose proof (N_ascii_bounded c). lia.
Qed.

Lemma code_chr z : 0 <= z < 256 -> code (chr z) = z.
Proof.
  intros H. unfold code, chr. rewrite Z.mod_small by lia.
  rewrite N_ascii_embedding by lia. lia.
Qed.

Lemma chr_code c : chr (code c) = c.
Proof.
  unfold chr. rewrite Z.mod_small by apply code_range.
  unfold code. rewrite N2Z.id. apply ascii_N_embedding.
Qed.

Lemma code_inj a b : code a = code b -> a = b.
Proof. intros H. rewrite <- (chr_code a), <- (chr_code b), H. reflexivity. Qed.

Lemma code_NUL : code NUL = 0.
Proof. reflexivity. Qed.

Lemma set_nth_app {A} (p : list A) x q y :
  set_nth (p ++ x :: q) (length p) y = p ++ y :: q.
Proof. induction p as [|a p IH]; cbn; [reflexivity|]. f_equal. exact IH. Qed.

Lemma set_nth_length {A} (l : list A) i x : length (set_nth l i x) = length l.
Proof. revert i; induction l as [|a l IH]; intros [|i]; cbn; auto. Qed.

Lemma in_range_true i n : 0 <= i < n -> in_range i n = true.
Proof. unfold in_range. lia. Qed.

Lemma buf_write_app (p : buf) x q c :
  buf_write (p ++ x :: q) (Z.of_nat (length p)) c = Ok (p ++ Some c :: q).
Proof.
  unfold buf_write. rewrite in_range_true.
  - rewrite Nat2Z.id, set_nth_app. reflexivity.
  - rewrite app_length; cbn [length]; lia.
Qed.

Lemma buf_read_app (p : buf) c q :
  buf_read (p ++ Some c :: q) (Z.of_nat (length p)) = Ok c.
Proof.
  unfold buf_read. rewrite in_range_true.
  - rewrite Nat2Z.id, app_nth2, Nat.sub_diag by lia. reflexivity.
  - rewrite app_length; cbn [length]; lia.
Qed.

Lemma buf_read_n_app (p : buf) l q :
  buf_read_n (p ++ map Some l ++ q) (Z.of_nat (length p)) (length l) = Ok l.
Proof.
  revert p; induction l as [|c l IH]; intros p; cbn [length buf_read_n map app]; [reflexivity|].
  rewrite buf_read_app. cbn [bind].
  replace (p ++ Some c :: map Some l ++ q) with ((p ++ [Some c]) ++ map Some l ++ q)
    by (rewrite <- app_assoc; reflexivity).
  replace (Z.of_nat (length p) + 1) with (Z.of_nat (length (p ++ [Some c])))
    by (rewrite app_length; cbn [length]; lia).
  rewrite IH. reflexivity.
Qed.

Lemma buf_c_string_app fuel (p : buf) l q :
  Forall (fun c => c <> NUL) l -> (length l < fuel)%nat ->
  buf_c_string fuel (p ++ map Some l ++ Some NUL :: q) (Z.of_nat (length p)) = Ok l.
Proof.
  revert fuel p; induction l as [|c l IH]; intros fuel p HF Hf;
    (destruct fuel as [|fuel]; [cbn in Hf; lia|]); cbn [buf_c_string map app].
  - rewrite buf_read_app. reflexivity.
  - rewrite buf_read_app. cbn [bind].
    inversion HF as [|? ? Hc HF']; subst.
    destruct (Z.eqb_spec (code c) 0) as [E|E].
    { exfalso. apply Hc, code_inj. rewrite E. reflexivity. }
    replace (p ++ Some c :: map Some l ++ Some NUL :: q)
      with ((p ++ [Some c]) ++ map Some l ++ Some NUL :: q)
      by (rewrite <- app_assoc; reflexivity).
    replace (Z.of_nat (length p) + 1) with (Z.of_nat (length (p ++ [Some c])))
      by (rewrite app_length; cbn [length]; lia).
    rewrite IH; [reflexivity|assumption|cbn in Hf; lia].
Qed.

(** The cursor at the end of the text [out], with [tail] still free. *)
Definition at_end (out : bytes) (tail : buf) : cursor :=
  Cursor (map Some out ++ tail) (Z.of_nat (length out)).

Lemma put_at_end out x tail c :
  put (at_end out (x :: tail)) c = Ok (at_end (out ++ [c]) tail).
Proof.
  unfold put, at_end; cbn [cbuf cpos].
  replace (Z.of_nat (length out)) with (Z.of_nat (length (map (@Some ascii) out)))
    by (rewrite map_length; reflexivity).
  rewrite buf_write_app. cbn [bind]. f_equal. f_equal.
  - rewrite map_app, <- app_assoc. reflexivity.
  - rewrite map_length, app_length; cbn [length]; lia.
Qed.

Lemma buf_write_list_app (p : buf) old l q :
  length old = length l ->
  buf_write_list (p ++ old ++ q) (Z.of_nat (length p)) l = Ok (p ++ map Some l ++ q).
Proof.
  revert p old; induction l as [|c l IH]; intros p old Hl;
    destruct old as [|o old]; try discriminate Hl; cbn [buf_write_list map app]; [reflexivity|].
  rewrite buf_write_app. cbn [bind].
  replace (p ++ Some c :: old ++ q) with ((p ++ [Some c]) ++ old ++ q)
    by (rewrite <- app_assoc; reflexivity).
  replace (Z.of_nat (length p) + 1) with (Z.of_nat (length (p ++ [Some c])))
    by (rewrite app_length; cbn [length]; lia).
  rewrite IH by (cbn in Hl; lia). rewrite <- app_assoc. reflexivity.
Qed.

(** ** Decimal digits *)

Definition dchr (d : Z) : ascii := chr (48 + d).

Lemma code_dchr d : 0 <= d < 10 -> code (dchr d) = 48 + d.
Proof. intros H. unfold dchr. apply code_chr. lia. Qed.

Lemma digit_value_dchr d : 0 <= d < 10 -> digit_value (dchr d) = d.
Proof. intros H. unfold digit_value. rewrite code_dchr by lia. lia. Qed.

Lemma is_digit_dchr d : 0 <= d < 10 -> is_digit (dchr d).
Proof. intros H. unfold is_digit. rewrite code_dchr by lia. lia. Qed.

Lemma dchr_inj a b : 0 <= a < 10 -> 0 <= b < 10 -> dchr a = dchr b -> a = b.
Proof. intros Ha Hb E. apply (f_equal code) in E. rewrite !code_dchr in E by lia. lia. Qed.

Lemma is_digit_dchr_inv c : is_digit c -> exists d, 0 <= d < 10 /\ c = dchr d.
Proof.
  intros H. exists (code c - 48). unfold is_digit in H. split; [lia|].
  unfold dchr. replace (48 + (code c - 48)) with (code c) by lia. symmetry; apply chr_code.
Qed.

Definition nval (l : list Z) : Z := fold_left (fun a d => 10 * a + d) l 0.

Lemma numeral_value_dchr l :
  Forall (fun d => 0 <= d < 10) l -> numeral_value (map dchr l) = nval l.
Proof.
  unfold numeral_value, nval. intros H. generalize 0 as a. revert H.
  induction l as [|d l IH]; intros H a; [reflexivity|].
  inversion H as [|? ? Hd Hl]; subst. cbn [map fold_left]. rewrite digit_value_dchr by exact Hd. apply IH; exact Hl.
Qed.

Lemma fold_numeral_app l1 l2 a :
  fold_left (fun a c => 10 * a + digit_value c) (l1 ++ l2) a =
  fold_left (fun a c => 10 * a + digit_value c) l2 (fold_left (fun a c => 10 * a + digit_value c) l1 a).
Proof. apply fold_left_app. Qed.

Lemma fold_numeral_shift l a :
  fold_left (fun a c => 10 * a + digit_value c) l a = a * 10 ^ Z.of_nat (length l) + numeral_value l.
Proof.
  unfold numeral_value. revert a. induction l as [|c l IH]; intros a; cbn [fold_left length].
  - change (10 ^ Z.of_nat 0) with 1. lia.
  - rewrite (IH (10 * a + digit_value c)), (IH (10 * 0 + digit_value c)).
    rewrite Nat2Z.inj_succ, Z.pow_succ_r by lia. ring.
Qed.

Lemma numeral_value_app l1 l2 :
  numeral_value (l1 ++ l2) = numeral_value l1 * 10 ^ Z.of_nat (length l2) + numeral_value l2.
Proof.
  unfold numeral_value at 1. rewrite fold_numeral_app, fold_numeral_shift. reflexivity.
Qed.

Lemma numeral_value_bounds l :
  Forall is_digit l -> 0 <= numeral_value l < 10 ^ Z.of_nat (length l).
Proof.
  induction l as [|c l IH] using rev_ind; intros H.
  - cbn. lia.
  - apply Forall_app in H as [H1 H2]. inversion H2 as [|? ? Hc _]; subst.
    specialize (IH H1). rewrite numeral_value_app, app_length.
    cbn [length]. rewrite Nat2Z.inj_add, Z.pow_add_r by lia.
    change (Z.of_nat 1) with 1. rewrite Z.pow_1_r.
    unfold numeral_value at 2 4. cbn [fold_left]. unfold is_digit, digit_value in *. lia.
Qed.
