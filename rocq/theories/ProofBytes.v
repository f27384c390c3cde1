(** Proofs about the bytes of words. *)
From Coq Require Import Lia Permutation.
From Verif Require Import Machine LibMachine SpecMachine SpecBytes ModelDiyfp ModelBigint ModelBytes.
Open Scope Z_scope.

Ltac exists_ub := unfold undefined; eexists; reflexivity.

(** ** One word *)

Fixpoint total (f : nat -> Z) (o : list nat) : Z := match o with [] => 0 | i :: o => f i + total f o end.

Lemma total_perm f o o' : Permutation o o' -> total f o = total f o'.
Proof. induction 1; cbn [total]; lia. Qed.

Lemma code_chr z : code (chr z) = z mod 256.
Proof.
  pose proof (Z.mod_pos_bound z 256 ltac:(lia)). unfold code, chr. rewrite N_ascii_embedding by lia. lia.
Qed.

Lemma assemble_total o w : assemble o (in_memory o w) = total (fun i => (w / 2 ^ (8 * Z.of_nat i)) mod 256 * 2 ^ (8 * Z.of_nat i)) o.
Proof.
  unfold assemble, in_memory. induction o as [|i o IH]; [reflexivity|]. cbn [map combine fold_right total fst snd]. rewrite IH, code_chr. reflexivity.
Qed.

Lemma bytes_sum w : 0 <= w < 2 ^ 64 -> total (fun i => (w / 2 ^ (8 * Z.of_nat i)) mod 256 * 2 ^ (8 * Z.of_nat i)) (seq 0 8) = w.
Proof.
  intros H. assert (S : forall n, total (fun i => (w / 2 ^ (8 * Z.of_nat i)) mod 256 * 2 ^ (8 * Z.of_nat i)) (seq 0 n) = w mod 2 ^ (8 * Z.of_nat n)).
  { assert (A : forall f a b, total f (a ++ b) = total f a + total f b) by (intros f a b; induction a as [|x a IH]; cbn [app total]; lia).
    induction n as [|n IH]; [cbn; rewrite Z.mod_1_r; reflexivity|]. rewrite seq_S, A, IH. cbn [total plus].
    replace (8 * Z.of_nat (S n)) with (8 * Z.of_nat n + 8) by lia. rewrite Z.pow_add_r by lia. change (2 ^ 8) with 256.
    rewrite Z.rem_mul_r by (try apply Z.pow_nonzero; lia). lia. }
  rewrite S. change (8 * Z.of_nat 8) with 64. apply Z.mod_small. exact H.
Qed.

Lemma loaded o w : byte_order o -> 0 <= w < 2 ^ 64 -> assemble o (in_memory o w) = w.
Proof. intros O H. rewrite assemble_total, (total_perm _ _ _ O). apply bytes_sum. exact H. Qed.

Lemma memory_length o w : byte_order o -> length (in_memory o w) = 8%nat.
Proof. intros O. unfold in_memory. rewrite map_length. apply Permutation_length in O. exact O. Qed.

Lemma memory_inj o w v : byte_order o -> 0 <= w < 2 ^ 64 -> 0 <= v < 2 ^ 64 -> in_memory o w = in_memory o v -> w = v.
Proof. intros O W V E. rewrite <- (loaded o w O W), <- (loaded o v O V), E. reflexivity. Qed.

(** ** Arrays *)

Section arrays.
Context (o : order) (O : byte_order o).

Definition cell (x : option Z) : buf := match x with Some w => map Some (in_memory o w) | None => repeat None 8 end.

Lemma cell_length x : length (cell x) = 8%nat.
Proof using O. destruct x; cbn [cell]; [rewrite map_length; apply memory_length; exact O|reflexivity]. Qed.
Lemma image_cons x d : image o (x :: d) = cell x ++ image o d.
Proof using Type. reflexivity. Qed.
Lemma image_app a b : image o (a ++ b) = image o a ++ image o b.
Proof using Type. apply flat_map_app. Qed.
Lemma image_length d : length (image o d) = (8 * length d)%nat.
Proof using O. induction d as [|x d IH]; [reflexivity|]. rewrite image_cons, app_length, cell_length, IH. cbn [length]. lia. Qed.
Lemma image_firstn n d : firstn (8 * n) (image o d) = image o (firstn n d).
Proof using O.
  revert d. induction n as [|n IH]; intros d; [reflexivity|]. destruct d as [|x d]; [apply firstn_nil|]. rewrite image_cons.
  replace (8 * S n)%nat with (length (cell x) + 8 * n)%nat by (rewrite cell_length; lia). rewrite firstn_app_2, IH. reflexivity.
Qed.
Lemma image_skipn n d : skipn (8 * n) (image o d) = image o (skipn n d).
Proof using O.
  revert d. induction n as [|n IH]; intros d; [reflexivity|]. destruct d as [|x d]; [apply skipn_nil|]. rewrite image_cons.
  replace (8 * S n)%nat with (length (cell x) + 8 * n)%nat by (rewrite cell_length; lia).
  rewrite skipn_app, skipn_all2 by lia. cbn [app]. replace (length (cell x) + 8 * n - length (cell x))%nat with (8 * n)%nat by lia. rewrite IH. reflexivity.
Qed.

Lemma to_nat8 n : Z.to_nat (8 * n) = (8 * Z.to_nat n)%nat.
Proof using Type. lia. Qed.
Lemma size8 d : Z.of_nat (length (image o d)) = 8 * Z.of_nat (length d).
Proof using O. rewrite image_length. lia. Qed.

Lemma sim_move d dst src n : simulates (image o) (words_memmove d dst src n) (buf_memmove (image o d) (8 * dst) (8 * src) (8 * n)).
Proof using O.
  unfold words_memmove, buf_memmove. rewrite size8. set (L := Z.of_nat (length d)).
  assert (E : (0 <=? 8 * n) && (0 <=? 8 * dst) && (8 * dst + 8 * n <=? 8 * L) && (0 <=? 8 * src) && (8 * src + 8 * n <=? 8 * L) =
              (0 <=? n) && (0 <=? dst) && (dst + n <=? L) && (0 <=? src) && (src + n <=? L)).
  { apply Bool.eq_iff_eq_true. rewrite !Bool.andb_true_iff, !Z.leb_le. lia. }
  rewrite E. match goal with |- context [if ?c then _ else _] => destruct c end; cbn [simulates]; [|exists_ub]. f_equal.
  replace (8 * dst + 8 * n) with (8 * (dst + n)) by lia. rewrite !to_nat8, !image_firstn, !image_skipn, !image_firstn, !image_app. reflexivity.
Qed.

Lemma sim_copy d s n : simulates (image o) (words_copy d s n) (b_memcpy (image o d) (image o s) (8 * n)).
Proof using O.
  unfold words_copy, b_memcpy. rewrite !size8.
  assert (E : (0 <=? 8 * n) && (8 * n <=? 8 * Z.of_nat (length d)) && (8 * n <=? 8 * Z.of_nat (length s)) =
              (0 <=? n) && (n <=? Z.of_nat (length d)) && (n <=? Z.of_nat (length s))).
  { apply Bool.eq_iff_eq_true. rewrite !Bool.andb_true_iff, !Z.leb_le. lia. }
  rewrite E. match goal with |- context [if ?c then _ else _] => destruct c end; cbn [simulates]; [|exists_ub]. f_equal. rewrite !to_nat8, !image_firstn, !image_skipn, !image_app. reflexivity.
Qed.

Lemma zero_cell n : repeat (Some NUL) (8 * n) = image o (repeat (Some 0) n).
Proof using O.
  induction n as [|n IH]; [reflexivity|]. cbn [repeat]. rewrite image_cons, <- IH. replace (8 * S n)%nat with (8 + 8 * n)%nat by lia. rewrite repeat_app. f_equal.
  cbn [cell]. rewrite <- (memory_length o 0 O). unfold in_memory. rewrite map_length.
  generalize o. intros l. induction l as [|i l IHl]; [reflexivity|]. cbn [length repeat map]. rewrite IHl, Z.div_0_l by (apply Z.pow_nonzero; lia). reflexivity.
Qed.

Lemma sim_clear d n : simulates (image o) (words_clear d n) (b_memset (image o d) (8 * n)).
Proof using O.
  unfold words_clear, b_memset. rewrite size8.
  assert (E : (0 <=? 8 * n) && (8 * n <=? 8 * Z.of_nat (length d)) = (0 <=? n) && (n <=? Z.of_nat (length d))) by (apply Bool.eq_iff_eq_true; rewrite !Bool.andb_true_iff, !Z.leb_le; lia).
  rewrite E. match goal with |- context [if ?c then _ else _] => destruct c end; cbn [simulates]; [|exists_ub]. f_equal. rewrite !to_nat8, zero_cell, image_skipn, image_app. reflexivity.
Qed.

(** ** Elements *)

Lemma split_at (d : words) i : in_range i (Z.of_nat (length d)) = true ->
  exists p x q, d = p ++ x :: q /\ i = Z.of_nat (length p).
Proof using Type.
  intros R. unfold in_range in R. destruct (nth_error d (Z.to_nat i)) as [x|] eqn:N.
  - apply nth_error_split in N. destruct N as (p & q & E & L). exists p, x, q. split; [exact E|lia].
  - apply nth_error_None in N. lia.
Qed.

Lemma at_image p x q : image o (p ++ x :: q) = image o p ++ cell x ++ image o q.
Proof using Type. rewrite image_app, image_cons. reflexivity. Qed.

Lemma read_outside b i n : ~ (0 <= i /\ i + Z.of_nat n <= Z.of_nat (length b)) -> n <> 0%nat -> undefined (buf_read_n b i n).
Proof using Type.
  revert i. induction n as [|n IH]; intros i N NZ; [congruence|]. cbn [buf_read_n].
  destruct (buf_read b i) as [c| | |] eqn:R; cbn [bind].
  - assert (0 <= i < Z.of_nat (length b)) by (unfold buf_read, in_range in R; destruct ((0 <=? i) && (i <? Z.of_nat (length b))) eqn:C; [lia|discriminate R]).
    destruct n as [|n]; [lia|]. destruct (IH (i + 1)) as [why W]; [lia|discriminate|]. rewrite W. exists_ub.
  - unfold buf_read in R. destruct (in_range _ _); [destruct (nth _ _ _)|]; discriminate R.
  - exists_ub.
  - unfold buf_read in R. destruct (in_range _ _); [destruct (nth _ _ _)|]; discriminate R.
Qed.

Lemma write_outside b i l : ~ (0 <= i /\ i + Z.of_nat (length l) <= Z.of_nat (length b)) -> l <> [] -> undefined (buf_write_list b i l).
Proof using Type.
  revert b i. induction l as [|c l IH]; intros b i N NZ; [congruence|]. cbn [buf_write_list]. unfold buf_write.
  destruct (in_range i (Z.of_nat (length b))) eqn:R; cbn [bind]; [|exists_ub]. unfold in_range in R.
  destruct l as [|c' l]; [cbn [length] in N; lia|]. apply IH; [|discriminate]. rewrite set_nth_length. cbn [length] in *. lia.
Qed.

Lemma sim_load d i : Forall word_ok d -> simulates (fun w => w) (word_read d i) (b_load o (image o d) (8 * i)).
Proof using O.
  intros F. unfold word_read, b_load. destruct (in_range i (Z.of_nat (length d))) eqn:R.
  - destruct (split_at d i R) as (p & x & q & -> & ->). rewrite Nat2Z.id, app_nth2, Nat.sub_diag by lia. cbn [nth].
    rewrite at_image. replace (8 * Z.of_nat (length p)) with (Z.of_nat (length (image o p))) by (apply size8).
    destruct x as [w|]; cbn [cell simulates].
    + pose proof (buf_read_n_app (image o p) (in_memory o w) (image o q)) as B. rewrite memory_length in B by exact O. rewrite B. cbn [bind].
      f_equal. apply loaded; [exact O|]. apply Forall_app in F. destruct F as [_ F]. inversion F; subst. assumption.
    + assert (U : undefined (buf_read (image o p ++ repeat None 8 ++ image o q) (Z.of_nat (length (image o p))))).
      { unfold buf_read. rewrite Nat2Z.id, app_nth2, Nat.sub_diag by lia. cbn [repeat app nth]. clear R. destruct (in_range _ _); exists_ub. }
      destruct U as [why U]. cbn [buf_read_n]. rewrite U. exists_ub.
  - cbn [simulates]. destruct (read_outside (image o d) (8 * i) 8) as [why W]; [rewrite size8; unfold in_range in R; lia|discriminate|]. rewrite W. exists_ub.
Qed.

Lemma sim_store d i w : simulates (image o) (word_write d i w) (b_store o (image o d) (8 * i) w).
Proof using O.
  unfold word_write, b_store. destruct (in_range i (Z.of_nat (length d))) eqn:R; cbn [simulates].
  - destruct (split_at d i R) as (p & x & q & -> & ->). rewrite Nat2Z.id, set_nth_app, !at_image.
    replace (8 * Z.of_nat (length p)) with (Z.of_nat (length (image o p))) by (apply size8). cbn [cell].
    apply buf_write_list_app. rewrite cell_length, memory_length by exact O. reflexivity.
  - apply write_outside; [rewrite size8, memory_length by exact O; unfold in_range in R; lia|].
    intros E. apply (f_equal (@length _)) in E. rewrite memory_length in E by exact O. discriminate E.
Qed.

(** ** Comparison *)

Lemma compare_app d s i n m :
  b_memcmp d s i (n + m) =
  let* r := b_memcmp d s i n in let* r' := b_memcmp d s (i + Z.of_nat n) m in Ok (if r =? 0 then r' else r).
Proof using Type.
  revert i. induction n as [|n IH]; intros i.
  - cbn [plus b_memcmp bind]. replace (i + Z.of_nat 0) with i by lia. destruct (b_memcmp d s i m); reflexivity.
  - cbn [plus b_memcmp]. destruct (buf_read d i) as [a| | |]; [|reflexivity..]. cbn [bind].
    destruct (buf_read s i) as [b| | |]; [|reflexivity..]. cbn [bind]. rewrite IH. replace (i + Z.of_nat (S n)) with (i + 1 + Z.of_nat n) by lia.
    destruct (b_memcmp d s (i + 1) n) as [r| | |]; [|reflexivity..]. cbn [bind].
    destruct (b_memcmp d s (i + 1 + Z.of_nat n) m) as [r'| | |]; [|reflexivity..]. cbn [bind]. f_equal.
    destruct (code a =? code b); [reflexivity|]. destruct (code a <? code b); reflexivity.
Qed.

Lemma compare_read d s i n :
  match buf_read_n d i n, buf_read_n s i n with
  | Ok a, Ok b => exists r, b_memcmp d s i n = Ok r /\ (r = 0 <-> a = b)
  | _, _ => undefined (b_memcmp d s i n)
  end.
Proof using Type.
  assert (K : forall b i, (exists c, buf_read b i = Ok c) \/ exists w, buf_read b i = UB w)
    by (clear; intros b i; unfold buf_read; destruct (in_range _ _); [destruct (nth _ _ _)|]; eauto).
  revert i. induction n as [|n IH]; intros i; cbn [buf_read_n b_memcmp].
  - exists 0. split; [reflexivity|]. split; reflexivity.
  - destruct (K d i) as [[a ->]|[w ->]]; cbn [bind]; [|exists_ub]. destruct (K s i) as [[b ->]|[w ->]]; cbn [bind].
    + specialize (IH (i + 1)). destruct (buf_read_n d (i + 1) n) as [x| | |], (buf_read_n s (i + 1) n) as [y| | |]; cbn [bind] in *;
        try (destruct IH as [? ->]; cbn [bind]; exists_ub).
      destruct IH as (r & -> & E). cbn [bind]. eexists. split; [reflexivity|]. destruct (Z.eqb_spec (code a) (code b)) as [C|C].
      * apply code_inj in C. subst b. rewrite E. split; [intros ->; reflexivity|intros H; injection H; auto].
      * split; [destruct (code a <? code b); discriminate|]. intros H. injection H as -> _. congruence.
    + destruct (buf_read_n d (i + 1) n); exists_ub.
Qed.

Lemma sim_equal d s i n : Forall word_ok d -> Forall word_ok s ->
  match words_equal d s i n with
  | Ok r => exists c, b_memcmp (image o d) (image o s) (8 * i) (8 * n) = Ok c /\ (c = 0 <-> r = true)
  | UB _ => undefined (b_memcmp (image o d) (image o s) (8 * i) (8 * n))
  | _ => False
  end.
Proof using O.
  intros D S. revert i. induction n as [|n IH]; intros i.
  - exists 0. split; [reflexivity|]. split; reflexivity.
  - cbn [words_equal]. replace (8 * Datatypes.S n)%nat with (8 + 8 * n)%nat by lia. rewrite compare_app.
    specialize (IH (i + 1)). replace (8 * i + Z.of_nat 8) with (8 * (i + 1)) by lia.
    pose proof (compare_read (image o d) (image o s) (8 * i) 8) as C.
    pose proof (sim_load d i D) as LD. pose proof (sim_load s i S) as LS.
    assert (ok : forall d, Forall word_ok d -> forall w, word_read d i = Ok w -> 0 <= w < 2 ^ 64 /\ buf_read_n (image o d) (8 * i) 8 = Ok (in_memory o w)).
    { clear - O. intros d D w. unfold word_read. destruct (in_range i (Z.of_nat (length d))) eqn:R; [|discriminate].
      destruct (split_at d i R) as (p & x & q & -> & ->). rewrite Nat2Z.id, app_nth2, Nat.sub_diag by lia. cbn [nth].
      destruct x as [v|]; [|discriminate]. intros E. injection E as ->. split.
      - apply Forall_app in D. destruct D as [_ D]. inversion D; subst. assumption.
      - rewrite at_image, <- size8. cbn [cell]. rewrite <- (memory_length o w O). apply buf_read_n_app. }
    destruct (word_read d i) as [a| |w|] eqn:A; cbn [simulates bind] in *; try contradiction.
    + destruct (word_read s i) as [b| |w|] eqn:B; cbn [simulates bind] in *; try contradiction.
      * destruct (ok d D a A) as [Ra Ea]. destruct (ok s S b B) as [Rb Eb]. rewrite Ea, Eb in C. destruct C as (r & -> & Er). cbn [bind].
        destruct (words_equal d s (i + 1) n) as [t| |w|]; cbn [bind]; try contradiction.
        -- destruct IH as (c & -> & Ec). cbn [bind]. eexists. split; [reflexivity|]. rewrite Bool.andb_true_iff, Z.eqb_eq, <- Ec.
           destruct (Z.eqb_spec r 0) as [Z|Z].
           ++ apply Er in Z. apply memory_inj in Z; [|assumption..]. tauto.
           ++ split; [congruence|]. intros [-> _]. exfalso. apply Z, Er. reflexivity.
        -- destruct IH as [? ->]. exists_ub.
      * enough (U : undefined (b_memcmp (image o d) (image o s) (8 * i) 8)) by (destruct U as [? ->]; exists_ub).
        unfold b_load in LS. destruct (buf_read_n (image o s) (8 * i) 8); [destruct LS as [? LS]; discriminate LS|destruct (buf_read_n (image o d) (8 * i) 8); exact C..].
    + enough (U : undefined (b_memcmp (image o d) (image o s) (8 * i) 8)) by (destruct U as [? ->]; exists_ub).
      unfold b_load in LD. destruct (buf_read_n (image o d) (8 * i) 8); [destruct LD as [? LD]; discriminate LD|exact C..].
Qed.
End arrays.

(** ** The union *)

Lemma same_order o u : byte_order o -> 0 <= u < 2 ^ 64 -> bitwise o o u = Ok u.
Proof.
  intros O U. unfold bitwise. pose proof (sim_store o O [None] 0 u) as S. cbn in S. change (new_buf 8) with (image o [None]).
  cbn. unfold simulates in S. change (image o [None]) with (repeat (@None ascii) 8) in *. rewrite S. cbn [bind].
  pose proof (sim_load o O [Some u] 0 (Forall_cons (Some u) U (Forall_nil _))) as L. exact L.
Qed.


Lemma indicator i j : code (chr (2 ^ (8 * Z.of_nat j) / 2 ^ (8 * Z.of_nat i))) = if Nat.eqb i j then 1 else 0.
Proof.
  rewrite code_chr. destruct (Nat.eqb_spec i j) as [->|N].
  - rewrite Z.div_same by (apply Z.pow_nonzero; lia). reflexivity.
  - destruct (Nat.lt_ge_cases i j) as [L|L].
    + replace (8 * Z.of_nat j) with (8 * (Z.of_nat j - Z.of_nat i - 1) + 8 + 8 * Z.of_nat i) by lia. rewrite Z.pow_add_r, Z.div_mul by (try apply Z.pow_nonzero; lia).
      rewrite Z.pow_add_r by lia. change (2 ^ 8) with 256. apply Z.mod_mul. lia.
    + rewrite Z.div_small; [reflexivity|]. split; [apply Z.pow_nonneg; lia|apply Z.pow_lt_mono_r; lia].
Qed.

Lemma absent j : forall od oi, ~ In j od -> assemble oi (in_memory od (2 ^ (8 * Z.of_nat j))) = 0.
Proof.
  unfold assemble, in_memory. induction od as [|a od IH]; intros oi N; [destruct oi; reflexivity|]. destruct oi as [|b oi]; [reflexivity|].
  cbn [map combine fold_right fst snd]. rewrite IH, indicator by (intros H; apply N; right; exact H).
  destruct (Nat.eqb_spec a j) as [->|_]; [|reflexivity]. exfalso. apply N. left. reflexivity.
Qed.

Lemma orders_differ : forall od oi, NoDup od -> length od = length oi ->
  (forall j, In j od -> assemble oi (in_memory od (2 ^ (8 * Z.of_nat j))) = 2 ^ (8 * Z.of_nat j)) -> od = oi.
Proof.
  induction od as [|a od IH]; intros oi N L H; destruct oi as [|b oi]; try discriminate L; [reflexivity|]. inversion N as [|? ? Na Nd]; subst.
  assert (S : forall j, assemble (b :: oi) (in_memory (a :: od) (2 ^ (8 * Z.of_nat j))) =
                        (if Nat.eqb a j then 1 else 0) * 2 ^ (8 * Z.of_nat b) + assemble oi (in_memory od (2 ^ (8 * Z.of_nat j)))).
  { intros j. unfold assemble, in_memory. cbn [map combine fold_right fst snd]. rewrite indicator. reflexivity. }
  f_equal.
  - specialize (H a (or_introl eq_refl)). rewrite S, Nat.eqb_refl, absent in H by exact Na.
    assert (E : 2 ^ (8 * Z.of_nat b) = 2 ^ (8 * Z.of_nat a)) by lia. apply Z.pow_inj_r in E; lia.
  - apply IH; [exact Nd|injection L as L; exact L|]. intros j J. specialize (H j (or_intror J)). rewrite S in H.
    destruct (Nat.eqb_spec a j) as [->|_]; [contradiction|lia].
Qed.

Lemma written o u : byte_order o -> b_store o (new_buf 8) 0 u = Ok (map Some (in_memory o u)).
Proof. intros O. pose proof (sim_store o O [None] 0 u) as S. cbn in S. rewrite app_nil_r in S. exact S. Qed.

Lemma union_orders od oi : byte_order od -> byte_order oi ->
  (forall u, 0 <= u < 2 ^ 64 -> bitwise od oi u = Ok u) <-> od = oi.
Proof.
  intros D I. split; [|intros <- u U; apply same_order; assumption]. intros H. apply orders_differ.
  - apply (Permutation_NoDup (Permutation_sym D)). apply seq_NoDup.
  - rewrite (Permutation_length D), (Permutation_length I). reflexivity.
  - intros j J. assert (B : (j < 8)%nat) by (apply (Permutation_in _ D) in J; apply in_seq in J; lia).
    specialize (H (2 ^ (8 * Z.of_nat j))). assert (R : 0 <= 2 ^ (8 * Z.of_nat j) < 2 ^ 64) by (split; [apply Z.pow_nonneg; lia|apply Z.pow_lt_mono_r; lia]).
    specialize (H R). unfold bitwise in H. rewrite written in H by exact D. cbn [bind] in H. unfold b_load in H.
    pose proof (buf_read_n_app [] (in_memory od (2 ^ (8 * Z.of_nat j))) []) as G. rewrite memory_length, app_nil_r in G by exact D. cbn [app length] in G.
    change (Z.of_nat 0) with 0 in G. rewrite G in H. cbn [bind] in H. injection H as H. exact H.
Qed.

Lemma orders_ok : byte_order little /\ byte_order big /\ byte_order fpa.
Proof.
  assert (K : forall o, NoDup o -> length o = 8%nat -> (forall i, In i o -> (i < 8)%nat) -> byte_order o).
  { intros o N L B. apply NoDup_Permutation_bis; [exact N|rewrite L; reflexivity|]. intros i I. apply in_seq. specialize (B i I). lia. }
  repeat split; apply K; try reflexivity; try (repeat constructor; cbn; intuition discriminate); cbn; intuition lia.
Qed.
