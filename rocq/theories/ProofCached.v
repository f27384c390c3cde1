(** Proofs about getCachedPower (dtoa.cpp:192-208): finite sweeps over the table and over
    all binary exponents of doubles, lifted to statements about all of them. *)
From Coq Require Import Reals Lra Psatz.
From Flocq Require Import Core.
From Verif Require Import Machine LibMachine SpecNumber ModelIeee ModelDiyfp ModelDtoa ProofDiyfp.
Open Scope Z_scope.
Ltac Zify.zify_post_hook ::= Z.div_mod_to_equations.

(** ** The table *)

(** [F * 2^E] is within 0.4965 units of [10^n]; everything is scaled to integers. *)
Definition close_check (F E n : Z) : bool :=
  let a := Z.max 0 (- E) in
  let b := Z.max 0 (- n) in
  let X := F * 2 ^ (E + a) * 10 ^ b in
  let Y := 10 ^ (n + b) * 2 ^ a in
  let U := 2 ^ (E + a) * 10 ^ b in
  10000 * Z.abs (X - Y) <=? 4965 * U.

Definition table_check (i : nat) : bool :=
  let F := nth i CACHED_POWERS_F 0 in
  let E := nth i CACHED_POWERS_E 0 in
  (2 ^ 63 <=? F) && (F <? 2 ^ 64) && close_check F E (-348 + 8 * Z.of_nat i).

Lemma table_check_all : forallb table_check (seq 0 87) = true.
Proof. vm_compute. reflexivity. Qed.

Lemma table_check_at i : 0 <= i < 87 -> table_check (Z.to_nat i) = true.
Proof.
  intros H. pose proof table_check_all as A. rewrite forallb_forall in A.
  apply A. apply in_seq. lia.
Qed.

(** ** The index *)

Definition kk_of (ev : fp_eval) (e : Z) : outcome Z :=
  let dk := cached_dk ev e in
  let* kk := int_of_double dk in
  Ok (if int_neq_double kk dk then kk + 1 else kk).

(** [m] is the ceiling of [x * log10 2]: log10 2 lies between 643/2136 and 789/2621. *)
Definition ceil_check (x m : Z) : bool :=
  if 0 <=? x then (789 * x <=? 2621 * m) && (2136 * (m - 1) <? 643 * x)
  else (643 * x <=? 2136 * m) && (2621 * (m - 1) <? 789 * x).

Definition index_check (e : Z) : bool :=
  match kk_of EvalDouble e, kk_of EvalFused e, kk_of EvalExtended e with
  | Ok kk, Ok kk2, Ok kk3 =>
      let i := kk / 8 + 1 in
      (kk =? kk2) && (kk =? kk3) && (0 <=? kk) && (i <? 87) &&
      ceil_check (-61 - e) (kk - 347) &&
      (-60 <=? e + nth (Z.to_nat i) CACHED_POWERS_E 0 + 64) &&
      (e + nth (Z.to_nat i) CACHED_POWERS_E 0 + 64 <=? -32)
  | _, _, _ => false
  end.

Definition all_exponents : list Z := map (fun i => Z.of_nat i - 1137) (seq 0 2098).

Lemma index_check_all : forallb index_check all_exponents = true.
Proof. vm_compute. reflexivity. Qed.

Lemma index_check_at e : -1137 <= e <= 960 -> index_check e = true.
Proof.
  intros H. pose proof index_check_all as A. rewrite forallb_forall in A. apply A.
  apply in_map_iff. exists (Z.to_nat (e + 1137)). split; [lia|]. apply in_seq. lia.
Qed.

Lemma getCachedPower_kk ev e kk : kk_of ev e = Ok kk -> 0 <= kk -> kk / 8 + 1 < 87 ->
  let i := kk / 8 + 1 in
  getCachedPower ev e =
  Ok (MkDiyFp (nth (Z.to_nat i) CACHED_POWERS_F 0) (nth (Z.to_nat i) CACHED_POWERS_E 0), 348 - 8 * i).
Proof.
  intros H H0 Hi i. unfold kk_of in H. unfold getCachedPower.
  destruct (int_of_double (cached_dk ev e)) as [n| | |]; cbn [bind] in *; try discriminate.
  injection H as H. rewrite H. rewrite Z.shiftr_div_pow2 by lia. change (2 ^ 3) with 8.
  fold i. assert (Ri : 1 <= i < 87) by (unfold i; lia).
  unfold u32. rewrite (Z.mod_small i) by lia. rewrite Z.shiftl_mul_pow2 by lia. change (2 ^ 3) with 8.
  rewrite (Z.mod_small (i * 8)) by lia.
  unfold table_at. change (Z.of_nat (length CACHED_POWERS_F)) with 87.
  change (Z.of_nat (length CACHED_POWERS_E)) with 87. rewrite in_range_true by lia. cbn [bind].
  replace (swrap 32 (i * 8)) with (i * 8).
  2:{ unfold swrap. rewrite Z.mod_small by lia. destruct (Z.ltb_spec (i * 8) (2 ^ (32 - 1))); lia. }
  f_equal. f_equal. lia.
Qed.

(** Everything the rest of the proof needs to know about the cached power. *)
Record cached_ok (e F E k : Z) : Prop := {
  ck_F : 2 ^ 63 <= F < 2 ^ 64;
  ck_e : -60 <= e + E + 64 <= -32;
  ck_k : -348 <= k <= 348;
  ck_close : close_check F E (- k) = true
}.

Lemma getCachedPower_ok ev e : -1137 <= e <= 960 ->
  exists F E k, getCachedPower ev e = Ok (MkDiyFp F E, k) /\ cached_ok e F E k /\
                getCachedPower ev e = getCachedPower EvalDouble e.
Proof.
  intros H. pose proof (index_check_at e H) as C. unfold index_check in C.
  destruct (kk_of EvalDouble e) as [kk| | |] eqn:K1; try discriminate.
  destruct (kk_of EvalFused e) as [kk2| | |] eqn:K2; try discriminate.
  destruct (kk_of EvalExtended e) as [kk3| | |] eqn:K3; try discriminate.
  repeat rewrite andb_true_iff in C. destruct C as [[[[[[C1 C2] C3] C4] C5] C6] C7].
  assert (kk2 = kk) by lia. assert (kk3 = kk) by lia. subst kk2 kk3.
  set (i := kk / 8 + 1) in *.
  assert (K : kk_of ev e = Ok kk) by (destruct ev; assumption).
  pose proof (getCachedPower_kk ev e kk K ltac:(lia) ltac:(fold i; lia)) as G. cbn zeta in G.
  pose proof (getCachedPower_kk EvalDouble e kk K1 ltac:(lia) ltac:(fold i; lia)) as G1. cbn zeta in G1.
  fold i in G, G1.
  exists (nth (Z.to_nat i) CACHED_POWERS_F 0), (nth (Z.to_nat i) CACHED_POWERS_E 0), (348 - 8 * i).
  split; [exact G|]. split; [|congruence].
  assert (Ri : 1 <= i < 87) by (unfold i; lia).
  pose proof (table_check_at i ltac:(lia)) as T. unfold table_check in T.
  repeat rewrite andb_true_iff in T. destruct T as [[T1 T2] T3].
  rewrite Z2Nat.id in T3 by lia.
  split; try lia.
  replace (- (348 - 8 * i)) with (-348 + 8 * i) by lia. exact T3.
Qed.

(** ** In the reals *)

Lemma pow10_bpow n : 0 <= n -> IZR (10 ^ n) = bpow radix10 n.
Proof. intros H. rewrite <- (IZR_Zpower radix10) by exact H. reflexivity. Qed.

Lemma pow2_bpow n : 0 <= n -> IZR (2 ^ n) = bpow radix2 n.
Proof. intros H. rewrite <- (IZR_Zpower radix2) by exact H. reflexivity. Qed.

Lemma close_check_R F E n : close_check F E n = true ->
  (Rabs (IZR F - bpow radix10 n * bpow radix2 (- E)) <= 4965 / 10000)%R.
Proof.
  unfold close_check. set (a := Z.max 0 (- E)). set (b := Z.max 0 (- n)). intros H.
  apply Z.leb_le in H. apply IZR_le in H.
  rewrite !mult_IZR, abs_IZR, minus_IZR, !mult_IZR in H.
  rewrite !pow10_bpow, !pow2_bpow in H by lia. rewrite !bpow_plus in H.
  assert (Pa : (0 < bpow radix2 a)%R) by apply bpow_gt_0.
  assert (Pb : (0 < bpow radix10 b)%R) by apply bpow_gt_0.
  assert (PE : (0 < bpow radix2 E)%R) by apply bpow_gt_0.
  rewrite bpow_opp.
  set (A := bpow radix2 a) in *. set (B := bpow radix10 b) in *. set (T := bpow radix2 E) in *.
  set (N := bpow radix10 n) in *.
  replace (IZR F * (T * A) * B - N * B * A)%R with ((IZR F - N * / T) * (T * A * B))%R in H
    by (field; lra).
  assert (PU : (0 < T * A * B)%R) by (repeat apply Rmult_lt_0_compat; assumption).
  rewrite Rabs_mult, (Rabs_pos_eq (T * A * B)) in H by lra.
  apply Rmult_le_reg_r with (T * A * B)%R; [exact PU|].
  lra.
Qed.
