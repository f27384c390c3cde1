(** How many digits are printed for numbers with a short decimal. *)
From Coq Require Import Reals Lra Psatz.
From Flocq Require Import Core.
From Verif Require Import Machine LibMachine SpecApi SpecDecimal SpecNumber SpecIeee SpecJson ModelIeee ModelDiyfp ModelDtoa
  ModelFloat ModelLexi ModelPlatforms
  ProofDiyfp ProofDigits ProofGrisu ProofLayout ProofIeee ProofDtoa ProofNumber ProofShort ProofUnique ProofFloat ProofFloat2 ProofFloat3 ProofFloat4.
Open Scope R_scope.
Ltac Zify.zify_post_hook ::= idtac.

(** The safe interval of a double contains the double. *)
Lemma inside_itself e u s : bits64 u -> double_finite u -> double_value u <> 0 -> lexi e (VDouble u) = Ok s ->
  let x := Rabs (double_value u) in let margin := ulp radix2 fexp64 x / 500 in
  lower_end x + margin <= x <= upper_end x - margin.
Proof.
  intros H F N L x margin. destruct (finite_number e u s H F N L) as (ds & K & F0 & E & k & kap & FP & _ & _ & _ & _ & _ & _ & _ & _ & DV).
  pose proof (dbl_R_pos _ FP) as PV.
  assert (Ex : x = dbl_R (u mod 2 ^ 63)).
  { unfold x. rewrite DV. destruct (sign_field u); cbn [neg_if]; [rewrite Rabs_Ropp|]; apply Rabs_pos_eq; lra. }
  unfold margin. rewrite Ex. rewrite lower_end_eq by exact FP.
  unfold upper_end. rewrite <- upper_is_mid, dbl_ulp by exact FP. destruct (gap_R (u mod 2 ^ 63)) as [-> ->].
  pose proof (bpow_gt_0 radix2 (dbl_e (u mod 2 ^ 63))) as B. destruct (dbl_f (u mod 2 ^ 63) =? 2 ^ 52)%Z; lra.
Qed.

Lemma exact_decimal_digits e u s n D K k : bits64 u -> double_finite u -> double_value u <> 0 -> lexi e (VDouble u) = Ok s ->
  json_number s n -> Rabs (double_value u) = IZR D * bpow radix10 K -> (0 < D < 10 ^ Z.of_nat k)%Z ->
  (length (significant (n_digits n)) <= k)%nat.
Proof.
  intros H F N L J V B. apply Nat.nlt_ge. intros G.
  apply (near_shortest e u s n D K H F N L J).
  - split; [apply B|]. eapply Z.lt_le_trans; [apply B|]. apply Z.pow_le_mono_r; lia.
  - rewrite <- V. apply (inside_itself e u s); assumption.
Qed.

Lemma float_decimal_digits e u s n D K k : nan_ok (e_float e) -> bits32 u -> float_finite u -> float_value u <> 0 -> lexi e (VFloat u) = Ok s ->
  json_number s n -> Rabs (float_value u) = IZR D * bpow radix10 K -> (0 < D < 10 ^ Z.of_nat k)%Z ->
  (length (significant (n_digits n)) <= k)%nat.
Proof.
  intros NO H F N L J V B. destruct (float_printed e u NO H) as (w & HW & _ & EL & _ & _ & FW). destruct (FW F) as (FF & EV & _).
  rewrite EL in L. rewrite <- EV in N, V. exact (exact_decimal_digits e w s n D K k HW FF N L J V B).
Qed.

Lemma float_digit_count e u s n : nan_ok (e_float e) -> bits32 u -> float_finite u -> float_value u <> 0 -> lexi e (VFloat u) = Ok s ->
  json_number s n -> (1 <= length (significant (n_digits n)) <= 17)%nat.
Proof.
  intros NO H F N L J. destruct (float_printed e u NO H) as (w & HW & _ & EL & _ & _ & FW). destruct (FW F) as (FF & EV & _).
  rewrite EL in L. rewrite <- EV in N. exact (digit_count e w s n HW FF N L J).
Qed.

Lemma float_digits_refuted : exists u s n, bits32 u /\ float_finite u /\
  lexi (linux_x86_64 zero_memory) (VFloat u) = Ok s /\ s = str "0.10000000149011612" /\ json_number s n /\
  length (significant (n_digits n)) = 17%nat.
Proof.
  exists 0x3DCCCCCD%Z, (str "0.10000000149011612"), (Number false (str "0") (Some (str "10000000149011612")) None).
  split; [split; [discriminate|reflexivity]|]. split; [vm_compute; reflexivity|]. split; [vm_compute; reflexivity|]. split; [reflexivity|]. split; [|reflexivity].
  split; [exists "e"%char; split; [left; reflexivity|reflexivity]|]. cbn [n_integer n_fraction n_exponent].
  split; [discriminate|]. split; [repeat constructor; cbn; lia|]. split; [intros r X; injection X as <-; reflexivity|].
  split; [intros f X; injection X as <-; split; [discriminate|repeat constructor; cbn; lia]|discriminate].
Qed.
