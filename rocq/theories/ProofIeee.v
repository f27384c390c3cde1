(** The bit fields used by the code agree with Flocq's reading of a bit pattern, and the
    stdlib/Flocq rounding functions used by the model round correctly. *)
From Coq Require Import Reals Lra Psatz.
From Flocq Require Import Core IEEE754.BinarySingleNaN IEEE754.Binary IEEE754.Bits.
From Verif Require Import Machine LibMachine SpecIeee ModelIeee ModelDiyfp ModelDtoa ModelFloat
  ProofDiyfp ProofCached ProofDigits ProofGrisu.
Open Scope Z_scope.
Ltac Zify.zify_post_hook ::= idtac.

(** ** Bit patterns *)

Lemma b64_value u : Binary.B2R 53 1024 (b64_of_bits u) = FF2R radix2 (binary_float_of_bits_aux 52 11 u).
Proof. apply B2R_FF2B. Qed.
Lemma b64_finite u : Binary.is_finite 53 1024 (b64_of_bits u) = is_finite_FF (binary_float_of_bits_aux 52 11 u).
Proof. apply is_finite_FF2B. Qed.
Lemma b64_nan u : Binary.is_nan 53 1024 (b64_of_bits u) = is_nan_FF (binary_float_of_bits_aux 52 11 u).
Proof. apply is_nan_FF2B. Qed.
Lemma b64_sign u : Binary.Bsign 53 1024 (b64_of_bits u) = sign_FF (binary_float_of_bits_aux 52 11 u).
Proof. apply Bsign_FF2B. Qed.
Lemma b64_FF u : B2FF 53 1024 (b64_of_bits u) = binary_float_of_bits_aux 52 11 u.
Proof. apply B2FF_FF2B. Qed.
Lemma b32_value u : Binary.B2R 24 128 (b32_of_bits u) = FF2R radix2 (binary_float_of_bits_aux 23 8 u).
Proof. apply B2R_FF2B. Qed.
Lemma b32_finite u : Binary.is_finite 24 128 (b32_of_bits u) = is_finite_FF (binary_float_of_bits_aux 23 8 u).
Proof. apply is_finite_FF2B. Qed.

Definition sign_field (u : Z) : bool := 2 ^ 63 <=? u.

Lemma Zeq_bool_eqb a b : Zeq_bool a b = (a =? b).
Proof.
  destruct (Z.eqb_spec a b) as [->|H]; [apply Zeq_bool_true; reflexivity|].
  apply Zeq_bool_false. exact H.
Qed.

(** The three cases of a pattern. *)
Lemma b64_aux u : bits64 u ->
  binary_float_of_bits_aux 52 11 u =
  if exp_field u =? 2047 then
    match frac_field u with Zpos p => F754_nan (sign_field u) p | _ => F754_infinity (sign_field u) end
  else
    match dbl_f u with Zpos p => F754_finite (sign_field u) p (dbl_e u) | _ => F754_zero (sign_field u) end.
Proof.
  intros H. unfold binary_float_of_bits_aux, split_bits. rewrite !Zeq_bool_eqb.
  change (2 ^ 11 - 1) with 2047. change (Zle_bool (2 ^ 52 * 2 ^ 11) u) with (sign_field u).
  fold (exp_field u). fold (frac_field u).
  pose proof (Z.mod_pos_bound u (2 ^ 52) ltac:(lia)) as F. fold (frac_field u) in F.
  unfold dbl_f, dbl_e.
  destruct (Z.eqb_spec (exp_field u) 0) as [E|E].
  - rewrite E. change (0 =? 2047) with false. cbv iota.
    destruct (frac_field u) as [|p|p]; [reflexivity|reflexivity|lia].
  - destruct (Z.eqb_spec (exp_field u) 2047) as [E2|E2].
    + destruct (frac_field u) as [|p|p]; [reflexivity|reflexivity|lia].
    + replace (exp_field u + SpecFloat.emin (52 + 1) (2 ^ (11 - 1)) - 1) with (exp_field u - 1075)
        by (unfold SpecFloat.emin; lia).
      destruct (frac_field u + 2 ^ 52) as [|p|p] eqn:X; [lia|reflexivity|lia].
Qed.

Lemma exp_field_range u : 0 <= exp_field u < 2048.
Proof. apply (Z.mod_pos_bound _ (2 ^ 11)). lia. Qed.

Lemma dbl_f_nonneg u : 0 <= dbl_f u.
Proof.
  unfold dbl_f. pose proof (Z.mod_pos_bound u (2 ^ 52) ltac:(lia)) as F. fold (frac_field u) in F.
  destruct (_ =? _); lia.
Qed.

Lemma double_finite_iff u : bits64 u -> double_finite u <-> exp_field u <> 2047.
Proof.
  intros H. unfold double_finite. rewrite b64_finite, b64_aux by exact H.
  destruct (Z.eqb_spec (exp_field u) 2047) as [E|E].
  - destruct (frac_field u); cbn; split; congruence.
  - destruct (dbl_f u); cbn; split; congruence.
Qed.

Lemma double_nan_iff u : bits64 u -> double_nan u <-> exp_field u = 2047 /\ frac_field u <> 0.
Proof.
  intros H. unfold double_nan. rewrite b64_nan, b64_aux by exact H.
  pose proof (Z.mod_pos_bound u (2 ^ 52) ltac:(lia)) as F. fold (frac_field u) in F.
  destruct (Z.eqb_spec (exp_field u) 2047) as [E|E].
  - destruct (frac_field u) as [|p|p]; cbn; [|split; [split; congruence|reflexivity]|lia].
    split; [congruence|]. intros [_ X]. congruence.
  - destruct (dbl_f u); cbn; split; [congruence|tauto|congruence|tauto|congruence|tauto].
Qed.

Lemma double_infinity_iff u s : bits64 u ->
  double_infinity u s <-> exp_field u = 2047 /\ frac_field u = 0 /\ sign_field u = s.
Proof.
  intros H. unfold double_infinity.
  assert (A : b64_of_bits u = Binary.B754_infinity 53 1024 s <->
              binary_float_of_bits_aux 52 11 u = F754_infinity s).
  { rewrite <- b64_FF. split; [intros ->; reflexivity|].
    intros X. apply B2FF_inj. exact X. }
  rewrite A, b64_aux by exact H.
  pose proof (Z.mod_pos_bound u (2 ^ 52) ltac:(lia)) as F. fold (frac_field u) in F.
  destruct (Z.eqb_spec (exp_field u) 2047) as [E|E].
  - destruct (frac_field u) as [|p|p]; [|split; [discriminate|intros (_ & X & _); discriminate X]|lia].
    split; [intros X; injection X; auto|intros (_ & _ & ->); reflexivity].
  - destruct (dbl_f u); split; try discriminate; intros (X & _); contradiction.
Qed.

Lemma double_sign_eq u : bits64 u -> double_sign u = sign_field u.
Proof.
  intros H. unfold double_sign. rewrite b64_sign, b64_aux by exact H.
  destruct (_ =? _); [destruct (frac_field u)|destruct (dbl_f u)]; reflexivity.
Qed.

Lemma double_value_eq u : bits64 u -> double_finite u ->
  double_value u = if sign_field u then (- dbl_R u)%R else dbl_R u.
Proof.
  intros H Hf. apply double_finite_iff in Hf; [|exact H].
  unfold double_value. rewrite b64_value, b64_aux by exact H.
  rewrite (proj2 (Z.eqb_neq _ _) Hf). pose proof (dbl_f_nonneg u) as N. unfold dbl_R.
  destruct (dbl_f u) as [|p|p]; [| |lia].
  - cbn. destruct (sign_field u); ring.
  - cbn [FF2R]. unfold F2R. cbn [Fnum Fexp]. destruct (sign_field u); cbn [cond_Zopp]; [|reflexivity].
    rewrite Pos2Z.opp_pos, <- Pos2Z.opp_pos, opp_IZR. ring.
Qed.

(** The sign bit does not matter for the other fields. *)
Lemma fields_mod u : bits64 u ->
  exp_field (u mod 2 ^ 63) = exp_field u /\ frac_field (u mod 2 ^ 63) = frac_field u.
Proof.
  intros H. unfold exp_field, frac_field.
  pose proof (Z.div_mod u (2 ^ 63) ltac:(lia)) as D.
  set (q := u / 2 ^ 63) in *. set (r := u mod 2 ^ 63) in *.
  assert (Q : u = r + q * 2 ^ 11 * 2 ^ 52) by lia. rewrite Q.
  split.
  - rewrite Z.div_add by lia. rewrite Z.mod_add by lia. reflexivity.
  - rewrite Z.mod_add by lia. reflexivity.
Qed.

Lemma dbl_mod u : bits64 u -> dbl_f (u mod 2 ^ 63) = dbl_f u /\ dbl_e (u mod 2 ^ 63) = dbl_e u.
Proof.
  intros H. destruct (fields_mod u H) as [E F]. unfold dbl_f, dbl_e. rewrite E, F. auto.
Qed.

(** ** The formats around a double *)

Open Scope R_scope.

Notation fexp64 := (binary_format 53 1024).

Lemma fexp64_eq e : fexp64 e = Z.max (e - 53) (-1074).
Proof. reflexivity. Qed.

Global Instance fexp64_valid : Valid_exp fexp64.
Proof. apply FLT_exp_valid. unfold Prec_gt_0. lia. Qed.

Lemma dbl_cexp u : finite_pos u -> cexp radix2 fexp64 (dbl_R u) = dbl_e u.
Proof.
  intros H. destruct (finite_pos_f u H) as [Hf He]. unfold cexp. rewrite fexp64_eq.
  assert (D : (exp_field u = 0%Z /\ dbl_e u = (-1074)%Z) \/ (2 ^ 52 <= dbl_f u)%Z).
  { unfold dbl_e, dbl_f. pose proof (Z.mod_pos_bound u (2 ^ 52) ltac:(lia)) as F. fold (frac_field u) in F.
    destruct (Z.eqb_spec (exp_field u) 0) as [E|E]; [left; auto|right; lia]. }
  assert (Pf : 0 < IZR (dbl_f u)) by (apply IZR_lt; lia).
  assert (Hm : (mag radix2 (dbl_R u) <= dbl_e u + 53)%Z).
  { apply mag_le_bpow.
    - unfold dbl_R. pose proof (bpow_gt_0 radix2 (dbl_e u)). nra.
    - unfold dbl_R. rewrite Rabs_pos_eq by (pose proof (bpow_gt_0 radix2 (dbl_e u)); nra).
      rewrite Z.add_comm, bpow_plus. apply Rmult_lt_compat_r; [apply bpow_gt_0|].
      change (bpow radix2 53) with (IZR (2 ^ 53)). apply IZR_lt. lia. }
  destruct D as [[E E2]|D].
  - lia.
  - assert (Hm2 : (dbl_e u + 53 <= mag radix2 (dbl_R u))%Z).
    { apply mag_ge_bpow. unfold dbl_R.
      rewrite Rabs_pos_eq by (pose proof (bpow_gt_0 radix2 (dbl_e u)); nra).
      replace (dbl_e u + 53 - 1)%Z with (52 + dbl_e u)%Z by lia. rewrite bpow_plus.
      apply Rmult_le_compat_r; [apply bpow_ge_0|].
      change (bpow radix2 52) with (IZR (2 ^ 52)). apply IZR_le. lia. }
    lia.
Qed.

Lemma dbl_format u : finite_pos u -> generic_format radix2 fexp64 (dbl_R u).
Proof.
  intros H. replace (dbl_R u) with (F2R (Float radix2 (dbl_f u) (dbl_e u))) by reflexivity.
  apply generic_format_F2R. intros _. 
  change (F2R (Float radix2 (dbl_f u) (dbl_e u))) with (dbl_R u). rewrite dbl_cexp by exact H. lia.
Qed.

Lemma dbl_R_pos u : finite_pos u -> 0 < dbl_R u.
Proof.
  intros H. destruct (finite_pos_f u H) as [Hf He]. unfold dbl_R.
  apply Rmult_lt_0_compat; [apply IZR_lt; lia|apply bpow_gt_0].
Qed.

Lemma dbl_ulp u : finite_pos u -> ulp radix2 fexp64 (dbl_R u) = bpow radix2 (dbl_e u).
Proof.
  intros H. rewrite ulp_neq_0 by (pose proof (dbl_R_pos u H); lra). rewrite dbl_cexp by exact H. reflexivity.
Qed.

Lemma upper_is_mid u : finite_pos u ->
  upper_R u = (dbl_R u + succ radix2 fexp64 (dbl_R u)) / 2.
Proof.
  intros H. rewrite succ_eq_pos by (apply Rlt_le, dbl_R_pos; exact H). rewrite dbl_ulp by exact H.
  unfold upper_R, dbl_R. rewrite plus_IZR, mult_IZR.
  replace (dbl_e u) with (1 + (dbl_e u - 1))%Z at 2 3 4 by lia. rewrite bpow_plus.
  change (bpow radix2 1) with 2. lra.
Qed.

Lemma lower_above_mid u : finite_pos u ->
  (dbl_R u + pred radix2 fexp64 (dbl_R u)) / 2 <= lower_R u.
Proof.
  intros H. destruct (finite_pos_f u H) as [Hf He].
  pose proof (dbl_R_pos u H) as P.
  assert (E1 : bpow radix2 (dbl_e u) = 2 * bpow radix2 (dbl_e u - 1)).
  { replace (dbl_e u) with (1 + (dbl_e u - 1))%Z at 1 by lia. rewrite bpow_plus. reflexivity. }
  assert (E2 : bpow radix2 (dbl_e u - 1) = 2 * bpow radix2 (dbl_e u - 2)).
  { replace (dbl_e u - 1)%Z with (1 + (dbl_e u - 2))%Z at 1 by lia. rewrite bpow_plus. reflexivity. }
  pose proof (bpow_gt_0 radix2 (dbl_e u - 2)) as P2.
  rewrite pred_eq_pos by lra. unfold pred_pos.
  destruct (Req_bool_spec (dbl_R u) (bpow radix2 (mag radix2 (dbl_R u) - 1))) as [B|B].
  - (* a power of two *)
    assert (Hfe : (fexp64 (mag radix2 (dbl_R u) - 1) <= dbl_e u)%Z).
    { rewrite <- (dbl_cexp u H). unfold cexp. rewrite !fexp64_eq. lia. }
    destruct (Z.eq_dec (dbl_f u) (2 ^ 52)) as [X|X].
    + unfold lower_R. rewrite (proj2 (Z.eqb_eq _ _) X).
      (* either the spacing halves, or the double is the smallest normal one *)
      assert (G : (dbl_e u - 1 <= fexp64 (mag radix2 (dbl_R u) - 1))%Z).
      { assert (mag radix2 (dbl_R u) = (dbl_e u + 53)%Z :> Z).
        { unfold dbl_R. rewrite X. change (IZR (2 ^ 52)) with (bpow radix2 52). rewrite <- bpow_plus.
          rewrite mag_bpow. lia. }
        rewrite fexp64_eq. lia. }
      apply (bpow_le radix2) in G. rewrite E2 in G.
      set (g := bpow radix2 (fexp64 _)) in *. clearbody g.
      unfold dbl_R. rewrite X, E1, E2. rewrite minus_IZR, mult_IZR. change (IZR (2 ^ 52)) with 4503599627370496. lra.
    + (* subnormal: the spacing stays *)
      assert (G : (dbl_e u = fexp64 (mag radix2 (dbl_R u) - 1))%Z).
      { assert (S : dbl_e u = (-1074)%Z).
        { destruct (Z.eq_dec (dbl_e u) (-1074)) as [|N]; [assumption|exfalso].
          assert ((2 ^ 52 < dbl_f u)%Z).
          { unfold dbl_e, dbl_f in *. pose proof (Z.mod_pos_bound u (2 ^ 52) ltac:(lia)) as F.
            fold (frac_field u) in F. destruct (exp_field u =? 0)%Z; lia. }
          assert (M : mag radix2 (dbl_R u) = (dbl_e u + 53)%Z :> Z).
          { apply mag_unique_pos. unfold dbl_R. split.
            - replace (dbl_e u + 53 - 1)%Z with (52 + dbl_e u)%Z by lia. rewrite bpow_plus.
              apply Rmult_le_compat_r; [apply bpow_ge_0|]. change (bpow radix2 52) with (IZR (2 ^ 52)).
              apply IZR_le. lia.
            - rewrite Z.add_comm, bpow_plus. apply Rmult_lt_compat_r; [apply bpow_gt_0|].
              change (bpow radix2 53) with (IZR (2 ^ 53)). apply IZR_lt. lia. }
          rewrite M in B. replace (dbl_e u + 53 - 1)%Z with (52 + dbl_e u)%Z in B by lia.
          rewrite bpow_plus in B. unfold dbl_R in B. apply Rmult_eq_reg_r in B.
          - change (bpow radix2 52) with (IZR (2 ^ 52)) in B. apply eq_IZR in B. lia.
          - apply Rgt_not_eq, bpow_gt_0. }
        rewrite fexp64_eq in *. lia. }
      rewrite <- G. unfold lower_R. rewrite (proj2 (Z.eqb_neq _ _) X). unfold dbl_R.
      rewrite minus_IZR, mult_IZR, E1, E2. lra.
  - rewrite dbl_ulp by exact H.
    assert (X : dbl_f u <> (2 ^ 52)%Z).
    { intros X. apply B. unfold dbl_R. rewrite X. change (IZR (2 ^ 52)) with (bpow radix2 52).
      rewrite <- bpow_plus, mag_bpow. f_equal. lia. }
    unfold lower_R. rewrite (proj2 (Z.eqb_neq _ _) X). unfold dbl_R.
    rewrite minus_IZR, mult_IZR, E1, E2. lra.
Qed.

(** Inside the boundaries, the double is strictly the nearest, and every round to nearest
    returns it. *)
Lemma between_round u v choice : finite_pos u -> lower_R u < v < upper_R u ->
  round radix2 fexp64 (Znearest choice) v = dbl_R u.
Proof.
  intros H [Hl Hu].
  pose proof (lower_above_mid u H) as L. rewrite (upper_is_mid u H) in Hu.
  pose proof (dbl_format u H) as F.
  apply Rle_antisym.
  - apply round_N_le_midp; [typeclasses eauto|exact F|exact Hu].
  - apply round_N_ge_midp; [typeclasses eauto|exact F|lra].
Qed.

Lemma between_nearest u v : finite_pos u -> lower_R u < v < upper_R u ->
  strictly_nearest 53 1024 (dbl_R u) v.
Proof.
  intros H [Hl Hu]. split; [apply dbl_format; exact H|].
  intros y Fy Hy.
  pose proof (lower_above_mid u H) as L. rewrite (upper_is_mid u H) in Hu.
  pose proof (dbl_format u H) as F.
  destruct (Rtotal_order y (dbl_R u)) as [Hlt|[E|Hgt]]; [|contradiction|].
  - assert (y <= pred radix2 fexp64 (dbl_R u)) by (apply pred_ge_gt; [typeclasses eauto|assumption..]).
    assert (pred radix2 fexp64 (dbl_R u) <= dbl_R u) by apply pred_le_id.
    unfold Rabs. destruct (Rcase_abs (v - dbl_R u)); destruct (Rcase_abs (v - y)); lra.
  - assert (succ radix2 fexp64 (dbl_R u) <= y) by (apply succ_le_lt; [typeclasses eauto|assumption..]).
    assert (dbl_R u <= succ radix2 fexp64 (dbl_R u)) by apply succ_ge_id.
    unfold Rabs. destruct (Rcase_abs (v - dbl_R u)); destruct (Rcase_abs (v - y)); lra.
Qed.
