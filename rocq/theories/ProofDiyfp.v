(** Proofs about ieee754.cpp bit fields and diyfp.cpp *)
From Verif Require Import Machine LibMachine ModelIeee ModelDiyfp.
Ltac Zify.zify_post_hook ::= Z.div_mod_to_equations.

(** ** Bit fields *)

Lemma land_significand u : Z.land u SIGNIFICAND_MASK = u mod 2 ^ 52.
Proof. change SIGNIFICAND_MASK with (Z.ones 52). apply Z.land_ones. lia. Qed.

Lemma land_field u a n : 0 <= a -> 0 <= n ->
  Z.land u (Z.ones n * 2 ^ a) = (u / 2 ^ a) mod 2 ^ n * 2 ^ a.
Proof.
  intros Ha Hn. rewrite <- Z.shiftl_mul_pow2 by lia.
  rewrite <- (Z.shiftl_mul_pow2 ((u / 2 ^ a) mod 2 ^ n)) by lia.
  rewrite <- Z.land_ones by lia. rewrite <- Z.shiftr_div_pow2 by lia.
  apply Z.bits_inj'. intros i Hi.
  rewrite Z.land_spec, !Z.shiftl_spec by lia.
  destruct (Z_lt_le_dec i a).
  - rewrite !(Z.testbit_neg_r _ (i - a)) by lia. apply andb_false_r.
  - rewrite Z.land_spec, Z.shiftr_spec by lia. f_equal. f_equal. lia.
Qed.

Lemma land_exponent u : Z.land u EXPONENT_MASK = (u / 2 ^ 52) mod 2 ^ 11 * 2 ^ 52.
Proof. change EXPONENT_MASK with (Z.ones 11 * 2 ^ 52). apply land_field; lia. Qed.

Lemma land_sign u : 0 <= u < 2 ^ 64 -> Z.land u SIGN_MASK = u / 2 ^ 63 * 2 ^ 63.
Proof.
  intros H. change SIGN_MASK with (Z.ones 1 * 2 ^ 63). rewrite land_field by lia.
  rewrite Z.mod_small; lia.
Qed.

Lemma land_magnitude u : Z.land u (Z.lor EXPONENT_MASK SIGNIFICAND_MASK) = u mod 2 ^ 63.
Proof.
  change (Z.lor EXPONENT_MASK SIGNIFICAND_MASK) with (Z.ones 63). apply Z.land_ones. lia.
Qed.

(** ** Doubles as integer significand and exponent *)

Definition exp_field (u : Z) : Z := (u / 2 ^ 52) mod 2 ^ 11.
Definition frac_field (u : Z) : Z := u mod 2 ^ 52.

(** The significand and exponent of a finite double. *)
Definition dbl_f (u : Z) : Z := if exp_field u =? 0 then frac_field u else frac_field u + 2 ^ 52.
Definition dbl_e (u : Z) : Z := if exp_field u =? 0 then -1074 else exp_field u - 1075.

Lemma DiyFp_of_double_eq u : DiyFp_of_double u = MkDiyFp (dbl_f u) (dbl_e u).
Proof.
  unfold DiyFp_of_double, dbl_f, dbl_e, exp_field, frac_field.
  rewrite land_exponent, land_significand.
  unfold DP_SIGNIFICAND_SIZE, DP_MIN_EXPONENT, DP_EXPONENT_BIAS, DP_SIGNIFICAND_SIZE, HIDDEN_BIT.
  rewrite Z.shiftr_div_pow2 by lia. rewrite Z.div_mul by lia.
  destruct (Z.eqb_spec ((u / 2 ^ 52) mod 2 ^ 11) 0); cbn [negb].
  - reflexivity.
  - f_equal. apply Z.mod_small. lia.
Qed.

Lemma dbl_range u : 0 <= u -> exp_field u <> 2047 ->
  0 <= dbl_f u < 2 ^ 53 /\ -1074 <= dbl_e u <= 971 /\ (2 ^ 52 <= dbl_f u \/ dbl_e u = -1074).
Proof.
  intros Hu He. unfold dbl_f, dbl_e, frac_field in *.
  assert (0 <= exp_field u < 2 ^ 11) by (apply Z.mod_pos_bound; lia).
  destruct (Z.eqb_spec (exp_field u) 0); lia.
Qed.

Lemma dbl_f_nonzero u : 0 <= u -> dbl_f u = 0 <-> u mod 2 ^ 63 = 0.
Proof.
  intros Hu. unfold dbl_f, exp_field, frac_field.
  assert (E : u mod 2 ^ 63 = (u / 2 ^ 52) mod 2 ^ 11 * 2 ^ 52 + u mod 2 ^ 52).
  { change (2 ^ 63) with (2 ^ 52 * 2 ^ 11). rewrite Z.rem_mul_r by lia. lia. }
  rewrite E.
  assert (0 <= (u / 2 ^ 52) mod 2 ^ 11 < 2 ^ 11) by (apply Z.mod_pos_bound; lia).
  assert (0 <= u mod 2 ^ 52 < 2 ^ 52) by (apply Z.mod_pos_bound; lia).
  destruct (Z.eqb_spec ((u / 2 ^ 52) mod 2 ^ 11) 0); lia.
Qed.

(** ** Normalisation *)

Lemma u64_small x : 0 <= x < 2 ^ 64 -> u64 x = x.
Proof. apply Z.mod_small. Qed.

Lemma shl64_ok x n : 0 <= n < 64 -> 0 <= x -> x * 2 ^ n < 2 ^ 64 -> shl64 x n = Ok (x * 2 ^ n).
Proof.
  intros Hn Hx H. unfold shl64. rewrite in_range_true by lia.
  rewrite Z.shiftl_mul_pow2 by lia. rewrite u64_small; [reflexivity|].
  split; [|exact H]. apply Z.mul_nonneg_nonneg; [lia|]. apply Z.pow_nonneg. lia.
Qed.

Lemma shr64_ok x n : 0 <= n < 64 -> shr64 x n = Ok (x / 2 ^ n).
Proof.
  intros Hn. unfold shr64. rewrite in_range_true by lia.
  rewrite Z.shiftr_div_pow2 by lia. reflexivity.
Qed.

(** Shift amount that brings the highest bit to position 63. *)
Definition lead_shift (f : Z) : Z := 63 - Z.log2 f.

Lemma log2_bounds f : 0 < f -> 2 ^ Z.log2 f <= f < 2 * 2 ^ Z.log2 f /\ 0 <= Z.log2 f.
Proof.
  intros H. pose proof (Z.log2_spec f H) as [L U]. pose proof (Z.log2_nonneg f).
  rewrite Z.pow_succ_r in U by lia. lia.
Qed.

Lemma lead_shift_bounds f n : 0 < f -> f < 2 ^ n -> n <= 64 -> 64 - n <= lead_shift f <= 63.
Proof.
  intros Hf Hn Hn'. unfold lead_shift.
  assert (0 <= n) by (destruct (Z_lt_le_dec n 0); [rewrite Z.pow_neg_r in Hn by lia; lia|lia]).
  assert (Z.log2 f < n) by (apply Z.log2_lt_pow2; lia).
  pose proof (Z.log2_nonneg f). lia.
Qed.

Lemma lead_shift_value f : 0 < f < 2 ^ 64 -> 2 ^ 63 <= f * 2 ^ lead_shift f < 2 ^ 64.
Proof.
  intros [Hf Hn]. destruct (log2_bounds f Hf) as ([L U] & N). unfold lead_shift.
  assert (Z.log2 f < 64) by (apply Z.log2_lt_pow2; lia).
  assert (E : 2 ^ 63 = 2 ^ Z.log2 f * 2 ^ (63 - Z.log2 f)) by (rewrite <- Z.pow_add_r by lia; f_equal; lia).
  assert (P : 0 < 2 ^ (63 - Z.log2 f)) by (apply Z.pow_pos_nonneg; lia).
  change (2 ^ 64) with (2 * 2 ^ 63). rewrite E.
  set (a := 2 ^ Z.log2 f) in *. set (b := 2 ^ (63 - Z.log2 f)) in *. clearbody a b. nia.
Qed.

Definition normalized (x : DiyFp) : DiyFp :=
  MkDiyFp (df x * 2 ^ lead_shift (df x)) (de x - lead_shift (df x)).

Lemma normalize_msvc_ok x : 0 < df x < 2 ^ 64 -> normalize_msvc x = Ok (normalized x).
Proof.
  intros H. unfold normalize_msvc, bit_scan_reverse.
  destruct (Z.eqb_spec (df x) 0); [lia|]. cbn [bind].
  pose proof (lead_shift_value _ H). pose proof (lead_shift_bounds (df x) 64 ltac:(lia) ltac:(lia) ltac:(lia)).
  fold (lead_shift (df x)). rewrite shl64_ok by lia. reflexivity.
Qed.

Lemma normalize_gnuc_ok x : 0 < df x < 2 ^ 64 -> normalize_gnuc x = Ok (normalized x).
Proof. exact (normalize_msvc_ok x). Qed.

(** The loop shifts until bit [n] is set. *)
Lemma shift_until_ok n k fuel x :
  0 <= n < 63 -> 0 < df x < 2 ^ (n + 1) -> Z.log2 (df x) + Z.of_nat k = n -> (k <= fuel)%nat ->
  shift_until fuel (2 ^ n) x = Ok (MkDiyFp (df x * 2 ^ Z.of_nat k) (de x - Z.of_nat k)).
Proof.
  intros Hn. revert fuel x. induction k as [|k IH]; intros fuel [f e] Hf Hk Hfuel; cbn [df de] in *.
  - destruct (log2_bounds f ltac:(lia)) as ([L U] & N).
    replace (Z.log2 f) with n in * by lia.
    assert (E : Z.land f (2 ^ n) = 2 ^ n).
    { replace (2 ^ n) with (Z.ones 1 * 2 ^ n) at 1 by (change (Z.ones 1) with 1; lia).
      rewrite land_field by lia.
      assert (Q : f / 2 ^ n = 1) by (symmetry; apply Z.div_unique with (r := f - 2 ^ n); lia).
      rewrite Q. change (1 mod 2 ^ 1) with 1. lia. }
    assert (P : 0 < 2 ^ n) by (apply Z.pow_pos_nonneg; lia).
    destruct fuel; cbn [shift_until df de]; rewrite E;
      (destruct (Z.eqb_spec (2 ^ n) 0); [lia|]); f_equal; f_equal;
      change (Z.of_nat 0) with 0; rewrite ?Z.pow_0_r; lia.
  - destruct fuel as [|fuel]; [lia|]. cbn [shift_until df de].
    destruct (log2_bounds f ltac:(lia)) as ([L U] & N).
    assert (P : 0 < 2 ^ n) by (apply Z.pow_pos_nonneg; lia).
    assert (Hlt : f < 2 ^ n).
    { apply Z.lt_le_trans with (1 := U). rewrite <- Z.pow_succ_r by lia. apply Z.pow_le_mono_r; lia. }
    assert (E : Z.land f (2 ^ n) = 0).
    { replace (2 ^ n) with (Z.ones 1 * 2 ^ n) by (change (Z.ones 1) with 1; lia).
      rewrite land_field by lia. rewrite (Z.div_small f (2 ^ n)) by lia. reflexivity. }
    rewrite E, Z.eqb_refl.
    assert (B : f * 2 < 2 ^ 64).
    { assert (2 ^ n <= 2 ^ 62) by (apply Z.pow_le_mono_r; lia). lia. }
    rewrite Z.shiftl_mul_pow2 by lia. change (2 ^ 1) with 2.
    rewrite u64_small by lia.
    rewrite IH; cbn [df de].
    + f_equal. f_equal; [|lia]. rewrite Nat2Z.inj_succ, Z.pow_succ_r by lia. ring.
    + rewrite Z.pow_add_r by lia. lia.
    + rewrite Z.mul_comm, Z.log2_double by lia. lia.
    + lia.
Qed.

Lemma shift_until_normalized n x :
  0 <= n < 63 -> 0 < df x < 2 ^ (n + 1) ->
  (let* res := shift_until 64 (2 ^ n) x in
   let* f := shl64 (df res) (63 - n) in Ok (MkDiyFp f (de res - (63 - n)))) = Ok (normalized x).
Proof.
  intros Hn Hx.
  assert (B : Z.log2 (df x) < n + 1) by (apply Z.log2_lt_pow2; lia).
  pose proof (Z.log2_nonneg (df x)) as N.
  rewrite (shift_until_ok n (Z.to_nat (n - Z.log2 (df x)))) by lia.
  cbn [bind df de]. rewrite Z2Nat.id by lia.
  assert (R : 0 < df x < 2 ^ 64).
  { assert (2 ^ (n + 1) <= 2 ^ 64) by (apply Z.pow_le_mono_r; lia). lia. }
  pose proof (lead_shift_value _ R) as V.
  assert (E : df x * 2 ^ (n - Z.log2 (df x)) * 2 ^ (63 - n) = df x * 2 ^ lead_shift (df x)).
  { rewrite <- Z.mul_assoc, <- Z.pow_add_r by lia. f_equal. f_equal. unfold lead_shift. lia. }
  rewrite shl64_ok.
  - rewrite E. cbn [bind]. unfold normalized. f_equal. f_equal. unfold lead_shift. lia.
  - lia.
  - apply Z.mul_nonneg_nonneg; [lia|]. apply Z.pow_nonneg. lia.
  - rewrite E. lia.
Qed.

Lemma normalize_ok cc x : 0 < df x < 2 ^ 53 -> normalize cc x = Ok (normalized x).
Proof.
  intros H. destruct cc; cbn [normalize].
  - apply normalize_msvc_ok. lia.
  - apply normalize_gnuc_ok. lia.
  - apply (shift_until_normalized 52); lia.
Qed.

Lemma normalizeBoundary_ok cc x : 0 < df x < 2 ^ 54 -> normalizeBoundary cc x = Ok (normalized x).
Proof.
  intros H. destruct cc; cbn [normalizeBoundary].
  - apply normalize_msvc_ok. lia.
  - apply (shift_until_normalized 53); lia.
  - apply (shift_until_normalized 53); lia.
Qed.

(** ** Multiplication *)

(** Rounded upper half of the product. *)
Definition mul_high (a b : Z) : Z := (a * b + 2 ^ 63) / 2 ^ 64.

Lemma land_bit63 lo : 0 <= lo < 2 ^ 64 -> (Z.land lo (Z.shiftl 1 63) =? 0) = (lo <? 2 ^ 63).
Proof.
  intros H. change (Z.shiftl 1 63) with SIGN_MASK. rewrite land_sign by exact H. lia.
Qed.

Lemma mul_round a b : 0 <= a < 2 ^ 64 -> 0 <= b < 2 ^ 64 ->
  (if Z.land (u64 (a * b)) (Z.shiftl 1 63) =? 0 then a * b / 2 ^ 64 else u64 (a * b / 2 ^ 64 + 1))
  = mul_high a b.
Proof.
  intros Ha Hb. assert (0 <= a * b <= (2 ^ 64 - 1) * (2 ^ 64 - 1)) by nia.
  set (p := a * b) in *. unfold mul_high. fold p. clearbody p.
  unfold u64. rewrite land_bit63 by lia.
  destruct (Z.ltb_spec (p mod 2 ^ 64) (2 ^ 63)); lia.
Qed.

Lemma mul_msvc_ok x y : 0 <= df x < 2 ^ 64 -> 0 <= df y < 2 ^ 64 ->
  mul_msvc x y = MkDiyFp (mul_high (df x) (df y)) (de x + de y + 64).
Proof. intros Hx Hy. unfold mul_msvc. rewrite mul_round by assumption. reflexivity. Qed.

Lemma mul_gnuc_ok x y : 0 <= df x < 2 ^ 64 -> 0 <= df y < 2 ^ 64 ->
  mul_gnuc x y = MkDiyFp (mul_high (df x) (df y)) (de x + de y + 64).
Proof.
  intros Hx Hy. unfold mul_gnuc.
  assert (0 <= df x * df y <= (2 ^ 64 - 1) * (2 ^ 64 - 1)) by nia.
  rewrite (Z.mod_small _ (2 ^ 128)) by lia.
  rewrite Z.shiftr_div_pow2 by lia. rewrite (u64_small (df x * df y / 2 ^ 64)) by lia.
  rewrite mul_round by assumption. reflexivity.
Qed.

Lemma mul_generic_ok x y : 0 <= df x < 2 ^ 64 -> 0 <= df y < 2 ^ 64 ->
  mul_generic x y = MkDiyFp (mul_high (df x) (df y)) (de x + de y + 64).
Proof.
  intros Hx Hy. unfold mul_generic. f_equal.
  rewrite !Z.shiftr_div_pow2 by lia. change (Z.shiftl 1 31) with (2 ^ 31).
  change 0xFFFFFFFF with (Z.ones 32). rewrite !Z.land_ones by lia.
  unfold mul_high.
  set (a := df x / 2 ^ 32). set (b := df x mod 2 ^ 32).
  set (c := df y / 2 ^ 32). set (d := df y mod 2 ^ 32).
  assert (Ex : df x = a * 2 ^ 32 + b) by (unfold a, b; lia).
  assert (Ey : df y = c * 2 ^ 32 + d) by (unfold c, d; lia).
  assert (Ra : 0 <= a < 2 ^ 32) by (unfold a; lia). assert (Rb : 0 <= b < 2 ^ 32) by (unfold b; lia).
  assert (Rc : 0 <= c < 2 ^ 32) by (unfold c; lia). assert (Rd : 0 <= d < 2 ^ 32) by (unfold d; lia).
  rewrite Ex, Ey. clearbody a b c d. clear Hx Hy Ex Ey.
  assert (Pac : 0 <= a * c <= (2 ^ 32 - 1) * (2 ^ 32 - 1)) by nia.
  assert (Pbc : 0 <= b * c <= (2 ^ 32 - 1) * (2 ^ 32 - 1)) by nia.
  assert (Pad : 0 <= a * d <= (2 ^ 32 - 1) * (2 ^ 32 - 1)) by nia.
  assert (Pbd : 0 <= b * d <= (2 ^ 32 - 1) * (2 ^ 32 - 1)) by nia.
  replace ((a * 2 ^ 32 + b) * (c * 2 ^ 32 + d)) with
    (a * c * 2 ^ 64 + (a * d + b * c) * 2 ^ 32 + b * d) by ring.
  assert (Htot : a * c * 2 ^ 64 + (a * d + b * c) * 2 ^ 32 + b * d <= (2 ^ 64 - 1) * (2 ^ 64 - 1)).
  { replace (a * c * 2 ^ 64 + (a * d + b * c) * 2 ^ 32 + b * d) with
    ((a * 2 ^ 32 + b) * (c * 2 ^ 32 + d)) by ring. nia. }
  set (ac := a * c) in *. set (bc := b * c) in *. set (ad := a * d) in *. set (bd := b * d) in *.
  clearbody ac bc ad bd. unfold u64.
  rewrite (Z.mod_small ac), (Z.mod_small bc), (Z.mod_small ad), (Z.mod_small bd) by lia.
  rewrite (Z.mod_small (bd / 2 ^ 32 + ad mod 2 ^ 32)) by lia.
  rewrite (Z.mod_small (bd / 2 ^ 32 + ad mod 2 ^ 32 + bc mod 2 ^ 32)) by lia.
  rewrite (Z.mod_small (bd / 2 ^ 32 + ad mod 2 ^ 32 + bc mod 2 ^ 32 + 2 ^ 31)) by lia.
  set (tmp := bd / 2 ^ 32 + ad mod 2 ^ 32 + bc mod 2 ^ 32 + 2 ^ 31).
  assert (Q : (ac * 2 ^ 64 + (ad + bc) * 2 ^ 32 + bd + 2 ^ 63) / 2 ^ 64
              = ac + ad / 2 ^ 32 + bc / 2 ^ 32 + tmp / 2 ^ 32).
  { symmetry. apply Z.div_unique with (r := tmp mod 2 ^ 32 * 2 ^ 32 + bd mod 2 ^ 32).
    - left. lia.
    - unfold tmp. lia. }
  rewrite Q. assert (ac + ad / 2 ^ 32 + bc / 2 ^ 32 + tmp / 2 ^ 32 < 2 ^ 64).
  { rewrite <- Q. apply Z.div_lt_upper_bound; lia. }
  assert (0 <= tmp / 2 ^ 32) by (apply Z.div_pos; unfold tmp; lia).
  rewrite !Z.mod_small; lia.
Qed.

Lemma mul_ok cc x y : 0 <= df x < 2 ^ 64 -> 0 <= df y < 2 ^ 64 ->
  mul cc x y = MkDiyFp (mul_high (df x) (df y)) (de x + de y + 64).
Proof.
  destruct cc; [apply mul_msvc_ok|apply mul_gnuc_ok|apply mul_generic_ok].
Qed.

(** ** Boundaries *)

(** Lower boundary significand relative to the exponent of the normalised value. *)
Definition minus_f (f : Z) : Z :=
  if f =? 2 ^ 52 then (4 * f - 1) * 2 ^ (lead_shift f - 2) else (2 * f - 1) * 2 ^ (lead_shift f - 1).
Definition plus_f (f : Z) : Z := (2 * f + 1) * 2 ^ (lead_shift f - 1).

Lemma lead_shift_plus f : 0 < f -> lead_shift (2 * f + 1) = lead_shift f - 1.
Proof. intros H. unfold lead_shift. rewrite Z.log2_succ_double by lia. lia. Qed.

Lemma plus_f_range f : 0 < f < 2 ^ 53 -> 2 ^ 63 <= plus_f f < 2 ^ 64.
Proof.
  intros H. unfold plus_f. rewrite <- lead_shift_plus by lia. apply lead_shift_value. lia.
Qed.

(** Distances between the boundaries and the value, in units of the normalised exponent. *)
Lemma boundary_gaps f : 0 < f < 2 ^ 53 ->
  let v := f * 2 ^ lead_shift f in
  11 <= lead_shift f <= 63 /\
  plus_f f - v = 2 ^ (lead_shift f - 1) /\
  (f <> 2 ^ 52 -> v - minus_f f = 2 ^ (lead_shift f - 1)) /\
  (f = 2 ^ 52 -> lead_shift f = 11 /\ v - minus_f f = 2 ^ 9) /\
  0 < minus_f f < v /\ 2 ^ 63 <= v /\ v < plus_f f < 2 ^ 64.
Proof.
  intros H v. pose proof (lead_shift_bounds f 53 ltac:(lia) ltac:(lia) ltac:(lia)) as B.
  pose proof (plus_f_range f H) as PR. pose proof (lead_shift_value f ltac:(lia)) as VR.
  set (p := 2 ^ (lead_shift f - 1)).
  assert (Pp : 0 < p) by (apply Z.pow_pos_nonneg; lia).
  assert (E : 2 ^ lead_shift f = 2 * p)
    by (unfold p; rewrite <- Z.pow_succ_r by lia; f_equal; lia).
  unfold v in *. unfold plus_f, minus_f in *. fold p in PR |- *. rewrite E in *.
  split; [lia|]. split; [ring|].
  split. { intros N. rewrite (proj2 (Z.eqb_neq _ _) N). ring. }
  assert (S52 : f = 2 ^ 52 -> lead_shift f = 11).
  { intros ->. reflexivity. }
  split. { intros X. specialize (S52 X). split; [exact S52|]. unfold p. rewrite S52, X. reflexivity. }
  split.
  { destruct (Z.eqb_spec f (2 ^ 52)) as [X|X].
    - specialize (S52 X). unfold p. rewrite S52, X. cbn. lia.
    - nia. }
  split; [lia|]. nia.
Qed.

Lemma normalizedBoundaries_ok cc f e : 0 < f < 2 ^ 53 ->
  normalizedBoundaries cc (MkDiyFp f e) =
  Ok (MkDiyFp (minus_f f) (e - lead_shift f), MkDiyFp (plus_f f) (e - lead_shift f)).
Proof.
  intros H. unfold normalizedBoundaries. cbn [df de].
  rewrite !Z.shiftl_mul_pow2 by lia. change (2 ^ 1) with 2. change (2 ^ 2) with 4.
  rewrite !(u64_small (f * 2)) by lia. rewrite !(u64_small (f * 4)) by lia.
  rewrite (u64_small (f * 2 + 1)), (u64_small (f * 4 - 1)), (u64_small (f * 2 - 1)) by lia.
  rewrite normalizeBoundary_ok by (cbn [df]; lia). cbn [bind].
  unfold normalized. cbn [df de].
  replace (f * 2 + 1) with (2 * f + 1) by ring. rewrite lead_shift_plus by lia.
  destruct (boundary_gaps f H) as (B & _ & _ & S52 & M & _ & P).
  change HIDDEN_BIT with (2 ^ 52).
  unfold minus_f in *. fold (plus_f f).
  destruct (Z.eqb_spec f (2 ^ 52)) as [X|X]; cbn [df de].
  - rewrite shl64_ok.
    + cbn [bind].
      replace (e - 2 - (e - 1 - (lead_shift f - 1))) with (lead_shift f - 2) by lia.
      replace (f * 4 - 1) with (4 * f - 1) by ring.
      replace (e - 1 - (lead_shift f - 1)) with (e - lead_shift f) by lia. reflexivity.
    + lia.
    + lia.
    + replace (e - 2 - (e - 1 - (lead_shift f - 1))) with (lead_shift f - 2) by lia. lia.
  - rewrite shl64_ok.
    + cbn [bind].
      replace (e - 1 - (e - 1 - (lead_shift f - 1))) with (lead_shift f - 1) by lia.
      replace (f * 2 - 1) with (2 * f - 1) by ring.
      replace (e - 1 - (lead_shift f - 1)) with (e - lead_shift f) by lia. reflexivity.
    + lia.
    + lia.
    + replace (e - 1 - (e - 1 - (lead_shift f - 1))) with (lead_shift f - 1) by lia.
      replace (f * 2 - 1) with (2 * f - 1) by ring. lia.
Qed.
