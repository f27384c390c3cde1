(** Proofs about long doubles as bits. *)
From Coq Require Import Lia Reals Lra.
From Flocq Require Import Core IEEE754.BinarySingleNaN.
From Verif Require Import Machine SpecIeee SpecRead SpecApi SpecEncoding ModelItoa ModelInt ModelText ModelIeee ModelDiyfp ModelDtoa ModelFloat ModelLexi
  ModelEncoding ProofRound ProofFloat2 ProofFloat4 ProofFlush.
Open Scope Z_scope.

(** ** Fields *)

Definition pack (mw ew : Z) (s : bool) (e m : Z) : Z := (if s then 2 ^ (mw + ew) else 0) + e * 2 ^ mw + m.

Section fields.
Context (mw ew : Z) (Hm : 0 < mw) (He : 0 < ew).

Lemma unpack u : 0 <= u < 2 ^ (mw + ew + 1) -> exists s e m, u = pack mw ew s e m /\ 0 <= e < 2 ^ ew /\ 0 <= m < 2 ^ mw.
Proof using All.
  intros H. set (M := 2 ^ mw). set (E := 2 ^ ew). assert (PM : 0 < M) by (apply Z.pow_pos_nonneg; lia). assert (PE : 0 < E) by (apply Z.pow_pos_nonneg; lia).
  assert (EQ : 2 ^ (mw + ew) = M * E) by (apply Z.pow_add_r; lia). rewrite Z.pow_add_r, EQ in H by lia. change (2 ^ 1) with 2 in H.
  exists (M * E <=? u), ((u / M) mod E), (u mod M). pose proof (Z.mod_pos_bound u M PM). pose proof (Z.mod_pos_bound (u / M) E PE).
  split; [|split; assumption]. unfold pack. rewrite EQ. fold M. pose proof (Z.div_mod u M ltac:(lia)) as D1. pose proof (Z.div_mod (u / M) E ltac:(lia)) as D2.
  assert (Q : 0 <= u / M / E < 2).
  { rewrite Z.div_div by lia. split; [apply Z.div_pos; nia|]. apply Z.div_lt_upper_bound; nia. }
  rewrite Z.div_div in D2, Q by lia. destruct (Z.leb_spec (M * E) u) as [L|L].
  - assert (1 <= u / (M * E)) by (apply Z.div_le_lower_bound; nia). assert (Q1 : u / (M * E) = 1) by lia. rewrite Q1 in D2. nia.
  - rewrite (Z.div_small u (M * E)) in D2 by nia. nia.
Qed.

Lemma pack_fields s e m : 0 <= e < 2 ^ ew -> 0 <= m < 2 ^ mw -> let u := pack mw ew s e m in
  0 <= u < 2 ^ (mw + ew + 1) /\ (2 ^ (mw + ew) <=? u) = s /\ (u / 2 ^ mw) mod 2 ^ ew = e /\ u mod 2 ^ mw = m /\
  field u (mw + ew) 1 = (if s then 1 else 0) /\ field u mw ew = e /\ field u 0 mw = m.
Proof using All.
  intros E M u. assert (PM : 0 < 2 ^ mw) by (apply Z.pow_pos_nonneg; lia). assert (PE : 0 < 2 ^ ew) by (apply Z.pow_pos_nonneg; lia).
  assert (EQ : 2 ^ (mw + ew) = 2 ^ mw * 2 ^ ew) by (apply Z.pow_add_r; lia).
  assert (EQ2 : 2 ^ (mw + ew + 1) = 2 ^ mw * 2 ^ ew * 2) by (rewrite Z.pow_add_r, EQ by lia; reflexivity).
  set (X := 2 ^ mw) in *. set (Y := 2 ^ ew) in *.
  assert (V : u = ((if s then 1 else 0) * Y + e) * X + m) by (unfold u, pack; rewrite EQ; fold X; destruct s; lia).
  assert (D : u / X = (if s then 1 else 0) * Y + e) by (rewrite V, Z.div_add_l, Z.div_small by lia; lia).
  assert (D' : u / X / Y = if s then 1 else 0) by (rewrite D, Z.div_add_l, Z.div_small by lia; lia).
  assert (A : (u / X) mod Y = e) by (rewrite D, Z.add_comm, Z.mod_add, Z.mod_small by lia; reflexivity).
  assert (B : u mod X = m) by (rewrite V, Z.add_comm, Z.mod_add, Z.mod_small by lia; reflexivity).
  assert (R : 0 <= u < X * Y * 2) by (rewrite V; destruct s; nia).
  split; [rewrite EQ2; exact R|]. split; [rewrite EQ; rewrite V; destruct s; [apply Z.leb_le|apply Z.leb_gt]; nia|]. split; [exact A|]. split; [exact B|].
  unfold field. rewrite EQ, <- Z.div_div, D' by lia. split; [destruct s; reflexivity|]. split; [exact A|]. rewrite Z.pow_0_r, Z.div_1_r. exact B.
Qed.
End fields.

(** ** Numbers that a format has *)

Lemma valid_iff prec emax s m e : 0 < prec -> prec < emax ->
  (SpecFloat.valid_binary prec emax (S754_finite s m e) = true <->
   Zpos m < 2 ^ prec /\ 3 - emax - prec <= e <= emax - prec /\ (e = 3 - emax - prec \/ 2 ^ (prec - 1) <= Zpos m)).
Proof.
  intros P Q. cbn [SpecFloat.valid_binary]. unfold SpecFloat.bounded, SpecFloat.canonical_mantissa, SpecFloat.fexp, SpecFloat.emin.
  rewrite Bool.andb_true_iff, <- Zeq_is_eq_bool, Z.leb_le, Digits.Zpos_digits2_pos.
  set (d := Digits.Zdigits radix2 (Zpos m)).
  assert (U : Zpos m < 2 ^ prec <-> d <= prec).
  { split; intros H; [apply Digits.Zdigits_le_Zpower; exact H|]. destruct (Z.lt_ge_cases (Zpos m) (2 ^ prec)) as [|X]; [assumption|].
    assert (prec < d) by (apply Digits.Zdigits_gt_Zpower; exact X). lia. }
  assert (W : 2 ^ (prec - 1) <= Zpos m <-> prec <= d).
  { split; intros H; [assert (prec - 1 < d) by (apply Digits.Zdigits_gt_Zpower; exact H); lia|].
    destruct (Z.lt_ge_cases (Zpos m) (2 ^ (prec - 1))) as [X|]; [|lia]. assert (d <= prec - 1) by (apply Digits.Zdigits_le_Zpower; exact X). lia. }
  rewrite U, W. lia.
Qed.

Definition sf_meaning (x : spec_float) : meaning :=
  match x with
  | S754_zero s => Number s 0
  | S754_infinity s => Infinite s
  | S754_nan => NotNumber
  | S754_finite s m e => Number s (signed s (IZR (Zpos m) * bpow radix2 e))
  end.

Lemma signed_0 s x : signed s (0 * x) = 0%R.
Proof. unfold signed. destruct s; rewrite Rmult_0_l; [apply Ropp_0|reflexivity]. Qed.

(** ** The x87 format *)

Lemma field63 s e m : 0 <= e < 2 ^ 15 -> 0 <= m < 2 ^ 64 -> field (pack 64 15 s e m) 63 1 = (if 2 ^ 63 <=? m then 1 else 0) /\ field (pack 64 15 s e m) 0 63 = m mod 2 ^ 63.
Proof.
  intros E M. unfold field, pack. rewrite Z.pow_0_r, Z.div_1_r. change (2 ^ 64) with (2 * 2 ^ 63) in *. change (2 ^ (64 + 15)) with (2 ^ 16 * 2 ^ 63). change (2 ^ 1) with 2. set (X := 2 ^ 63) in *.
  replace ((if s then 2 ^ 16 * X else 0) + e * (2 * X) + m) with (m + ((if s then 2 ^ 15 else 0) + e) * 2 * X) by (change (2 ^ 16) with (2 * 2 ^ 15); destruct s; lia).
  assert (PX : 0 < X) by reflexivity. rewrite Z.div_add, Z.mod_add, Z.mod_add by lia. split; [|reflexivity].
  destruct (Z.leb_spec X m) as [L|L]; [|rewrite Z.div_small by lia; reflexivity]. replace m with (m - X + 1 * X) by lia. rewrite Z.div_add, Z.div_small by lia. reflexivity.
Qed.

Definition x87_parts (s : bool) (e m : Z) : spec_float :=
  if e =? 32767 then if m =? 2 ^ 63 then S754_infinity s else S754_nan
  else if e =? 0 then match m with Zpos p => S754_finite s p (-16445) | _ => S754_zero s end
  else if m <? 2 ^ 63 then S754_nan
  else match m with Zpos p => S754_finite s p (e - 16446) | _ => S754_nan end.

Lemma x87_pack s e m : 0 <= e < 2 ^ 15 -> 0 <= m < 2 ^ 64 -> x87_of_bits (pack 64 15 s e m) = x87_parts s e m.
Proof.
  intros E M. destruct (pack_fields 64 15 ltac:(lia) ltac:(lia) s e m E M) as (_ & A & B & C & _). unfold x87_of_bits. change 79 with (64 + 15). rewrite A, B, C. reflexivity.
Qed.

Lemma x87_valid u : 0 <= u < 2 ^ 80 -> SpecFloat.valid_binary 64 16384 (x87_of_bits u) = true.
Proof.
  intros H. destruct (unpack 64 15 ltac:(lia) ltac:(lia) u H) as (s & e & m & -> & E & M). rewrite x87_pack by assumption. unfold x87_parts.
  change (2 ^ 15) with 32768 in E. destruct (Z.eqb_spec e 32767); [destruct (m =? 2 ^ 63); reflexivity|].
  destruct (Z.eqb_spec e 0); [|destruct (Z.ltb_spec m (2 ^ 63))]; try reflexivity; destruct m as [|p|p]; try reflexivity; apply valid_iff; lia.
Qed.

Lemma x87_means u : 0 <= u < 2 ^ 80 -> sf_meaning (x87_of_bits u) = x87_meaning u.
Proof.
  intros H. destruct (unpack 64 15 ltac:(lia) ltac:(lia) u H) as (s & e & m & -> & E & M). rewrite x87_pack by assumption.
  destruct (pack_fields 64 15 ltac:(lia) ltac:(lia) s e m E M) as (_ & _ & _ & _ & A & B & C). change (64 + 15) with 79 in A. destruct (field63 s e m E M) as [F G].
  unfold x87_meaning. rewrite A, B, C, F, G. unfold x87_parts. replace ((if s then 1 else 0) =? 1) with s by (destruct s; reflexivity).
  destruct (Z.eqb_spec e 32767) as [->|N].
  { destruct (Z.leb_spec (2 ^ 63) m) as [L|L]; cbn [andb Z.eqb Pos.eqb].
    - replace m with (m - 2 ^ 63 + 1 * 2 ^ 63) at 2 by lia. rewrite Z.mod_add, Z.mod_small by lia.
      destruct (Z.eqb_spec m (2 ^ 63)) as [->|X]; [reflexivity|]. destruct (Z.eqb_spec (m - 2 ^ 63) 0); [lia|reflexivity].
    - destruct (Z.eqb_spec m (2 ^ 63)); [lia|reflexivity]. }
  destruct (Z.eqb_spec e 0) as [->|N0]; cbn [orb].
  { change (Z.max 0 1 - 16383 - 63) with (-16445). destruct m as [|p|p]; [cbn [sf_meaning]; rewrite signed_0; reflexivity|reflexivity|lia]. }
  destruct (Z.ltb_spec m (2 ^ 63)) as [L|L]; destruct (Z.leb_spec (2 ^ 63) m); try lia; [reflexivity|]. cbn [Z.eqb Pos.eqb].
  destruct m as [|p|p]; [lia| |lia]. cbn [sf_meaning]. replace (Z.max e 1 - 16383 - 63) with (e - 16446) by lia. reflexivity.
Qed.

Lemma x87_stored nan x : SpecFloat.valid_binary 64 16384 x = true -> x <> S754_nan ->
  exists s e m, x87_bits nan x = pack 64 15 s e m /\ 0 <= e < 2 ^ 15 /\ 0 <= m < 2 ^ 64 /\ x87_parts s e m = x /\ (e = 0 -> m < 2 ^ 63).
Proof.
  intros V N. change (2 ^ 15) with 32768. destruct x as [s|s| |s m e]; [| |contradiction|].
  - exists s, 0, 0. split; [unfold pack; cbn [x87_bits]; destruct s; reflexivity|]. split; [lia|]. split; [lia|]. split; [reflexivity|lia].
  - exists s, 32767, (2 ^ 63). split; [unfold pack; cbn [x87_bits]; destruct s; reflexivity|]. split; [lia|]. split; [lia|]. split; [reflexivity|lia].
  - apply valid_iff in V; [|lia|lia]. destruct V as (A & B & C). cbn [x87_bits]. change (64 - 1) with 63 in C. destruct (Z.ltb_spec (Zpos m) (2 ^ 63)) as [L|L].
    + exists s, 0, (Zpos m). split; [unfold pack; change (64 + 15) with 79; destruct s; ring|]. split; [lia|]. split; [lia|]. split; [|lia]. unfold x87_parts. cbn [Z.eqb]. f_equal. lia.
    + exists s, (e + 16446), (Zpos m). split; [unfold pack; change (64 + 15) with 79; destruct s; ring|]. split; [lia|]. split; [lia|]. split; [|lia]. unfold x87_parts.
      destruct (Z.eqb_spec (e + 16446) 32767); [lia|]. destruct (Z.eqb_spec (e + 16446) 0); [lia|]. destruct (Z.ltb_spec (Zpos m) (2 ^ 63)); [lia|]. f_equal. lia.
Qed.

Lemma x87_finite s e m x : x87_parts s e m = x -> 0 <= e -> 0 <= m -> x <> S754_nan ->
  (x = S754_infinity s /\ e = 32767 /\ m = 2 ^ 63) \/
  (x = match m with Zpos p => S754_finite s p (Z.max e 1 - 16446) | _ => S754_zero s end /\ e <> 32767 /\ (e = 0 \/ 2 ^ 63 <= m)).
Proof.
  unfold x87_parts. intros Q E M N. destruct (Z.eqb_spec e 32767) as [->|N1].
  { destruct (Z.eqb_spec m (2 ^ 63)) as [->|]; [left; split; [congruence|split; reflexivity]|congruence]. }
  right. destruct (Z.eqb_spec e 0) as [->|N2]; [change (Z.max 0 1 - 16446) with (-16445); split; [symmetry; exact Q|split; [exact N1|left; reflexivity]]|].
  destruct (Z.ltb_spec m (2 ^ 63)) as [L|L]; [congruence|]. replace (Z.max e 1) with e by lia. destruct m as [|p|p]; [lia| |lia]. split; [congruence|]. split; [exact N1|right; exact L].
Qed.

Lemma x87_same u v : 0 <= u < 2 ^ 80 -> 0 <= v < 2 ^ 80 -> x87_meaning u <> NotNumber -> (x87_of_bits u = x87_of_bits v <-> u = v \/ twins u v).
Proof.
  intros Hu Hv N. rewrite <- (x87_means u Hu) in N.
  destruct (unpack 64 15 ltac:(lia) ltac:(lia) u Hu) as (s & e & m & -> & E & M). destruct (unpack 64 15 ltac:(lia) ltac:(lia) v Hv) as (s' & e' & m' & -> & E' & M').
  rewrite !x87_pack in * by assumption. unfold twins.
  destruct (pack_fields 64 15 ltac:(lia) ltac:(lia) s e m E M) as (_ & _ & _ & _ & A & B & C). destruct (pack_fields 64 15 ltac:(lia) ltac:(lia) s' e' m' E' M') as (_ & _ & _ & _ & A' & B' & C').
  change (64 + 15) with 79 in *. destruct (field63 s e m E M) as [F _].
  assert (NN : x87_parts s e m <> S754_nan) by (intros X; rewrite X in N; apply N; reflexivity).
  rewrite A, B, C, A', B', C', F. clear A B C A' B' C' F Hu Hv N. split.
  - intros Q. assert (K : s = s' /\ m = m' /\ (e = e' \/ (2 ^ 63 <= m /\ ((e = 0 /\ e' = 1) \/ (e = 1 /\ e' = 0))))).
    { destruct (x87_finite s e m _ eq_refl ltac:(lia) ltac:(lia) NN) as [(X & -> & ->)|(X & X1 & X2)];
        (destruct (x87_finite s' e' m' _ eq_refl ltac:(lia) ltac:(lia) ltac:(rewrite <- Q; exact NN)) as [(Y & -> & ->)|(Y & Y1 & Y2)]); rewrite X, Y in Q.
      - injection Q as ->. split; [reflexivity|]. split; [reflexivity|left; reflexivity].
      - destruct m'; discriminate.
      - destruct m; discriminate.
      - destruct m as [|p|p]; destruct m' as [|p'|p']; try discriminate; try lia.
        + injection Q as ->. split; [reflexivity|]. split; [reflexivity|]. left. lia.
        + injection Q as -> -> Q. split; [reflexivity|]. split; [reflexivity|]. lia. }
    destruct K as (-> & -> & [->|(L & K)]); [left; reflexivity|right]. split; [reflexivity|]. split; [reflexivity|]. split; [|exact K].
    destruct (Z.leb_spec (2 ^ 63) m'); [reflexivity|lia].
  - intros [Q|(S & -> & J & K)].
    + rewrite <- (x87_pack s e m E M), <- (x87_pack s' e' m' E' M'), Q. reflexivity.
    + assert (s = s') as -> by (destruct s, s'; (reflexivity || discriminate)). destruct (Z.leb_spec (2 ^ 63) m') as [L|]; [|discriminate].
      unfold x87_parts. destruct K as [[-> ->]|[-> ->]]; cbn [Z.eqb Pos.eqb]; destruct (Z.ltb_spec m' (2 ^ 63)); try lia; destruct m'; (reflexivity || lia).
Qed.

(** ** The formats of IEEE 754 *)

Section ieee.
Context (mw ew : Z) (Hm : 1 < mw) (He : 1 < ew) (Hme : mw + 1 < 2 ^ (ew - 1)).

Definition ieee_parts (s : bool) (e m : Z) : spec_float :=
  let emin := 3 - 2 ^ (ew - 1) - (mw + 1) in
  if e =? 0 then match m with Zpos p => S754_finite s p emin | _ => S754_zero s end
  else if e =? 2 ^ ew - 1 then if m =? 0 then S754_infinity s else S754_nan
  else match m + 2 ^ mw with Zpos p => S754_finite s p (emin + e - 1) | _ => S754_nan end.

Lemma ieee_pack s e m : 0 <= e < 2 ^ ew -> 0 <= m < 2 ^ mw -> sf_of_bits mw ew (pack mw ew s e m) = ieee_parts s e m.
Proof using All.
  intros E M. destruct (pack_fields mw ew ltac:(lia) ltac:(lia) s e m E M) as (_ & A & B & C & _). unfold sf_of_bits. rewrite A, B, C. reflexivity.
Qed.

Lemma half_power : 2 ^ ew = 2 * 2 ^ (ew - 1).
Proof using All. replace ew with (1 + (ew - 1)) at 1 by lia. rewrite Z.pow_add_r by lia. reflexivity. Qed.
Lemma next_power : 2 ^ (mw + 1) = 2 * 2 ^ mw /\ 0 < 2 ^ mw.
Proof using All. split; [rewrite Z.pow_add_r by lia; change (2 ^ 1) with 2; lia|apply Z.pow_pos_nonneg; lia]. Qed.

Lemma ieee_valid u : 0 <= u < 2 ^ (mw + ew + 1) -> SpecFloat.valid_binary (mw + 1) (2 ^ (ew - 1)) (sf_of_bits mw ew u) = true.
Proof using All.
  intros H. destruct (unpack mw ew ltac:(lia) ltac:(lia) u H) as (s & e & m & -> & E & M). rewrite ieee_pack by assumption. unfold ieee_parts. cbv zeta.
  pose proof half_power as HF. destruct next_power as [NP PP]. set (X := 2 ^ mw) in *. set (Y := 2 ^ (ew - 1)) in *.
  destruct (Z.eqb_spec e 0).
  - destruct m as [|p|p]; try reflexivity. apply valid_iff; [lia|lia|]. rewrite NP. lia.
  - destruct (Z.eqb_spec e (2 ^ ew - 1)); [destruct (m =? 0); reflexivity|]. destruct (m + X) as [|p|p] eqn:P; try reflexivity. apply valid_iff; [lia|lia|].
    rewrite NP. replace (mw + 1 - 1) with mw by lia. fold X. lia.
Qed.

Lemma ieee_means u : 0 <= u < 2 ^ (mw + ew + 1) -> sf_meaning (sf_of_bits mw ew u) = ieee_meaning mw ew u.
Proof using All.
  intros H. destruct (unpack mw ew ltac:(lia) ltac:(lia) u H) as (s & e & m & -> & E & M). rewrite ieee_pack by assumption.
  destruct (pack_fields mw ew ltac:(lia) ltac:(lia) s e m E M) as (_ & _ & _ & _ & A & B & C). unfold ieee_meaning. rewrite A, B, C. unfold ieee_parts. cbv zeta.
  replace ((if s then 1 else 0) =? 1) with s by (destruct s; reflexivity). pose proof half_power as HF. destruct next_power as [NP PP]. set (X := 2 ^ mw) in *. set (Y := 2 ^ (ew - 1)) in *.
  destruct (Z.eqb_spec e 0) as [->|N].
  - destruct (Z.eqb_spec 0 (2 ^ ew - 1)); [lia|]. replace (Z.max 0 1 - (Y - 1) - mw) with (3 - Y - (mw + 1)) by lia.
    destruct m as [|p|p]; [cbn [sf_meaning]; rewrite signed_0; reflexivity|reflexivity|lia].
  - destruct (Z.eqb_spec e (2 ^ ew - 1)); [destruct (m =? 0); reflexivity|]. destruct (m + X) as [|p|p] eqn:P; [lia| |lia]. cbn [sf_meaning].
    replace (X + m) with (Zpos p) by lia. replace (Z.max e 1 - (Y - 1) - mw) with (3 - Y - (mw + 1) + e - 1) by lia. reflexivity.
Qed.

Lemma ieee_stored nan x : SpecFloat.valid_binary (mw + 1) (2 ^ (ew - 1)) x = true -> x <> S754_nan ->
  exists s e m, ieee_bits mw ew nan x = pack mw ew s e m /\ 0 <= e < 2 ^ ew /\ 0 <= m < 2 ^ mw /\ ieee_parts s e m = x.
Proof using All.
  intros V N. pose proof half_power as HF. destruct next_power as [NP PP]. set (X := 2 ^ mw) in *. set (Y := 2 ^ (ew - 1)) in *.
  destruct x as [s|s| |s m e]; [| |contradiction|].
  - exists s, 0, 0. split; [unfold pack; cbn [ieee_bits]; destruct s; lia|]. split; [lia|]. split; [lia|]. reflexivity.
  - exists s, (2 ^ ew - 1), 0. split; [unfold pack; cbn [ieee_bits]; fold X; destruct s; lia|]. split; [lia|]. split; [lia|]. unfold ieee_parts. cbv zeta.
    destruct (Z.eqb_spec (2 ^ ew - 1) 0); [lia|]. rewrite Z.eqb_refl. reflexivity.
  - apply valid_iff in V; [|lia|lia]. destruct V as (A & B & C). cbn [ieee_bits]. fold X Y. replace (mw + 1 - 1) with mw in C by lia. fold X in C. rewrite NP in A.
    destruct (Z.ltb_spec (Zpos m) X) as [L|L].
    + exists s, 0, (Zpos m). split; [unfold pack; fold X; destruct s; lia|]. split; [lia|]. split; [lia|]. unfold ieee_parts. cbn [Z.eqb]. cbv zeta. fold Y. f_equal. lia.
    + exists s, (e - (3 - Y - (mw + 1)) + 1), (Zpos m - X). split; [unfold pack; fold X; destruct s; lia|]. split; [lia|]. split; [lia|]. unfold ieee_parts. cbv zeta. fold X Y.
      destruct (Z.eqb_spec (e - (3 - Y - (mw + 1)) + 1) 0); [lia|]. destruct (Z.eqb_spec (e - (3 - Y - (mw + 1)) + 1) (2 ^ ew - 1)); [lia|].
      replace (Zpos m - X + X) with (Zpos m) by lia. f_equal. lia.
Qed.

Lemma ieee_finite s e m x : ieee_parts s e m = x -> 0 <= e -> 0 <= m -> x <> S754_nan ->
  (x = S754_infinity s /\ e = 2 ^ ew - 1 /\ m = 0) \/ (x = S754_zero s /\ e = 0 /\ m = 0) \/
  (exists p, x = S754_finite s p (3 - 2 ^ (ew - 1) - (mw + 1) + Z.max e 1 - 1) /\ Zpos p = m + (if e =? 0 then 0 else 2 ^ mw) /\ e <> 2 ^ ew - 1).
Proof using All.
  unfold ieee_parts. cbv zeta. intros Q E M N. pose proof half_power as HF. destruct next_power as [NP PP]. assert (PY : 0 < 2 ^ (ew - 1)) by (apply Z.pow_pos_nonneg; lia).
  destruct (Z.eqb_spec e 0) as [->|N1].
  { destruct m as [|p|p]; [right; left; split; [congruence|lia]| |lia]. right. right. exists p. change (Z.max 0 1) with 1. split; [rewrite <- Q; f_equal; lia|lia]. }
  destruct (Z.eqb_spec e (2 ^ ew - 1)) as [->|N2].
  { destruct (Z.eqb_spec m 0) as [->|]; [left; split; [congruence|lia]|congruence]. }
  right. right. destruct (m + 2 ^ mw) as [|p|p] eqn:P; [lia| |lia]. exists p. split; [rewrite <- Q; f_equal; lia|]. lia.
Qed.

Lemma ieee_same u v : 0 <= u < 2 ^ (mw + ew + 1) -> 0 <= v < 2 ^ (mw + ew + 1) -> ieee_meaning mw ew u <> NotNumber ->
  (sf_of_bits mw ew u = sf_of_bits mw ew v <-> u = v).
Proof using All.
  intros Hu Hv N. rewrite <- (ieee_means u Hu) in N. split; [|intros ->; reflexivity]. intros Q.
  assert (NN : sf_of_bits mw ew u <> S754_nan) by (intros X; rewrite X in N; apply N; reflexivity).
  destruct (unpack mw ew ltac:(lia) ltac:(lia) u Hu) as (s & e & m & -> & E & M). destruct (unpack mw ew ltac:(lia) ltac:(lia) v Hv) as (s' & e' & m' & -> & E' & M').
  rewrite !ieee_pack in * by assumption. destruct next_power as [NP PP].
  destruct (ieee_finite s e m _ eq_refl ltac:(lia) ltac:(lia) NN) as [(X & -> & ->)|[(X & -> & ->)|(p & X & X1 & X2)]];
    (destruct (ieee_finite s' e' m' _ eq_refl ltac:(lia) ltac:(lia) ltac:(rewrite <- Q; exact NN)) as [(Y & -> & ->)|[(Y & -> & ->)|(p' & Y & Y1 & Y2)]]);
    rewrite X, Y in Q; try discriminate; try (injection Q as ->; reflexivity).
  injection Q as -> -> Q. rewrite X1 in Y1. destruct (Z.eqb_spec e 0) as [->|], (Z.eqb_spec e' 0) as [->|]; try lia; assert (m = m') as -> by lia; f_equal; lia.
Qed.
End ieee.

(** ** Objects of any format *)

Lemma wide_enough : 112 + 1 < 2 ^ (15 - 1) /\ 52 + 1 < 2 ^ (11 - 1).
Proof. split; reflexivity. Qed.

Lemma object_valid f u : object_bits f u -> SpecFloat.valid_binary (ld_prec f) (ld_emax f) (long_double_of_bits f u) = true.
Proof.
  destruct wide_enough as [W1 W2]. destruct f; intros H; [exact (ieee_valid 52 11 ltac:(lia) ltac:(lia) W2 u H)|exact (x87_valid u H)|exact (ieee_valid 112 15 ltac:(lia) ltac:(lia) W1 u H)].
Qed.
Lemma object_means f u : object_bits f u -> sf_meaning (long_double_of_bits f u) = object_meaning f u.
Proof.
  destruct wide_enough as [W1 W2]. destruct f; intros H; [exact (ieee_means 52 11 ltac:(lia) ltac:(lia) W2 u H)|exact (x87_means u H)|exact (ieee_means 112 15 ltac:(lia) ltac:(lia) W1 u H)].
Qed.

Lemma object_printed e u : nan_ok (e_float e) -> object_bits (fe_ld (e_float e)) u ->
  exists w, bits64 w /\ lexi_object e u = lexi e (VDouble w) /\ jsonify_object e u = jsonify_of e (VDouble w) /\ double_for w (object_meaning (fe_ld (e_float e)) u).
Proof.
  intros N H. set (f := fe_ld (e_float e)) in *. rewrite <- (object_means f u H). pose proof (object_valid f u H) as V.
  destruct (long_double_printed e (long_double_of_bits f u) N V) as (w & B & F & L & D). exists w. split; [exact B|]. split; [exact L|].
  split; [unfold jsonify_object, jsonify_of; fold f; rewrite F; reflexivity|]. destruct (long_double_of_bits f u) as [s|s| |s m x]; cbn [sf_meaning double_for]; try exact D.
  - cbn [SF2R] in D. destruct (Rlt_bool_spec (Rabs (nearest 53 1024 0)) (bpow radix2 1024)); split; intros X; try (exfalso; lra); exact D.
  - assert (E : SF2R radix2 (S754_finite s m x) = signed s (IZR (Zpos m) * bpow radix2 x)).
    { cbn [SF2R]. unfold F2R, signed. cbn [Fnum Fexp]. destruct s; cbn [cond_Zopp]; [|reflexivity]. change (Zneg m) with (- Zpos m). rewrite opp_IZR. ring. }
    rewrite E in D. cbv zeta. destruct (Rlt_bool_spec (Rabs (nearest 53 1024 (signed s (IZR (Zpos m) * bpow radix2 x)))) (bpow radix2 1024)); split; intros X; try (exfalso; lra); exact D.
Qed.

Lemma meaning_inj p q x y : good_format p q -> SpecFloat.valid_binary p q x = true -> SpecFloat.valid_binary p q y = true -> sf_meaning x = sf_meaning y -> x = y.
Proof.
  intros G Vx Vy. assert (P : forall s m e, signed s (IZR (Zpos m) * bpow radix2 e) <> 0%R).
  { intros s m e. assert (0 < IZR (Zpos m) * bpow radix2 e)%R by (apply Rmult_lt_0_compat; [apply IZR_lt; reflexivity|apply bpow_gt_0]). unfold signed. destruct s; lra. }
  destruct x as [s|s| |s m e], y as [s'|s'| |s' m' e']; cbn [sf_meaning]; intros Q; try discriminate; try (injection Q as ->; reflexivity); try reflexivity.
  - injection Q as _ Q. symmetry in Q. destruct (P _ _ _ Q).
  - injection Q as _ Q. destruct (P _ _ _ Q).
  - injection Q as -> Q.
    assert (E : forall s m e, SF2R radix2 (S754_finite s m e) = signed s (IZR (Zpos m) * bpow radix2 e)).
    { intros s m0 x. cbn [SF2R]. unfold F2R, signed. cbn [Fnum Fexp]. destruct s; cbn [cond_Zopp]; [|reflexivity]. change (Zneg m0) with (- Zpos m0). rewrite opp_IZR. ring. }
    apply (sf_inj p q); try assumption; try reflexivity. rewrite !E. exact Q.
Qed.

Lemma object_same f u v : object_bits f u -> object_bits f v -> object_meaning f u <> NotNumber ->
  (object_meaning f u = object_meaning f v <-> u = v \/ (f = LD80 /\ twins u v)).
Proof.
  intros Hu Hv N. assert (D : object_meaning f u = object_meaning f v <-> long_double_of_bits f u = long_double_of_bits f v).
  { rewrite <- (object_means f u Hu), <- (object_means f v Hv). split; [|intros ->; reflexivity].
    apply (meaning_inj (ld_prec f) (ld_emax f)); [apply ld_good|apply object_valid; exact Hu|apply object_valid; exact Hv]. }
  rewrite D. clear D. destruct wide_enough as [W1 W2]. destruct f.
  - rewrite (ieee_same 52 11 ltac:(lia) ltac:(lia) W2 u v Hu Hv N : long_double_of_bits LD64 u = long_double_of_bits LD64 v <-> u = v). intuition discriminate.
  - rewrite (x87_same u v Hu Hv N : long_double_of_bits LD80 u = long_double_of_bits LD80 v <-> _). intuition.
  - rewrite (ieee_same 112 15 ltac:(lia) ltac:(lia) W1 u v Hu Hv N : long_double_of_bits LD128 u = long_double_of_bits LD128 v <-> u = v). intuition discriminate.
Qed.

Lemma object_text e u v : object_bits (fe_ld (e_float e)) u -> object_bits (fe_ld (e_float e)) v ->
  object_meaning (fe_ld (e_float e)) u = object_meaning (fe_ld (e_float e)) v -> lexi_object e u = lexi_object e v /\ jsonify_object e u = jsonify_object e v.
Proof.
  set (f := fe_ld (e_float e)). intros Hu Hv Q. rewrite <- (object_means f u Hu), <- (object_means f v Hv) in Q.
  apply (meaning_inj (ld_prec f) (ld_emax f)) in Q; [|apply ld_good|apply object_valid; exact Hu|apply object_valid; exact Hv].
  unfold lexi_object, jsonify_object. fold f. rewrite Q. split; reflexivity.
Qed.

Lemma object_stored f nan x : SpecFloat.valid_binary (ld_prec f) (ld_emax f) x = true -> object_bits f nan -> object_meaning f nan = NotNumber ->
  let u := bits_of_long_double f nan x in
  object_bits f u /\ long_double_of_bits f u = x /\ (f = LD80 -> object_meaning f u <> NotNumber -> field u 64 15 = 0 -> field u 63 1 = 0).
Proof.
  intros V HN MN. destruct wide_enough as [W1 W2]. cbv zeta. destruct x as [s|s| |s m e] eqn:EX.
  3: { assert (B : bits_of_long_double f nan S754_nan = nan) by (destruct f; reflexivity). rewrite B. split; [exact HN|]. split; [|intros _ X; contradiction].
       rewrite <- (object_means f nan HN) in MN. destruct (long_double_of_bits f nan); (reflexivity || discriminate). }
  all: rewrite <- EX in *; assert (NX : x <> S754_nan) by (rewrite EX; discriminate); clear EX; destruct f; cbn [bits_of_long_double long_double_of_bits].
  all: try (destruct (ieee_stored 52 11 ltac:(lia) ltac:(lia) W2 nan x V NX) as (s' & e' & m' & -> & E & M & P);
    rewrite ieee_pack by (assumption || lia); split; [apply (pack_fields 52 11); (assumption || lia)|split; [exact P|discriminate]]).
  all: try (destruct (ieee_stored 112 15 ltac:(lia) ltac:(lia) W1 nan x V NX) as (s' & e' & m' & -> & E & M & P);
    rewrite ieee_pack by (assumption || lia); split; [apply (pack_fields 112 15); (assumption || lia)|split; [exact P|discriminate]]).
  all: destruct (x87_stored nan x V NX) as (s' & e' & m' & -> & E & M & P & L); rewrite x87_pack by assumption.
  all: destruct (pack_fields 64 15 ltac:(lia) ltac:(lia) s' e' m' E M) as (R & _ & _ & _ & _ & B & _); destruct (field63 s' e' m' E M) as [F _].
  all: split; [exact R|]; split; [exact P|]; intros _ _ Z; rewrite B in Z; specialize (L Z); rewrite F; destruct (Z.leb_spec (2 ^ 63) m'); [lia|reflexivity].
Qed.

Lemma sf_number x : sf_meaning x = number_meaning x.
Proof.
  destruct x as [s|s| |s m e]; try reflexivity. cbn [sf_meaning number_meaning sign_SF SF2R]. f_equal. unfold F2R, signed. cbn [Fnum Fexp].
  destruct s; cbn [cond_Zopp]; [|reflexivity]. change (Zneg m) with (- Zpos m). rewrite opp_IZR. ring.
Qed.

Lemma object_read e nan point s : point_ok point -> object_bits (fe_ld (e_float e)) nan -> object_meaning (fe_ld (e_float e)) nan = NotNumber ->
  exists u x, extract_object e nan point s = Ok u /\ extract e point TLongDouble s = Ok (XFloating x) /\ object_bits (fe_ld (e_float e)) u /\
    object_meaning (fe_ld (e_float e)) u = number_meaning x /\ lexi_object e u = lexi e (VLongDouble x) /\
    (fe_ld (e_float e) = LD80 -> object_meaning LD80 u <> NotNumber -> field u 64 15 = 0 -> field u 63 1 = 0).
Proof.
  intros P HN MN. pose proof (strtold_valid e point s P) as V. cbv zeta in V. set (f := fe_ld (e_float e)) in *. set (x := strtold (ld_prec f) (ld_emax f) point s) in *.
  destruct (object_stored f nan x V HN MN) as (B & D & L). exists (bits_of_long_double f nan x), x. split; [reflexivity|]. split; [reflexivity|]. split; [exact B|].
  split; [rewrite <- (object_means f _ B), D; apply sf_number|]. split; [unfold lexi_object; fold f; rewrite D; reflexivity|]. intros F. rewrite F in *. exact (L eq_refl).
Qed.
