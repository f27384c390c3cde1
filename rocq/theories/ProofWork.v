(** How many turns the loops of the float formatter take. *)
From Coq Require Import Reals Lra Psatz.
From Flocq Require Import Core.
From Verif Require Import Machine LibMachine SpecApi SpecNumber SpecIeee ModelText ModelIeee ModelDiyfp ModelDtoa ModelFloat
  ModelWork SpecWork ProofDiyfp ProofCached ProofDigits ProofGrisu ProofText ProofIeee ProofDtoa ProofStrict ProofFloat.
Open Scope Z_scope.
Ltac Zify.zify_post_hook ::= idtac.

(** ** The record changes nothing *)

Lemma result_quiet {A} (m : outcome A) : result (quiet m) = m.
Proof. destruct m; reflexivity. Qed.
Lemma result_turn {A} a (m : run A) : result (turn_of a m) = result m.
Proof. destruct m as [[x t]| | |]; reflexivity. Qed.
Lemma result_chain {A B} (m : run A) (f : A -> run B) : result (chain m f) = bind (result m) (fun x => result (f x)).
Proof. destruct m as [[x t]| | |]; cbn; try reflexivity. destruct (f x) as [[y t']| | |]; reflexivity. Qed.

Lemma bind_same {A B} (m m' : outcome A) (f g : A -> outcome B) : m = m' -> (forall x, f x = g x) -> bind m f = bind m' g.
Proof. intros <- H. destruct m; cbn; auto. Qed.

Lemma shift_same fuel mask x : result (w_shift_until fuel mask x) = shift_until fuel mask x.
Proof.
  revert x. induction fuel as [|fuel IH]; intros x; cbn [w_shift_until shift_until]; destruct (_ =? 0); try reflexivity.
  rewrite result_turn. apply IH.
Qed.

Lemma normalize_same cc x : result (w_normalize cc x) = normalize cc x.
Proof.
  destruct cc; cbn [w_normalize normalize]; rewrite ?result_quiet; try reflexivity.
  unfold w_normalize_generic. rewrite result_chain, shift_same. apply bind_same; [reflexivity|]. intros r. apply result_quiet.
Qed.

Lemma boundary_same cc x : result (w_normalizeBoundary cc x) = normalizeBoundary cc x.
Proof.
  destruct cc; cbn [w_normalizeBoundary normalizeBoundary]; rewrite ?result_quiet; try reflexivity;
    unfold w_normalizeBoundary_generic; rewrite result_chain, shift_same; (apply bind_same; [reflexivity|]); intros r; apply result_quiet.
Qed.

Lemma boundaries_same cc x : result (w_normalizedBoundaries cc x) = normalizedBoundaries cc x.
Proof.
  unfold w_normalizedBoundaries. rewrite result_chain, boundary_same. apply bind_same; [reflexivity|]. intros r. apply result_quiet.
Qed.

Lemma round_same fuel b base len delta rest ten wp :
  result (w_grisuRound fuel b base len delta rest ten wp) = grisuRound fuel b base len delta rest ten wp.
Proof.
  revert b rest. induction fuel as [|fuel IH]; intros b rest; cbn [w_grisuRound grisuRound]; destruct (grisuRound_continue _ _ _ _); try reflexivity.
  rewrite result_turn, result_chain, result_quiet. apply bind_same; [reflexivity|]. intros b'. apply IH.
Qed.

Lemma integral_same pol kappa s p1 p2 delta wp b base len :
  result (w_generate_integral pol kappa s p1 p2 delta wp b base len) = generate_integral pol kappa s p1 p2 delta wp b base len.
Proof.
  revert p1 b len. induction kappa as [|kappa IH]; intros p1 b len; cbn [w_generate_integral generate_integral]; [reflexivity|].
  destruct (switch_divisor _) as [q|]; [|reflexivity].
  rewrite result_turn, result_chain, result_quiet. apply bind_same; [reflexivity|]. intros [b1 len1].
  rewrite result_chain, result_quiet. apply bind_same; [reflexivity|]. intros hi.
  destruct (_ <=? _); [|apply IH].
  rewrite result_chain, result_quiet. apply bind_same; [reflexivity|]. intros p.
  rewrite result_chain, result_quiet. apply bind_same; [reflexivity|]. intros ten.
  rewrite result_chain, round_same. apply bind_same; [reflexivity|]. intros b2. apply result_quiet.
Qed.

Lemma fraction_same pol cs fuel s one p2 delta kappa wp b base len :
  result (w_generate_fraction pol cs fuel s one p2 delta kappa wp b base len) = generate_fraction pol cs fuel s one p2 delta kappa wp b base len.
Proof.
  revert p2 delta kappa b len. induction fuel as [|fuel IH]; intros p2 delta kappa b len; cbn [w_generate_fraction generate_fraction]; [reflexivity|].
  rewrite result_turn, result_chain, result_quiet. apply bind_same; [reflexivity|]. intros d.
  rewrite result_chain, result_quiet. apply bind_same; [reflexivity|]. intros [b1 len1].
  destruct (_ <? _); [|apply IH].
  rewrite result_chain, result_quiet. apply bind_same; [reflexivity|]. intros p.
  rewrite result_chain, round_same. apply bind_same; [reflexivity|]. intros b2. apply result_quiet.
Qed.

Lemma generate_same pol cs W Mp delta b base k :
  result (w_generateDigits pol cs W Mp delta b base k) = generateDigits pol cs W Mp delta b base k.
Proof.
  unfold w_generateDigits, generateDigits. cbv zeta.
  rewrite result_chain, result_quiet. apply bind_same; [reflexivity|]. intros one.
  rewrite result_chain, result_quiet. apply bind_same; [reflexivity|]. intros hi.
  rewrite result_chain, integral_same. apply bind_same; [reflexivity|]. intros [b1 len1 kap|b1 len1]; [apply result_quiet|].
  rewrite result_chain, fraction_same. apply bind_same; [reflexivity|]. intros [[b2 len2] kap]. apply result_quiet.
Qed.

Lemma grisu2_same tc u b base : result (w_grisu2 tc u b base) = grisu2 tc u b base.
Proof.
  unfold w_grisu2, grisu2. cbv zeta.
  rewrite result_chain, boundaries_same. apply bind_same; [reflexivity|]. intros [wm wp].
  rewrite result_chain, result_quiet. apply bind_same; [reflexivity|]. intros [c k].
  rewrite result_chain, normalize_same. apply bind_same; [reflexivity|]. intros vn. apply generate_same.
Qed.

Lemma fill_same b i n : result (w_fill_zeros b i n) = fill_zeros b i n.
Proof.
  revert b i. induction n as [|n IH]; intros b i; cbn [w_fill_zeros fill_zeros]; [reflexivity|].
  rewrite result_turn, result_chain, result_quiet. apply bind_same; [reflexivity|]. intros b'. apply IH.
Qed.

Lemma bind_assoc {A B C} (m : outcome A) (f : A -> outcome B) (g : B -> outcome C) :
  bind (bind m f) g = bind m (fun x => bind (f x) g).
Proof. destruct m; reflexivity. Qed.

Lemma prettify_same b base len k : result (w_prettify b base len k) = prettify b base len k.
Proof.
  unfold w_prettify, prettify. cbv zeta.
  destruct (_ && _).
  { rewrite result_chain, fill_same. apply bind_same; [reflexivity|]. intros b'. apply result_quiet. }
  destruct (_ && _); [apply result_quiet|].
  destruct (_ && _).
  { rewrite result_chain, result_quiet, !bind_assoc. apply bind_same; [reflexivity|]. intros b1.
    rewrite !bind_assoc. apply bind_same; [reflexivity|]. intros b2. apply bind_same; [reflexivity|]. intros b3.
    rewrite result_chain, fill_same. apply bind_same; [reflexivity|]. intros b4. apply result_quiet. }
  destruct (_ =? 1); apply result_quiet.
Qed.

Lemma dtoa_same tc u c : result (w_dtoa tc u c) = dtoa tc u c.
Proof.
  unfold w_dtoa, dtoa. destruct (double_is_zero u); [apply result_quiet|].
  rewrite result_chain, result_quiet. apply bind_same; [reflexivity|]. intros [c' v].
  rewrite result_chain, grisu2_same. apply bind_same; [reflexivity|]. intros [[b len] k]. apply prettify_same.
Qed.

Lemma format_same env u : result (w_format_bits env u) = format_bits env u.
Proof.
  unfold w_format_bits, format_bits. destruct (negb _); [apply result_quiet|].
  rewrite result_chain, dtoa_same. apply bind_same; [reflexivity|]. intros c. apply result_quiet.
Qed.

(** ** Reading a record *)

Lemma times_app a t t' : times a (t ++ t') = times a t + times a t'.
Proof. induction t as [|b t IH]; cbn [times app]; [lia|]. rewrite IH. lia. Qed.
Lemma times_nonneg a t : 0 <= times a t.
Proof. induction t as [|b t IH]; cbn [times]; [lia|]. destruct (turn_eqb a b); lia. Qed.

Lemma quiet_ok {A} (m : outcome A) x t : quiet m = Ok (x, t) -> m = Ok x /\ t = [].
Proof. destruct m as [y| | |]; cbn; try discriminate. intros E. injection E as <- <-. auto. Qed.
Lemma turn_ok {A} a (m : run A) x t : turn_of a m = Ok (x, t) -> exists t', m = Ok (x, t') /\ t = a :: t'.
Proof. destruct m as [[y r]| | |]; cbn; try discriminate. intros E. injection E as <- <-. eauto. Qed.
Lemma chain_ok {A B} (m : run A) (f : A -> run B) y t : chain m f = Ok (y, t) ->
  exists x t1 t2, m = Ok (x, t1) /\ f x = Ok (y, t2) /\ t = t1 ++ t2.
Proof.
  destruct m as [[x t1]| | |]; cbn; try discriminate. destruct (f x) as [[z t2]| | |] eqn:E; try discriminate.
  intros H. injection H as <- <-. exists x, t1, t2. auto.
Qed.
Lemma result_some {A} (m : run A) x : result m = Ok x -> exists t, m = Ok (x, t).
Proof. destruct m as [[y t]| | |]; cbn; try discriminate. intros E. injection E as <-. eauto. Qed.

(** ** The loops *)

Lemma shift_turns n k fuel x : 0 <= n < 63 -> 0 < df x < 2 ^ (n + 1) -> Z.log2 (df x) + Z.of_nat k = n -> (k <= fuel)%nat ->
  w_shift_until fuel (2 ^ n) x = Ok (MkDiyFp (df x * 2 ^ Z.of_nat k) (de x - Z.of_nat k), repeat Shift k).
Proof.
  intros Hn. revert fuel x. induction k as [|k IH]; intros fuel x Hf Hk Hfuel.
  - pose proof (shift_until_ok n 0 fuel x Hn Hf Hk Hfuel) as S.
    destruct fuel; cbn [w_shift_until shift_until repeat] in *; (destruct (_ =? 0) eqn:E0; [|apply Ok_inj in S; cbn [quiet bind]; f_equal; f_equal; exact S]).
    + discriminate S.
    + exfalso. destruct x as [f e]. cbn [df de] in *.
      destruct (log2_bounds f ltac:(lia)) as ([L U] & N). replace (Z.log2 f) with n in * by lia.
      assert (P : 0 < 2 ^ n) by (apply Z.pow_pos_nonneg; lia).
      replace (2 ^ n) with (Z.ones 1 * 2 ^ n) in E0 by (change (Z.ones 1) with 1; lia).
      rewrite land_field in E0 by lia.
      assert (Q : f / 2 ^ n = 1) by (symmetry; apply Z.div_unique with (r := f - 2 ^ n); lia).
      rewrite Q in E0. change (1 mod 2 ^ 1) with 1 in E0. lia.
  - destruct fuel as [|fuel]; [lia|]. destruct x as [f e]. cbn [w_shift_until df de repeat] in *.
    destruct (log2_bounds f ltac:(lia)) as ([L U] & N).
    assert (P : 0 < 2 ^ n) by (apply Z.pow_pos_nonneg; lia).
    assert (Hlt : f < 2 ^ n).
    { apply Z.lt_le_trans with (1 := U). rewrite <- Z.pow_succ_r by lia. apply Z.pow_le_mono_r; lia. }
    assert (E : Z.land f (2 ^ n) = 0).
    { replace (2 ^ n) with (Z.ones 1 * 2 ^ n) by (change (Z.ones 1) with 1; lia).
      rewrite land_field by lia. rewrite (Z.div_small f (2 ^ n)) by lia. reflexivity. }
    rewrite E, Z.eqb_refl.
    assert (B : f * 2 < 2 ^ 64).
    { assert (2 ^ n <= 2 ^ 62) by (apply Z.pow_le_mono_r; lia). lia. }
    rewrite Z.shiftl_mul_pow2 by lia. change (2 ^ 1) with 2. rewrite u64_small by lia.
    rewrite IH; cbn [df de].
    + cbn [turn_of]. f_equal. f_equal. f_equal; [|lia]. rewrite Nat2Z.inj_succ, Z.pow_succ_r by lia. ring.
    + rewrite Z.pow_add_r by lia. lia.
    + rewrite Z.mul_comm, Z.log2_double by lia. lia.
    + lia.
Qed.

Lemma times_repeat a b k : times a (repeat b k) = if turn_eqb a b then Z.of_nat k else 0.
Proof. induction k as [|k IH]; cbn [repeat times]; [destruct (turn_eqb a b); reflexivity|]. rewrite IH. destruct (turn_eqb a b); lia. Qed.

(** A record of [n] shifts and nothing else. *)
Definition shifts (n : Z) (t : list turn) : Prop :=
  times Shift t = n /\ times Digit t = 0 /\ times Round t = 0 /\ times Zero t = 0.

Lemma shifts_nil : shifts 0 [].
Proof. repeat split. Qed.
Lemma shifts_repeat k : shifts (Z.of_nat k) (repeat Shift k).
Proof. repeat split; rewrite times_repeat; reflexivity. Qed.

Lemma until_shifts n x r t : 0 <= n < 63 -> 0 < df x < 2 ^ (n + 1) -> w_shift_until 64 (2 ^ n) x = Ok (r, t) -> shifts (n - Z.log2 (df x)) t.
Proof.
  intros Hn Hx E. assert (Hl : 0 <= Z.log2 (df x) <= n).
  { split; [apply Z.log2_nonneg|]. assert (Z.log2 (df x) < n + 1) by (apply Z.log2_lt_pow2; lia). lia. }
  rewrite (shift_turns n (Z.to_nat (n - Z.log2 (df x))) 64 x Hn Hx) in E by lia.
  injection E as _ <-. rewrite <- (Z2Nat.id (n - Z.log2 (df x))) at 1 by lia. apply shifts_repeat.
Qed.

Lemma hidden52 : HIDDEN_BIT = 2 ^ 52.
Proof. reflexivity. Qed.
Lemma hidden53 : Z.shiftl HIDDEN_BIT 1 = 2 ^ 53.
Proof. reflexivity. Qed.

(** The kernel must not look into the loops here. *)
Local Opaque chain w_shift_until.

Lemma normalize_turns cc x r t : 0 < df x < 2 ^ 53 -> w_normalize cc x = Ok (r, t) ->
  shifts ((match cc with Generic => 1 | _ => 0 end) * (52 - Z.log2 (df x))) t.
Proof.
  intros Hx E. destruct cc; cbn [w_normalize] in E; try (apply quiet_ok in E as [_ ->]; apply shifts_nil).
  unfold w_normalize_generic in E. apply chain_ok in E as (y & t1 & t2 & E1 & E & ->). apply quiet_ok in E as [_ ->]. rewrite app_nil_r, Z.mul_1_l.
  rewrite hidden52 in E1. eapply until_shifts; [| |exact E1]; [lia|]. change (52 + 1) with 53. exact Hx.
Qed.

Lemma boundary_turns cc f e r t : 0 < f < 2 ^ 53 ->
  w_normalizedBoundaries cc (MkDiyFp f e) = Ok (r, t) ->
  shifts ((match cc with MSVC64 => 0 | _ => 1 end) * (52 - Z.log2 f)) t.
Proof.
  intros Hf E. unfold w_normalizedBoundaries in E. cbn [df de] in E.
  rewrite Z.shiftl_mul_pow2, u64_small, u64_small in E by (rewrite ?u64_small; lia).
  apply chain_ok in E as (y & t1 & t2 & E1 & E & ->). apply quiet_ok in E as [_ ->]. rewrite app_nil_r.
  assert (G : forall y, w_normalizeBoundary_generic (MkDiyFp (f * 2 ^ 1 + 1) (e - 1)) = Ok (y, t1) -> shifts (1 * (52 - Z.log2 f)) t1).
  { clear y E1. intros y E1. unfold w_normalizeBoundary_generic in E1.
    apply chain_ok in E1 as (z & t3 & t4 & E2 & E & ->). apply quiet_ok in E as [_ ->]. rewrite app_nil_r.
    rewrite hidden53 in E2. apply until_shifts in E2 as S; [|lia|cbn [df]; change (53 + 1) with 54; lia]. cbn [df] in S.
    replace (f * 2 ^ 1 + 1) with (2 * f + 1) in S by lia. rewrite Z.log2_succ_double in S by lia.
    replace (1 * (52 - Z.log2 f)) with (53 - Z.succ (Z.log2 f)) by lia. exact S. }
  destruct cc; cbn [w_normalizeBoundary] in E1; [apply quiet_ok in E1 as [_ ->]; apply shifts_nil|eapply G; exact E1..].
Qed.

Local Transparent chain w_shift_until.

(** The rounding loop: every turn moves [rest] up by [ten], and never past [delta]. *)
Lemma round_turns fuel b base len delta rest ten wp b' t : 0 <= rest <= delta -> delta < 2 ^ 64 -> 0 < ten ->
  w_grisuRound fuel b base len delta rest ten wp = Ok (b', t) ->
  times Round t * ten <= delta - rest /\ times Shift t = 0 /\ times Digit t = 0 /\ times Zero t = 0.
Proof.
  intros Hr Hd Ht. revert b rest t Hr. induction fuel as [|fuel IH]; intros b rest t Hr; cbn [w_grisuRound];
    destruct (grisuRound_continue delta rest ten wp) eqn:C; try discriminate;
    try (intros E; apply quiet_ok in E as [_ ->]; cbn [times]; lia).
  intros E. apply turn_ok in E as (t' & E & ->). apply chain_ok in E as (b1 & t1 & t2 & E1 & E & ->).
  apply quiet_ok in E1 as [_ ->]. cbn [app times turn_eqb].
  unfold grisuRound_continue in C. rewrite !andb_true_iff in C. destruct C as [[C1 C] C2].
  rewrite u64_small in C by lia. rewrite (u64_small (rest + ten)) in E by lia.
  destruct (IH _ (rest + ten) t2 ltac:(lia) E) as (A & B & D & F). lia.
Qed.

Lemma few_rounds n ten delta rest : 0 < ten -> n * ten <= delta - rest -> 0 <= rest -> delta < 10 * ten -> n <= 9.
Proof. intros. nia. Qed.

Lemma integral_turns pol kappa s p1 p2 delta wp b base len r t :
  32 <= s <= 60 -> (kappa <= 10)%nat -> 0 <= p2 < 2 ^ s -> 0 <= p1 < 10 ^ Z.of_nat kappa ->
  0 <= delta < 10 ^ Z.of_nat kappa * 2 ^ s -> delta < 2 ^ 64 -> p1 * 2 ^ s + p2 < 2 ^ 64 -> 10 ^ Z.of_nat kappa * 2 ^ s <= 10 * 2 ^ 64 ->
  w_generate_integral pol kappa s p1 p2 delta wp b base len = Ok (r, t) ->
  times Shift t = 0 /\ times Zero t = 0 /\ times Round t <= 9 /\
  match r with
  | Done _ _ kap => times Digit t = Z.of_nat kappa - kap
  | Continue _ _ => times Digit t = Z.of_nat kappa /\ times Round t = 0 /\ delta < 2 ^ s
  end.
Proof.
  intros Hs. revert p1 b len t. induction kappa as [|kappa IH]; intros p1 b len t Hk Hp2 Hp1 Hd Hd64 HM H10; cbn [w_generate_integral].
  - intros E. apply quiet_ok in E as [E ->]. injection E as <-. cbn [times]. change (10 ^ Z.of_nat 0) with 1 in Hd. lia.
  - rewrite Nat2Z.inj_succ in *. set (K := Z.of_nat kappa) in *. rewrite Z.pow_succ_r in Hp1, Hd, H10 by lia.
    rewrite switch_divisor_ok by lia. replace (Z.succ K - 1) with K by lia.
    assert (Hq : 0 < 10 ^ K) by (apply Z.pow_pos_nonneg; lia).
    assert (H2s : 0 < 2 ^ s) by (apply Z.pow_pos_nonneg; lia).
    set (q := 10 ^ K) in *. set (w := 2 ^ s) in *.
    pose proof (Z.mod_pos_bound p1 q Hq) as Hm. assert (Hml : p1 mod q <= p1) by (apply Z.mod_le; lia).
    assert (Hmw : (p1 mod q) * w <= p1 * w) by (apply Z.mul_le_mono_nonneg_r; lia).
    assert (Hmw0 : 0 <= (p1 mod q) * w) by (apply Z.mul_nonneg_nonneg; lia).
    intros E. apply turn_ok in E as (t' & E & ->).
    apply chain_ok in E as ([b1 len1] & t1 & t2 & E1 & E & ->). apply quiet_ok in E1 as [_ ->]. cbn [app] in *.
    apply chain_ok in E as (hi & t1 & t3 & E1 & E & ->). apply quiet_ok in E1 as [E1 ->]. cbn [app] in *.
    rewrite shl64_ok in E1 by (fold w; lia). apply Ok_inj in E1. subst hi. fold w in E. rewrite u64_small in E by lia.
    destruct (Z.leb_spec ((p1 mod q) * w + p2) delta) as [Hle|Hgt].
    + apply chain_ok in E as (p & t1 & t4 & E1 & E & ->). apply quiet_ok in E1 as [E1 ->]. cbn [app] in *.
      rewrite POWER10_at_ok in E1 by lia. apply Ok_inj in E1. subst p. fold K q in E.
      apply chain_ok in E as (ten & t1 & t5 & E1 & E & ->). apply quiet_ok in E1 as [E1 ->]. cbn [app] in *.
      assert (Ew : q * w <= 2 ^ 64) by lia.
      assert (Et : q * w < 2 ^ 64).
      { destruct (Z.eq_dec (q * w) (2 ^ 64)) as [X|X]; [|lia]. exfalso.
        assert (p1 mod q = p1 \/ q <= p1) as [Y|Y] by (destruct (Z.lt_ge_cases p1 q); [left; apply Z.mod_small; lia|right; lia]).
        - assert (K <= 9) by lia. unfold q, w in X.
          assert (0 < K \/ K = 0) as [Z1|Z1] by lia.
          + assert (X5 : (10 ^ K * 2 ^ s) mod 5 = 0).
            { replace (10 ^ K) with (5 * (2 * 10 ^ (K - 1))).
              - rewrite <- Z.mul_assoc. rewrite Z.mul_comm. apply Z.mod_mul. lia.
              - replace K with (Z.succ (K - 1)) at 2 by lia. rewrite Z.pow_succ_r by lia. ring. }
            rewrite X in X5. vm_compute in X5. discriminate X5.
          + rewrite Z1 in X. assert (2 ^ s <= 2 ^ 60) by (apply Z.pow_le_mono_r; lia). lia.
        - assert (q * w <= p1 * w) by (apply Z.mul_le_mono_nonneg_r; lia). lia. }
      rewrite shl64_ok in E1 by (fold w; lia). apply Ok_inj in E1. subst ten. fold w in E.
      apply chain_ok in E as (b2 & t1 & t6 & E1 & E & ->). apply quiet_ok in E as [E ->]. injection E as <-.
      rewrite app_nil_r. apply round_turns in E1 as (A & B & C & D); [|lia|lia|nia].
      cbn [times turn_eqb]. rewrite B, C, D. fold K.
      assert (times Round t1 <= 9) by (eapply (few_rounds _ (q * w)); [nia|exact A|lia|lia]).
      split; [reflexivity|]. split; [reflexivity|]. split; [lia|]. lia.
    + destruct (IH (p1 mod q) b1 len1 t3) as (A & B & C & D); try lia; try exact E.
      * fold K q w. split; [lia|]. assert ((p1 mod q) * w <= (q - 1) * w) by (apply Z.mul_le_mono_nonneg_r; lia). lia.
      * cbn [times turn_eqb]. rewrite A, B. split; [reflexivity|]. split; [reflexivity|]. split; [lia|].
        destruct r as [b2 len2 kap|b2 len2]; [lia|]. fold w in D. lia.
Qed.

Lemma fraction_turns pol cs fuel s p2 delta kappa wp b base len b' len' kap t :
  32 <= s <= 60 -> 0 <= p2 < 2 ^ s -> 0 <= delta <= 2 ^ s - 1 ->
  w_generate_fraction pol cs fuel s (2 ^ s) p2 delta kappa wp b base len = Ok ((b', len', kap), t) ->
  times Shift t = 0 /\ times Zero t = 0 /\ times Round t <= 9 /\ times Digit t = kappa - kap.
Proof.
  intros Hs. pose proof (pow2_range s Hs) as Hp. revert p2 delta kappa b len t.
  induction fuel as [|fuel IH]; intros p2 delta kappa b len t Hp2 Hd; cbn [w_generate_fraction]; [discriminate|].
  set (w := 2 ^ s) in *.
  rewrite (u64_small (p2 * 10)), (u64_small (delta * 10)) by lia.
  assert (EM : Z.land (p2 * 10) (u64 (w - 1)) = (p2 * 10) mod w) by (apply land_ones_u64; lia).
  rewrite EM. pose proof (Z.mod_pos_bound (p2 * 10) w ltac:(lia)) as Hm.
  intros E. apply turn_ok in E as (t' & E & ->).
  apply chain_ok in E as (d & t1 & t2 & E1 & E & ->). apply quiet_ok in E1 as [_ ->]. cbn [app] in *.
  apply chain_ok in E as ([b1 len1] & t1 & t3 & E1 & E & ->). apply quiet_ok in E1 as [_ ->]. cbn [app] in *.
  destruct (Z.ltb_spec ((p2 * 10) mod w) (delta * 10)) as [Hlt|Hge].
  - apply chain_ok in E as (p & t1 & t4 & E1 & E & ->). apply quiet_ok in E1 as [E1 ->]. cbn [app] in *.
    apply chain_ok in E as (b2 & t1 & t6 & E2 & E & ->). apply quiet_ok in E as [E ->]. injection E as <- <- <-.
    rewrite app_nil_r. apply round_turns in E2 as (A & B & C & D); [|lia|lia|lia].
    cbn [times turn_eqb]. rewrite B, C, D.
    assert (times Round t1 <= 9) by (eapply (few_rounds _ w); [lia|exact A|lia|lia]).
    split; [reflexivity|]. split; [reflexivity|]. split; [lia|]. lia.
  - apply IH in E as (A & B & C & D); [|fold w; lia|fold w; lia].
    cbn [times turn_eqb]. rewrite A, B, D. split; [reflexivity|]. split; [reflexivity|]. split; lia.
Qed.

Lemma generate_turns pol cs W Mp delta b base k b' len K t :
  32 <= - de Mp <= 60 -> 0 < delta < df Mp -> df Mp < 2 ^ 64 -> 2 ^ (- de Mp) <= df Mp ->
  w_generateDigits pol cs W Mp delta b base k = Ok ((b', len, K), t) ->
  times Shift t = 0 /\ times Zero t = 0 /\ times Round t <= 9 /\ times Digit t = int_count (df Mp) (- de Mp) - (K - k).
Proof.
  intros Hs Hd HM Hp. unfold w_generateDigits, int_count. cbv zeta.
  set (s := - de Mp) in *. set (M := df Mp) in *. pose proof (pow2_range s Hs) as Hp2.
  rewrite shl64_ok by lia. rewrite shr64_ok by lia. rewrite Z.mul_1_l. cbn [quiet bind chain app].
  rewrite land_ones_u64 by lia.
  assert (Hp1 : 1 <= M / 2 ^ s < 2 ^ 32).
  { split; [apply Z.div_le_lower_bound; lia|apply Z.div_lt_upper_bound; lia]. }
  unfold u32. rewrite Z.mod_small by lia.
  pose proof (Z.div_mod M (2 ^ s) ltac:(lia)) as EM. pose proof (Z.mod_pos_bound M (2 ^ s) ltac:(lia)) as HB.
  destruct (decimalCount_spec (M / 2 ^ s) ltac:(lia)) as (HC & HC1 & HC2). specialize (HC2 ltac:(lia)).
  set (p1 := M / 2 ^ s) in *. set (p2 := M mod 2 ^ s) in *. set (C := decimalCount p1) in *. set (w := 2 ^ s) in *.
  assert (HCw : 10 ^ (C - 1) * w <= M) by nia.
  assert (H10 : 10 ^ C = 10 * 10 ^ (C - 1)) by (rewrite <- Z.pow_succ_r by lia; f_equal; lia).
  intros E.
  assert (E' : chain (w_generate_integral pol (Z.to_nat C) s p1 p2 delta (df (DiyFp_sub Mp W)) b base 0) (fun r =>
    match r with
    | Done b len kappa => quiet (Ok (b, len, k + kappa))
    | Continue b len =>
        chain (w_generate_fraction pol cs FRACTION_FUEL s w p2 delta 0 (df (DiyFp_sub Mp W)) b base len)
          (fun '(b, len, kappa) => quiet (Ok (b, len, k + kappa)))
    end) = Ok ((b', len, K), t)).
  { etransitivity; [|exact E]. destruct (chain _ _) as [[y t0]| | |]; reflexivity. }
  clear E. apply chain_ok in E' as (r & t1 & t2 & E1 & E & ->).
  apply integral_turns in E1 as (A & B & R & D); [|exact Hs|lia|fold w; lia|rewrite Z2Nat.id by lia; lia|rewrite Z2Nat.id by lia; fold w; nia|lia|fold w; nia|rewrite Z2Nat.id by lia; fold w; nia].
  rewrite Z2Nat.id in D by lia.
  rewrite !times_app, A, B. destruct r as [b1 len1 kap|b1 len1].
  - apply quiet_ok in E as [E ->]. injection E as <- <- <-. cbn [times]. lia.
  - destruct D as (D & R0 & Dl). fold w in Dl. apply chain_ok in E as ([[b2 len2] kap] & t3 & t4 & E1 & E & ->).
    apply quiet_ok in E as [E ->]. injection E as <- <- <-. rewrite app_nil_r.
    unfold w in E1. apply fraction_turns in E1 as (A' & B' & R' & D'); [|exact Hs|fold w; lia|fold w; lia].
    rewrite A', B', D', R0, D. lia.
Qed.

(** ** The whole formatter *)

(** A run with a defined table read gives the same. *)
Lemma grisu2_some_lenient tc u b base r : grisu2 tc u b base = Ok r ->
  exists tc', lenient tc' /\ grisu2 tc' u b base = Ok r.
Proof.
  intros E. destruct (tc_policy tc) eqn:P.
  - exists (set_policy tc (Lenient (fun _ => 0))). split; [exists (fun _ => 0); reflexivity|].
    destruct (grisu2_agree tc (fun _ => 0) u b base P) as [A|A]; [rewrite <- A; exact E|]. rewrite A in E. discriminate E.
  - exists tc. split; [exists oracle; exact P|exact E].
Qed.

Local Opaque chain w_shift_until.

Lemma grisu2_turns tc u b pre n b' len K t : finite_pos u -> holds_digits b pre [] n -> (length pre + 17 <= n)%nat ->
  w_grisu2 tc u b (Z.of_nat (length pre)) = Ok ((b', len, K), t) ->
  times Shift t = shifting_loops tc * (52 - Z.log2 (dbl_f u)) /\ times Digit t = len /\ 1 <= len <= 17 /\
  times Round t <= 9 /\ times Zero t = 0.
Proof.
  intros H Hb Hn E.
  assert (ER : grisu2 tc u b (Z.of_nat (length pre)) = Ok (b', len, K)) by (rewrite <- grisu2_same, E; reflexivity).
  destruct (grisu2_some_lenient _ _ _ _ _ ER) as (tc' & L & ER').
  destruct (grisu2_ok tc' u L H) as (ds & K' & F & X & k & kap & _ & GO & G & R).
  destruct (R b pre n Hb Hn) as (b2 & R1 & _). rewrite ER' in R1. apply Ok_inj in R1. injection R1 as _ EL EK. clear R b2.
  pose proof (go_cached _ _ _ _ _ _ _ GO) as CK. pose proof (go_digits _ _ _ _ _ _ _ GO) as DO.
  pose proof (go_K _ _ _ _ _ _ _ GO) as GK. pose proof (go_length _ _ _ _ _ _ _ GO) as GL. pose proof (do_length _ _ _ _ _ _ DO) as DL.
  destruct (finite_pos_f u H) as [Hf He]. pose proof (norm_e_range u H) as Hne.
  pose proof CK as [CF Ce Ckk CC].
  destruct (scaled_bounds (dbl_f u) F Hf CF) as (S1 & S2 & S3 & S4 & S5 & S6).
  destruct (boundary_gaps (dbl_f u) Hf) as (B & _ & _ & _ & Mr & V & PR).
  assert (Hs : 32 <= shift_of u X <= 60) by (unfold shift_of; lia). pose proof (pow2_range _ Hs) as Hp.
  unfold w_grisu2 in E. cbv zeta in E. rewrite DiyFp_of_double_eq in E.
  apply chain_ok in E as ([wm wp] & t1 & t2 & E1 & E & ->).
  pose proof (boundary_turns _ _ _ _ _ Hf E1) as T1.
  assert (ES : normalizedBoundaries (tc_norm_boundary tc) (MkDiyFp (dbl_f u) (dbl_e u)) = Ok (wm, wp)) by (rewrite <- boundaries_same, E1; reflexivity).
  rewrite normalizedBoundaries_ok in ES by exact Hf. apply Ok_inj in ES. injection ES as <- <-. cbn [de] in E. fold (norm_e u) in E.
  apply chain_ok in E as ([c k2] & t3 & t4 & E2 & E & ->). apply quiet_ok in E2 as [E2 ->]. cbn [app].
  destruct (getCachedPower_ok (tc_eval tc) (norm_e u) Hne) as (F2 & X2 & k3 & _ & _ & G2).
  rewrite G2, G in E2. apply Ok_inj in E2. injection E2 as <- <-.
  apply chain_ok in E as (vn & t5 & t6 & E3 & E & ->).
  apply normalize_turns in E3 as T3; [|cbn [df]; lia]. cbn [df] in T3.
  assert (EN : normalize (tc_norm tc) (MkDiyFp (dbl_f u) (dbl_e u)) = Ok vn) by (rewrite <- normalize_same, E3; reflexivity).
  rewrite normalize_ok in EN by (cbn [df]; lia). apply Ok_inj in EN. subst vn.
  rewrite !mul_ok in E by (unfold normalized; cbn [df]; lia). unfold normalized in E. cbn [df de] in E.
  fold (norm_e u) in E. unfold hi_of, lo_of, shift_of in *.
  rewrite (u64_small (mul_high (plus_f (dbl_f u)) F - 1)) in E by lia.
  rewrite (u64_small (mul_high (minus_f (dbl_f u)) F + 1)) in E by lia.
  rewrite u64_small in E by lia.
  apply generate_turns in E as (A1 & A2 & A3 & A4); cbn [df de] in *; try lia.
  destruct T1 as (T11 & T12 & T13 & T14). destruct T3 as (T31 & T32 & T33 & T34).
  rewrite !times_app, T11, T12, T13, T14, T31, T32, T33, T34, A1, A2, A4. unfold shifting_loops.
  split; [lia|]. split; [lia|]. split; [lia|]. split; lia.
Qed.

Local Transparent chain w_shift_until.

Lemma fill_turns b i n b' t : w_fill_zeros b i n = Ok (b', t) -> t = repeat Zero n.
Proof.
  revert b i t. induction n as [|n IH]; intros b i t; cbn [w_fill_zeros repeat].
  - intros E. apply quiet_ok in E as [_ ->]. reflexivity.
  - intros E. apply turn_ok in E as (t' & E & ->). apply chain_ok in E as (b1 & t1 & t2 & E1 & E & ->).
    apply quiet_ok in E1 as [_ ->]. cbn [app]. f_equal. eapply IH. exact E.
Qed.

(** Only zeros, and no more than 20 of them. *)
Lemma prettify_turns b base len k c t : 1 <= len -> w_prettify b base len k = Ok (c, t) ->
  exists n, t = repeat Zero n /\ (n <= 20)%nat.
Proof.
  intros Hl. unfold w_prettify. cbv zeta.
  destruct ((len <=? len + k) && (len + k <=? 21)) eqn:C1.
  { intros E. apply chain_ok in E as (b1 & t1 & t2 & E1 & E & ->). apply quiet_ok in E as [_ ->]. rewrite app_nil_r.
    apply fill_turns in E1 as ->. eexists. split; [reflexivity|]. lia. }
  destruct ((0 <? len + k) && (len + k <=? 21)).
  { intros E. apply quiet_ok in E as [_ ->]. exists 0%nat. split; [reflexivity|lia]. }
  destruct ((-6 <? len + k) && (len + k <=? 0)) eqn:C3.
  { intros E. apply chain_ok in E as (b1 & t1 & t2 & E1 & E & ->). apply quiet_ok in E1 as [_ ->]. cbn [app].
    apply chain_ok in E as (b3 & t3 & t4 & E3 & E & ->). apply quiet_ok in E as [_ ->]. rewrite app_nil_r.
    apply fill_turns in E3 as ->. eexists. split; [reflexivity|]. lia. }
  destruct (len =? 1); intros E; apply quiet_ok in E as [_ ->]; exists 0%nat; (split; [reflexivity|lia]).
Qed.

Lemma zero_turns n : times Shift (repeat Zero n) = 0 /\ times Digit (repeat Zero n) = 0 /\ times Round (repeat Zero n) = 0 /\ times Zero (repeat Zero n) = Z.of_nat n.
Proof. rewrite !times_repeat. auto. Qed.

Lemma dtoa_turns tc u c t : bits64 u -> exp_field u <> 2047 ->
  w_dtoa tc u (Cursor (new_buf FLOAT_SIZE) 0) = Ok (c, t) ->
  (u mod 2 ^ 63 = 0 /\ t = []) \/
  (u mod 2 ^ 63 <> 0 /\ times Shift t = shifting_loops tc * (52 - Z.log2 (dbl_f (u mod 2 ^ 63))) /\ 1 <= times Digit t <= 17 /\
   times Round t <= 9 /\ times Zero t <= 20).
Proof.
  intros H X. unfold w_dtoa. change (double_is_zero u) with (u mod 2 ^ 63 =? 0).
  destruct (Z.eqb_spec (u mod 2 ^ 63) 0) as [Z0|N].
  { intros E. left. apply quiet_ok in E as [_ ->]. auto. }
  intros E. right. split; [exact N|].
  pose proof (abs_finite u H X N) as FP.
  apply chain_ok in E as ([c1 v] & t1 & t2 & E1 & E & ->). apply quiet_ok in E1 as [E1 ->]. cbn [app].
  assert (P : v = u mod 2 ^ 63 /\ exists pre, cpos c1 = Z.of_nat (length pre) /\ holds_digits (cbuf c1) pre [] 30 /\ (length pre + 17 <= 30)%nat).
  { rewrite negative_spec in E1 by exact N. destruct (sign_field u) eqn:S.
    - rewrite negate_spec in E1 by (unfold sign_field in S; lia || exact H).
      change (put (Cursor (new_buf FLOAT_SIZE) 0) "-"%char)
        with (@Ok cursor (Cursor (Some "-"%char :: new_buf 29) 1)) in E1. cbn [bind] in E1. apply Ok_inj in E1. injection E1 as <- <-.
      split; [reflexivity|]. exists ["-"%char]. cbn [cpos cbuf length]. split; [reflexivity|]. split; [apply (holds_minus 29)|lia].
    - apply Ok_inj in E1. injection E1 as <- <-. split; [symmetry; apply Z.mod_small; unfold sign_field in S; unfold bits64 in H; lia|].
      exists []. cbn [cpos cbuf length]. split; [reflexivity|]. split; [apply (holds_new 30)|lia]. }
  destruct P as (-> & pre & EP & HP & LP). rewrite EP in E.
  apply chain_ok in E as ([[b len] k] & t3 & t4 & E3 & E & ->).
  destruct (grisu2_turns _ _ _ _ _ _ _ _ _ FP HP LP E3) as (A & B & C & D & F).
  apply prettify_turns in E as (n & -> & Hn20); [|lia]. destruct (zero_turns n) as (Z1 & Z2 & Z3 & Z4).
  rewrite !times_app, Z1, Z2, Z3, Z4, A, B, F. split; [lia|]. split; [lia|]. split; lia.
Qed.

(** ** The statements *)

Lemma value_magnitude u : bits64 u -> double_finite u -> Rabs (double_value u) = dbl_R u.
Proof.
  intros H F. rewrite double_value_neg_if by assumption.
  assert (0 <= dbl_R u)%R.
  { unfold dbl_R. apply Rmult_le_pos; [|apply bpow_ge_0]. apply IZR_le.
    apply double_finite_iff in F; [|exact H]. pose proof (dbl_range u ltac:(unfold bits64 in H; lia) F). lia. }
  unfold neg_if. destruct (sign_field u); rewrite ?Rabs_Ropp; apply Rabs_pos_eq; assumption.
Qed.

Lemma below_significand u : bits64 u -> double_finite u -> dbl_f u <> 0 -> bits_below u (52 - Z.log2 (dbl_f u)).
Proof.
  intros H F N. unfold bits_below. rewrite value_magnitude by assumption. unfold dbl_R.
  apply double_finite_iff in F; [|exact H]. destruct (dbl_range u ltac:(unfold bits64 in H; lia) F) as (Hf & He & D).
  set (f := dbl_f u) in *. destruct (log2_bounds f ltac:(lia)) as ([L U] & NN).
  destruct (Z.le_gt_cases (2 ^ 52) f) as [G|G].
  - left. assert (Z.log2 f = 52) as -> by (apply Z.log2_unique; lia). split; [reflexivity|].
    apply Rle_trans with (bpow radix2 (52 + dbl_e u)); [apply bpow_le; lia|].
    rewrite bpow_plus. apply Rmult_le_compat_r; [apply bpow_ge_0|]. change (bpow radix2 52) with (IZR (2 ^ 52)). apply IZR_le. exact G.
  - right. destruct D as [D|D]; [lia|]. rewrite D.
    assert (Z.log2 f < 52) by (apply Z.log2_lt_pow2; lia). split; [lia|].
    replace (-1022 - (52 - Z.log2 f)) with (Z.log2 f + -1074) by lia.
    replace (Z.log2 f + -1074 + 1) with (Z.log2 f + 1 + -1074) by lia. rewrite !bpow_plus with (e2 := -1074).
    split; [apply Rmult_le_compat_r; [apply bpow_ge_0|]|apply Rmult_lt_compat_r; [apply bpow_gt_0|]].
    + rewrite <- IZR_Zpower by lia. apply IZR_le. exact L.
    + rewrite <- IZR_Zpower by lia. apply IZR_lt. change (Zpower radix2 (Z.log2 f + 1)) with (2 ^ (Z.log2 f + 1)).
      rewrite Z.pow_add_r by lia. lia.
Qed.

Lemma below_unique u a b : bits_below u a -> bits_below u b -> a = b.
Proof.
  unfold bits_below. set (v := Rabs (double_value u)). clearbody v.
  intros [[-> A]|[A1 [A2 A3]]] [[-> B]|[B1 [B2 B3]]].
  - reflexivity.
  - exfalso. assert (X : (bpow radix2 (-1022) < bpow radix2 (-1022 - b + 1))%R) by lra. apply lt_bpow in X. lia.
  - exfalso. assert (X : (bpow radix2 (-1022) < bpow radix2 (-1022 - a + 1))%R) by lra. apply lt_bpow in X. lia.
  - assert (X : (bpow radix2 (-1022 - a) < bpow radix2 (-1022 - b + 1))%R) by lra. apply lt_bpow in X.
    assert (Y : (bpow radix2 (-1022 - b) < bpow radix2 (-1022 - a + 1))%R) by lra. apply lt_bpow in Y. lia.
Qed.

Lemma finite_fields u : bits64 u -> double_finite u -> (double_value u <> 0%R <-> dbl_f u <> 0).
Proof.
  intros H F. pose proof (value_magnitude u H F) as V. unfold dbl_R in V. pose proof (bpow_gt_0 radix2 (dbl_e u)) as B.
  split; intros N X; apply N.
  - rewrite X, Rmult_0_l in V. destruct (Req_dec (double_value u) 0) as [|Y]; [assumption|]. apply Rabs_no_R0 in Y. contradiction.
  - rewrite X, Rabs_R0 in V. symmetry in V. apply Rmult_integral in V as [V|V]; [apply eq_IZR in V; exact V|lra].
Qed.

Lemma below_exists u : bits64 u -> double_finite u -> double_value u <> 0%R -> exists n, bits_below u n.
Proof. intros H F N. eexists. apply below_significand; [exact H|exact F|]. apply finite_fields; assumption. Qed.

Lemma format_turns env u o t : bits64 u -> w_format_bits env u = Ok (o, t) ->
  (~ (double_finite u /\ double_value u <> 0%R) /\ t = []) \/
  (double_finite u /\ double_value u <> 0%R /\ times Shift t = shifting_loops (fe_tc env) * (52 - Z.log2 (dbl_f u)) /\ 1 <= times Digit t <= 17 /\
   times Round t <= 9 /\ times Zero t <= 20).
Proof.
  intros H. unfold w_format_bits. destruct (isFinite u) eqn:I; cbn [negb].
  - apply isFinite_iff in I; [|exact H]. assert (F : double_finite u) by (apply double_finite_iff; assumption).
    intros E. apply chain_ok in E as (c & t1 & t2 & E1 & E & ->). apply quiet_ok in E as [_ ->]. rewrite app_nil_r.
    apply dtoa_turns in E1; [|exact H|exact I]. rewrite (proj1 (dbl_mod u H)) in E1.
    pose proof (dbl_f_nonzero u ltac:(unfold bits64 in H; lia)) as NZ. pose proof (finite_fields u H F) as FF.
    destruct E1 as [[A ->]|(A & B)]; [left|right].
    + split; [|reflexivity]. intros [_ V]. apply FF in V. apply V, NZ, A.
    + split; [exact F|]. split; [|exact B]. apply FF. intros X. apply A, NZ, X.
  - intros E. left. apply quiet_ok in E as [_ ->]. split; [|reflexivity]. intros [F _]. apply double_finite_iff in F; [|exact H].
    apply isFinite_iff in F; [|exact H]. congruence.
Qed.

Lemma loops_bound tc : 0 <= shifting_loops tc <= 2.
Proof. unfold shifting_loops. destruct (tc_norm tc), (tc_norm_boundary tc); lia. Qed.

Lemma work_few env u o t : bits64 u -> w_format_bits env u = Ok (o, t) -> few_turns t.
Proof.
  intros H E. destruct (format_turns env u o t H E) as [[_ ->]|(F & V & S & D & R & Z0)]; unfold few_turns.
  - cbn [times]. lia.
  - pose proof (loops_bound (fe_tc env)) as L. apply finite_fields in V; [|assumption..].
    apply double_finite_iff in F; [|exact H]. destruct (dbl_range u ltac:(unfold bits64 in H; lia) F) as (Hf & _ & _).
    pose proof (Z.log2_nonneg (dbl_f u)). assert (Z.log2 (dbl_f u) < 53) by (apply Z.log2_lt_pow2; lia).
    rewrite S. split; [nia|]. lia.
Qed.

Lemma work_shifts env u o t n : bits64 u -> w_format_bits env u = Ok (o, t) -> double_finite u -> double_value u <> 0%R -> bits_below u n ->
  times Shift t = shifting_loops (fe_tc env) * n.
Proof.
  intros H E F V B. destruct (format_turns env u o t H E) as [[N _]|(_ & _ & S & _)]; [tauto|].
  rewrite S. f_equal. eapply below_unique; [|exact B]. apply below_significand; [exact H|exact F|]. apply finite_fields; assumption.
Qed.

Lemma work_digits env u o t : bits64 u -> w_format_bits env u = Ok (o, t) ->
  (times Digit t = 0 <-> ~ (double_finite u /\ double_value u <> 0%R)) /\ (times Digit t = 0 -> t = []).
Proof.
  intros H E. destruct (format_turns env u o t H E) as [[N ->]|(F & V & _ & D & _)].
  - cbn [times]. tauto.
  - split; [|lia]. split; [lia|tauto].
Qed.
