(** The int arithmetic of dtoa.cpp, diyfp.cpp and strtod.cpp never leaves the range of int, C76. *)
From Coq Require Import Floats.SpecFloat Psatz.
From Verif Require Import Machine LibMachine ModelIeee ModelDiyfp ModelDtoa ModelBigint ModelStrtod ModelSigned
  SpecApi SpecNumber SpecIeee ProofIeee ProofDiyfp ProofCached ProofDigits ProofGrisu ProofDtoa.
Open Scope Z_scope.
Ltac Zify.zify_post_hook ::= idtac.

Lemma int_op_ok x : - 2 ^ 31 <= x < 2 ^ 31 -> int_op x = Ok x.
Proof.
  intros H. unfold int_op. rewrite (proj2 (Z.leb_le _ _)), (proj2 (Z.ltb_lt _ _)) by lia. reflexivity.
Qed.

Lemma small_int x : -100000 <= x <= 100000 -> int_op x = Ok x.
Proof. intros H. apply int_op_ok. lia. Qed.

Lemma bind_cong {A B} (m : outcome A) (f g : A -> outcome B) :
  (forall x, m = Ok x -> f x = g x) -> bind m f = bind m g.
Proof. intros H. destruct m; cbn; auto. Qed.

Lemma bind_assoc {A B C} (m : outcome A) (f : A -> outcome B) (g : B -> outcome C) :
  bind (bind m f) g = bind m (fun x => bind (f x) g).
Proof. destruct m; reflexivity. Qed.

(** ** diyfp.cpp *)

Lemma s_mul_ok cc l r : -10000 <= de l <= 10000 -> -10000 <= de r <= 10000 -> s_mul cc l r = Ok (mul cc l r).
Proof.
  intros H1 H2. unfold s_mul. rewrite small_int by lia. cbn [bind]. rewrite small_int by lia. cbn [bind].
  destruct cc; reflexivity.
Qed.

Lemma s_normalize_msvc_ok x : 0 < df x < 2 ^ 64 -> -10000 <= de x <= 10000 -> s_normalize_msvc x = normalize_msvc x.
Proof.
  intros H E. unfold s_normalize_msvc, normalize_msvc, bit_scan_reverse.
  destruct (Z.eqb_spec (df x) 0); [reflexivity|]. cbn [bind].
  assert (0 <= Z.log2 (df x) < 64).
  { split; [apply Z.log2_nonneg|apply Z.log2_lt_pow2; lia]. }
  unfold u32 at 1. rewrite Z.mod_small by lia. destruct shl64 as [f| | |]; cbn [bind]; try reflexivity.
  f_equal. f_equal. unfold u32. rewrite (Z.mod_small (63 - _)) by lia. rewrite Zminus_mod_idemp_l.
  unfold swrap. rewrite Z.mod_mod by lia.
  set (d := de x - (63 - Z.log2 (df x))). assert (-20000 <= d <= 20000) by (unfold d; lia). clearbody d.
  destruct (Z_lt_le_dec d 0).
  - rewrite <- (Z.mod_add d 1) by lia. rewrite Z.mod_small by lia. destruct Z.ltb eqn:L; lia.
  - rewrite Z.mod_small by lia. destruct Z.ltb eqn:L; lia.
Qed.

Lemma s_normalize_gnuc_ok x : 0 < df x < 2 ^ 64 -> -10000 <= de x <= 10000 -> s_normalize_gnuc x = normalize_gnuc x.
Proof.
  intros H E. unfold s_normalize_gnuc, normalize_gnuc, bit_scan_reverse.
  destruct (Z.eqb_spec (df x) 0); [reflexivity|]. cbn [bind].
  assert (0 <= Z.log2 (df x) < 64).
  { split; [apply Z.log2_nonneg|apply Z.log2_lt_pow2; lia]. }
  rewrite small_int by lia. cbn [bind]. apply bind_cong. intros f _. rewrite small_int by lia. reflexivity.
Qed.

Lemma s_shift_until_ok fuel mask x : -20000 <= de x - Z.of_nat fuel -> de x <= 20000 ->
  s_shift_until fuel mask x = shift_until fuel mask x.
Proof.
  revert x. induction fuel as [|fuel IH]; intros x H1 H2; cbn [s_shift_until shift_until].
  - reflexivity.
  - destruct Z.eqb; [|reflexivity]. rewrite small_int by lia. cbn [bind]. apply IH; cbn [de]; lia.
Qed.

Lemma shift_until_e fuel mask x y : shift_until fuel mask x = Ok y -> de x - Z.of_nat fuel <= de y <= de x.
Proof.
  revert x. induction fuel as [|fuel IH]; intros x; cbn [shift_until]; destruct Z.eqb; intros E; try discriminate;
    try (injection E as <-; lia).
  apply IH in E. cbn [de] in E. lia.
Qed.

Lemma s_normalize_generic_ok x : -10000 <= de x <= 10000 -> s_normalize_generic x = normalize_generic x.
Proof.
  intros H. unfold s_normalize_generic, normalize_generic. rewrite s_shift_until_ok by lia.
  apply bind_cong. intros y E. apply shift_until_e in E. unfold DIY_SIGNIFICAND_SIZE, DP_SIGNIFICAND_SIZE.
  rewrite small_int by lia. cbn [bind]. rewrite small_int by lia. cbn [bind].
  apply bind_cong. intros f _. rewrite small_int by lia. reflexivity.
Qed.

Lemma s_normalizeBoundary_generic_ok x : -10000 <= de x <= 10000 ->
  s_normalizeBoundary_generic x = normalizeBoundary_generic x.
Proof.
  intros H. unfold s_normalizeBoundary_generic, normalizeBoundary_generic. rewrite s_shift_until_ok by lia.
  apply bind_cong. intros y E. apply shift_until_e in E. unfold DIY_SIGNIFICAND_SIZE, DP_SIGNIFICAND_SIZE.
  rewrite small_int by lia. cbn [bind]. rewrite small_int by lia. cbn [bind].
  apply bind_cong. intros f _. rewrite small_int by lia. reflexivity.
Qed.

Lemma s_normalize_ok cc x : 0 < df x < 2 ^ 64 -> -10000 <= de x <= 10000 -> s_normalize cc x = normalize cc x.
Proof.
  intros H E. destruct cc; [apply s_normalize_msvc_ok|apply s_normalize_gnuc_ok|apply s_normalize_generic_ok]; assumption.
Qed.

Lemma s_normalizeBoundary_ok cc x : 0 < df x < 2 ^ 64 -> -10000 <= de x <= 10000 ->
  s_normalizeBoundary cc x = normalizeBoundary cc x.
Proof.
  intros H E. destruct cc; [apply s_normalize_msvc_ok|apply s_normalizeBoundary_generic_ok..]; assumption.
Qed.

Lemma s_DiyFp_of_double_ok u : s_DiyFp_of_double u = Ok (DiyFp_of_double u).
Proof.
  unfold s_DiyFp_of_double, DiyFp_of_double.
  assert (B : 0 <= Z.shiftr (Z.land u EXPONENT_MASK) DP_SIGNIFICAND_SIZE < 2048).
  { rewrite land_exponent, Z.shiftr_div_pow2 by (unfold DP_SIGNIFICAND_SIZE; lia).
    unfold DP_SIGNIFICAND_SIZE. rewrite Z.div_mul by lia. apply Z.mod_pos_bound. lia. }
  rewrite small_int by lia. cbn [bind]. unfold DP_MIN_EXPONENT, DP_EXPONENT_BIAS, DP_SIGNIFICAND_SIZE in *.
  destruct negb; rewrite small_int by lia; reflexivity.
Qed.

Lemma s_normalizedBoundaries_ok cc f e : 0 < f < 2 ^ 53 -> -2000 <= e <= 2000 ->
  s_normalizedBoundaries cc (MkDiyFp f e) = normalizedBoundaries cc (MkDiyFp f e).
Proof.
  intros H E. unfold s_normalizedBoundaries, normalizedBoundaries. cbn [df de].
  rewrite (small_int (e - 1)) by lia. cbn [bind].
  rewrite s_normalizeBoundary_ok; cbn [df de].
  - assert (HB : 0 < f * 2 + 1 < 2 ^ 54) by lia.
    rewrite !Z.shiftl_mul_pow2 by lia. change (2 ^ 1) with 2. change (2 ^ 2) with 4.
    rewrite !(u64_small (f * 2)), !(u64_small (f * 2 + 1)) by lia.
    rewrite normalizeBoundary_ok by exact HB. cbn [bind]. unfold normalized. cbn [df de].
    pose proof (lead_shift_bounds (f * 2 + 1) 54 ltac:(lia) ltac:(lia) ltac:(lia)).
    destruct (f =? HIDDEN_BIT); cbn [df de].
    + rewrite (small_int (e - 2)) by lia. cbn [bind de df]. rewrite small_int by lia. reflexivity.
    + cbn [bind df de]; rewrite small_int by lia. reflexivity.
  - rewrite Z.shiftl_mul_pow2 by lia. change (2 ^ 1) with 2. rewrite (u64_small (f * 2)), (u64_small (f * 2 + 1)) by lia. lia.
  - lia.
Qed.

(** ** dtoa.cpp *)

Lemma s_grisuRound_ok fuel b base len delta rest ten_kappa wp_w : -1000 <= len <= 1000 ->
  s_grisuRound fuel b base len delta rest ten_kappa wp_w = grisuRound fuel b base len delta rest ten_kappa wp_w.
Proof.
  intros H. revert b rest. induction fuel as [|fuel IH]; intros b rest; cbn [s_grisuRound grisuRound].
  - reflexivity.
  - destruct grisuRound_continue; [|reflexivity]. rewrite small_int by lia. cbn [bind].
    apply bind_cong. intros b' _. apply IH.
Qed.

Lemma s_getCachedPower_ok ev e : -1137 <= e <= 960 -> s_getCachedPower ev e = getCachedPower ev e.
Proof.
  intros H. pose proof (index_check_at e H) as C. unfold index_check in C.
  destruct (kk_of EvalDouble e) as [kk| | |] eqn:K1; try discriminate.
  destruct (kk_of EvalFused e) as [kk2| | |] eqn:K2; try discriminate.
  destruct (kk_of EvalExtended e) as [kk3| | |] eqn:K3; try discriminate.
  repeat rewrite andb_true_iff in C. destruct C as [[[[[[C1 C2] C3] C4] C5] C6] C7].
  assert (kk2 = kk) by lia. assert (kk3 = kk) by lia. subst kk2 kk3.
  assert (K : kk_of ev e = Ok kk) by (destruct ev; assumption).
  assert (RK : 0 <= kk < 688).
  { split; [lia|]. assert (X : kk / 8 < 86) by lia. apply Z.div_lt_upper_bound with (b := 8) in X || idtac.
    pose proof (Z.div_mod kk 8 ltac:(lia)). pose proof (Z.mod_pos_bound kk 8 ltac:(lia)). lia. }
  clear - H K RK. unfold kk_of in K. unfold s_getCachedPower, getCachedPower.
  rewrite small_int by lia. cbn [bind].
  destruct (int_of_double (cached_dk ev e)) as [n| | |]; cbn [bind] in *; try discriminate.
  assert (K2 : (if int_neq_double n (cached_dk ev e) then int_op (n + 1) else Ok n) = Ok kk).
  { destruct int_neq_double; injection K as <-; [apply small_int; lia|reflexivity]. }
  rewrite K2. cbn [bind]. injection K as ->.
  assert (RS : 0 <= Z.shiftr kk 3 < 86).
  { rewrite Z.shiftr_div_pow2 by lia. change (2 ^ 3) with 8.
    split; [apply Z.div_pos; lia|apply Z.div_lt_upper_bound; lia]. }
  rewrite small_int by lia. cbn [bind].
  assert (RW : 0 <= swrap 32 (u32 (Z.shiftl (u32 (Z.shiftr kk 3 + 1)) 3)) < 1000).
  { unfold u32. rewrite (Z.mod_small (_ + 1)) by lia. rewrite Z.shiftl_mul_pow2 by lia. change (2 ^ 3) with 8.
    rewrite Z.mod_small by lia. unfold swrap. rewrite Z.mod_small by lia. destruct Z.ltb eqn:L; lia. }
  rewrite small_int by lia. cbn [bind]. rewrite small_int by lia. reflexivity.
Qed.

Lemma push_digit_len b base len d b' len' : push_digit b base len d = Ok (b', len') -> len <= len' <= len + 1.
Proof.
  unfold push_digit. destruct orb.
  - destruct buf_write; cbn [bind]; intros E; try discriminate. injection E as _ <-. lia.
  - intros E. injection E as _ <-. lia.
Qed.

Lemma s_push_digit_ok b base len d : -1000 <= len <= 1000 -> s_push_digit b base len d = push_digit b base len d.
Proof.
  intros H. unfold s_push_digit, push_digit. destruct orb; [|reflexivity].
  apply bind_cong. intros b' _. rewrite small_int by lia. reflexivity.
Qed.

Lemma s_generate_integral_ok pol kappa e p1 p2 delta wp_w b base len k :
  -1000 <= e <= 1000 -> -1000 <= k <= 1000 -> 0 <= len -> len + Z.of_nat kappa <= 100 ->
  s_generate_integral pol kappa e p1 p2 delta wp_w b base len k =
  (let* r := generate_integral pol kappa (- e) p1 p2 delta wp_w b base len in
   match r with
   | Done b len kap => Ok (SDone b len (k + kap))
   | Continue b len => Ok (SContinue b len)
   end).
Proof.
  intros He Hk. revert p1 b len. induction kappa as [|kappa IH]; intros p1 b len H0 H1.
  - reflexivity.
  - cbn [s_generate_integral generate_integral pred].
    destruct switch_divisor as [q|]; [|reflexivity].
    rewrite s_push_digit_ok by lia. rewrite bind_assoc. apply bind_cong. intros [b1 len1] E.
    apply push_digit_len in E. rewrite small_int by lia. cbn [bind].
    rewrite (small_int (- e)) by lia. cbn [bind]. rewrite bind_assoc. apply bind_cong. intros hi _.
    replace (Z.of_nat (S kappa) - 1) with (Z.of_nat kappa) by lia.
    destruct Z.leb.
    + rewrite small_int by lia. cbn [bind]. rewrite !bind_assoc. apply bind_cong. intros p _.
      rewrite !bind_assoc. apply bind_cong. intros t _. rewrite s_grisuRound_ok by lia.
      rewrite bind_assoc. apply bind_cong. intros b2 _. reflexivity.
    + apply IH; lia.
Qed.

Lemma generate_integral_len pol kappa e p1 p2 delta wp_w b base len r :
  generate_integral pol kappa e p1 p2 delta wp_w b base len = Ok r ->
  match r with
  | Done _ len' kap => len <= len' <= len + Z.of_nat kappa /\ 0 <= kap <= Z.of_nat kappa
  | Continue _ len' => len <= len' <= len + Z.of_nat kappa
  end.
Proof.
  revert p1 b len. induction kappa as [|kappa IH]; intros p1 b len; cbn [generate_integral].
  - intros E. injection E as <-. lia.
  - destruct switch_divisor as [q|]; [|discriminate]. intros E.
    destruct (push_digit b base len (p1 / q)) as [[b1 len1]| | |] eqn:P; cbn [bind] in E; try discriminate.
    apply push_digit_len in P. destruct shl64 as [hi| | |]; cbn [bind] in E; try discriminate.
    destruct Z.leb.
    + destruct POWER10_at; cbn [bind] in E; try discriminate. destruct shl64; cbn [bind] in E; try discriminate.
      destruct grisuRound; cbn [bind] in E; try discriminate. injection E as <-. lia.
    + apply IH in E. destruct r; lia.
Qed.

Lemma s_generate_fraction_ok pol cs fuel e one p2 delta kappa wp_w b base len k :
  -1000 <= e <= 1000 -> -1000 <= k <= 1000 -> 0 <= len -> len + Z.of_nat fuel <= 500 ->
  kappa <= 0 -> -500 <= kappa - Z.of_nat fuel ->
  s_generate_fraction pol cs fuel e one p2 delta kappa wp_w b base len k =
  (let* (b, len, kap) := generate_fraction pol cs fuel (- e) one p2 delta kappa wp_w b base len in
   Ok (b, len, k + kap)).
Proof.
  intros He Hk. revert p2 delta kappa b len. induction fuel as [|fuel IH]; intros p2 delta kappa b len H0 H1 H2 H3.
  - reflexivity.
  - cbn [s_generate_fraction generate_fraction].
    rewrite (small_int (- e)) by lia. cbn [bind]. rewrite bind_assoc. apply bind_cong. intros d _.
    rewrite s_push_digit_ok by lia. rewrite bind_assoc. apply bind_cong. intros [b1 len1] E. apply push_digit_len in E.
    rewrite (small_int (kappa - 1)) by lia. cbn [bind]. destruct Z.ltb.
    + rewrite small_int by lia. cbn [bind]. rewrite small_int by lia. cbn [bind].
      rewrite bind_assoc. apply bind_cong. intros p _. rewrite s_grisuRound_ok by lia.
      rewrite bind_assoc. apply bind_cong. intros b2 _. reflexivity.
    + apply IH; lia.
Qed.

Lemma generate_fraction_len pol cs fuel s one p2 delta kappa wp_w b base len b' len' kap :
  generate_fraction pol cs fuel s one p2 delta kappa wp_w b base len = Ok (b', len', kap) ->
  len <= len' <= len + Z.of_nat fuel /\ kappa - Z.of_nat fuel <= kap <= kappa.
Proof.
  revert p2 delta kappa b len. induction fuel as [|fuel IH]; intros p2 delta kappa b len; cbn [generate_fraction]; intros E.
  - discriminate.
  - destruct shr64 as [d| | |]; cbn [bind] in E; try discriminate.
    destruct (push_digit b base len _) as [[b1 len1]| | |] eqn:P; cbn [bind] in E; try discriminate.
    apply push_digit_len in P. destruct Z.ltb.
    + destruct POWER10_at; cbn [bind] in E; try discriminate.
      destruct grisuRound; cbn [bind] in E; try discriminate. injection E as _ <- <-. lia.
    + apply IH in E. lia.
Qed.

Lemma decimalCount_range n : 1 <= decimalCount n <= 10.
Proof. unfold decimalCount. repeat (match goal with |- context [if ?b then _ else _] => destruct b end; [lia|]). lia. Qed.

Lemma s_generateDigits_ok pol cs W Mp delta b base k : -1000 <= de Mp <= 1000 -> -1000 <= k <= 1000 ->
  s_generateDigits pol cs W Mp delta b base k = generateDigits pol cs W Mp delta b base k.
Proof.
  intros He Hk. unfold s_generateDigits, generateDigits. rewrite !(small_int (- de Mp)) by lia. cbn [bind].
  apply bind_cong. intros one _. apply bind_cong. intros hi _.
  pose proof (decimalCount_range (u32 hi)) as D. rewrite small_int by lia. cbn [bind].
  rewrite s_generate_integral_ok by lia. rewrite bind_assoc. apply bind_cong. intros r E.
  apply generate_integral_len in E. destruct r as [b1 len1 kap|b1 len1]; cbn [bind]; [reflexivity|].
  apply s_generate_fraction_ok; unfold FRACTION_FUEL; lia.
Qed.

Lemma generateDigits_len pol cs W Mp delta b base k b' len k' :
  generateDigits pol cs W Mp delta b base k = Ok (b', len, k') -> 0 <= len <= 74 /\ k - 64 <= k' <= k + 10.
Proof.
  unfold generateDigits. destruct shl64 as [one| | |]; cbn [bind]; try discriminate.
  destruct shr64 as [hi| | |]; cbn [bind]; try discriminate. intros E.
  pose proof (decimalCount_range (u32 hi)) as D.
  destruct generate_integral as [r| | |] eqn:G; cbn [bind] in E; try discriminate.
  apply generate_integral_len in G. destruct r as [b1 len1 kap|b1 len1].
  - injection E as _ <- <-. lia.
  - destruct generate_fraction as [[[b2 len2] kap]| | |] eqn:F; cbn [bind] in E; try discriminate.
    apply generate_fraction_len in F. unfold FRACTION_FUEL in F. injection E as _ <- <-. lia.
Qed.

Lemma s_grisu2_ok tc u b base : finite_pos u -> s_grisu2 tc u b base = grisu2 tc u b base /\
  (forall b' len k, grisu2 tc u b base = Ok (b', len, k) -> 0 <= len <= 74 /\ -412 <= k <= 358).
Proof.
  intros H. destruct (finite_pos_f u H) as [Hf He]. pose proof (norm_e_range u H) as Hn.
  unfold s_grisu2, grisu2. rewrite s_DiyFp_of_double_ok. cbn [bind]. rewrite DiyFp_of_double_eq.
  rewrite s_normalizedBoundaries_ok by lia. rewrite normalizedBoundaries_ok by exact Hf. cbn [bind de].
  fold (norm_e u). rewrite s_getCachedPower_ok by exact Hn.
  destruct (getCachedPower_ok (tc_eval tc) (norm_e u) Hn) as (F & E & k & G & C & _). rewrite G. cbn [bind].
  rewrite s_normalize_ok by (cbn [df de]; lia). rewrite normalize_ok by (cbn [df]; lia). cbn [bind].
  destruct C as [_ CE CK _].
  assert (HE : -10000 <= E <= 10000) by lia.
  assert (HB : 11 <= lead_shift (dbl_f u) <= 63) by (destruct (boundary_gaps (dbl_f u) Hf) as (B & _); exact B).
  rewrite !s_mul_ok by (unfold normalized; cbn [df de]; lia). cbn [bind].
  split.
  - apply s_generateDigits_ok; [|lia]. cbn [de]. destruct (tc_mul tc); cbn [mul mul_msvc mul_gnuc mul_generic de]; lia.
  - intros b' len k' X. apply generateDigits_len in X. lia.
Qed.

Lemma s_put_pair_ok c k : -1000 <= k <= 1000 -> s_put_pair c k = put_pair c k.
Proof. intros H. unfold s_put_pair, put_pair. rewrite small_int by lia. reflexivity. Qed.

Lemma s_writeExponent_ok k c : -5000 <= k <= 5000 -> s_writeExponent k c = writeExponent k c.
Proof.
  intros H. unfold s_writeExponent, writeExponent. rewrite (small_int (- k)) by lia. cbn [bind].
  apply bind_cong. intros [c' k'] E.
  assert (RK : -5000 <= k' <= 5000 /\ 0 <= k').
  { destruct (k <? 0) eqn:L; [destruct put; cbn [bind] in E; try discriminate|]; injection E as _ <-; lia. }
  assert (RD : 0 <= k' / 100 <= 50).
  { split; [apply Z.div_pos; lia|]. apply Z.div_le_upper_bound; lia. }
  pose proof (Z.mod_pos_bound k' 100 ltac:(lia)). f_equal.
  destruct (k' >=? 100) eqn:L1.
  - rewrite small_int by lia. cbn [bind]. apply bind_cong. intros c2 _. apply s_put_pair_ok. lia.
  - rewrite small_int by lia. cbn [bind]. rewrite s_put_pair_ok by lia. reflexivity.
Qed.

Lemma s_fill_zeros_ok b base i n : -1000 <= i -> i + Z.of_nat n <= 1000 -> s_fill_zeros b base i n = fill_zeros b (base + i) n.
Proof.
  revert b i. induction n as [|n IH]; intros b i H1 H2; cbn [s_fill_zeros fill_zeros]; [reflexivity|].
  apply bind_cong. intros b' _. rewrite small_int by lia. cbn [bind]. rewrite IH by lia. f_equal. lia.
Qed.

Lemma s_prettify_ok b base len k : 0 <= len <= 500 -> -1000 <= k <= 1000 -> s_prettify b base len k = prettify b base len k.
Proof.
  intros HL HK. unfold s_prettify, prettify. rewrite (small_int (len + k)) by lia. cbn [bind].
  destruct ((len <=? len + k) && (len + k <=? 21)) eqn:B1.
  { rewrite s_fill_zeros_ok by lia. repeat (apply bind_cong; intros ? _; rewrite ?small_int by lia; cbn [bind]). reflexivity. }
  destruct ((0 <? len + k) && (len + k <=? 21)) eqn:B2.
  { rewrite !small_int by lia. cbn [bind]. repeat (apply bind_cong; intros ? _; rewrite ?small_int by lia; cbn [bind]). reflexivity. }
  destruct ((-6 <? len + k) && (len + k <=? 0)) eqn:B3.
  { rewrite !small_int by lia. cbn [bind]. do 3 (apply bind_cong; intros ? _).
    rewrite s_fill_zeros_ok by lia. do 2 (apply bind_cong; intros ? _; rewrite ?small_int by lia; cbn [bind]). reflexivity. }
  destruct (len =? 1).
  { apply bind_cong; intros ? _. rewrite small_int by lia. cbn [bind]. apply s_writeExponent_ok. lia. }
  rewrite ?small_int by lia. cbn [bind].
  do 3 (apply bind_cong; intros ? _; rewrite ?small_int by lia; cbn [bind]).
  rewrite ?small_int by lia. cbn [bind]. apply s_writeExponent_ok. lia.
Qed.

Lemma s_dtoa_ok tc u c : 0 <= u < 2 ^ 64 -> exp_field u <> 2047 -> s_dtoa tc u c = dtoa tc u c.
Proof.
  intros H F. unfold s_dtoa, dtoa. destruct (double_is_zero u) eqn:Z0; [reflexivity|].
  apply bind_cong. intros [c' v] E.
  assert (FP : finite_pos v).
  { unfold double_is_zero in Z0. apply Z.eqb_neq in Z0. unfold double_is_negative in E.
    unfold double_is_zero in E. rewrite (proj2 (Z.eqb_neq _ _) Z0) in E. cbn [negb] in E. rewrite andb_true_r in E.
    assert (M : finite_pos (u mod 2 ^ 63)) by (apply abs_finite; assumption).
    destruct (Z.leb_spec (2 ^ 63) u).
    - destruct put; cbn [bind] in E; try discriminate. injection E as _ <-.
      rewrite negate_spec by (unfold bits64; lia). exact M.
    - injection E as _ <-. rewrite Z.mod_small in M by lia. exact M. }
  destruct (s_grisu2_ok tc v (cbuf c') (cpos c') FP) as [G L]. rewrite G. apply bind_cong.
  intros [[b len] k] E2. apply L in E2. apply s_prettify_ok; lia.
Qed.

(** ** strtod.cpp *)

Lemma s_fastPath_ok d p : s_fastPath d p = fastPath d p.
Proof.
  unfold s_fastPath, fastPath. destruct (Z.ltb_spec p (-308)); [reflexivity|].
  destruct (Z.leb_spec 0 p); [reflexivity|]. rewrite small_int by lia. reflexivity.
Qed.

Lemma s_StrtodNormalPrecision_ok d p : - 2 ^ 31 <= p < 2 ^ 31 -> s_StrtodNormalPrecision d p = StrtodNormalPrecision d p.
Proof.
  intros H. unfold s_StrtodNormalPrecision, StrtodNormalPrecision. rewrite !s_fastPath_ok.
  destruct (Z.ltb_spec p (-308)); [|reflexivity]. rewrite int_op_ok by lia.
  apply bind_cong. intros x _. cbn [bind]. apply s_fastPath_ok.
Qed.

Lemma s_fast_ok d p : s_fast d p = fast d p.
Proof.
  unfold s_fast, fast. destruct ((22 <? p) && (p <? 22 + 16)) eqn:B.
  - rewrite small_int by lia. cbn [bind]. apply bind_cong. intros [d' p'] _. rewrite s_fastPath_ok. reflexivity.
  - cbn [bind]. rewrite s_fastPath_ok. reflexivity.
Qed.

(** ** Exact arithmetic has no overflow *)

Definition no_overflow {A} (m : outcome A) : Prop := m <> UB "signed overflow".

Lemma no_bind {A B} (m : outcome A) (f : A -> outcome B) :
  no_overflow m -> (forall x, no_overflow (f x)) -> no_overflow (bind m f).
Proof.
  intros H1 H2. destruct m; cbn [bind]; [apply H2|discriminate| |discriminate].
  intros E. apply H1. injection E as ->. reflexivity.
Qed.

Ltac no_step := first
  [ match goal with |- no_overflow (Ok _) => discriminate | |- no_overflow (UB _) => discriminate | |- no_overflow NoFuel => discriminate end
  | assumption
  | match goal with |- no_overflow (bind _ _) => apply no_bind end; [|intros; repeat match goal with x : _ * _ |- _ => destruct x end]
  | match goal with |- no_overflow (match ?x with _ => _ end) => destruct x end
  | match goal with |- no_overflow (let _ := _ in _) => cbv zeta end ].

Lemma no_write b i c : no_overflow (buf_write b i c).
Proof. unfold buf_write. repeat no_step. Qed.
Lemma no_read b i : no_overflow (buf_read b i).
Proof. unfold buf_read. repeat no_step. Qed.
Lemma no_memmove b d s n : no_overflow (buf_memmove b d s n).
Proof. unfold buf_memmove. repeat no_step. Qed.
Lemma no_put c x : no_overflow (put c x).
Proof. unfold put. repeat (apply no_write || no_step). Qed.
Lemma no_shl x n : no_overflow (shl64 x n).
Proof. unfold shl64. repeat no_step. Qed.
Lemma no_shr x n : no_overflow (shr64 x n).
Proof. unfold shr64. repeat no_step. Qed.
Lemma no_table t i : no_overflow (table_at t i).
Proof. unfold table_at. repeat no_step. Qed.
Lemma no_power p i : no_overflow (POWER10_at p i).
Proof. unfold POWER10_at. repeat no_step. Qed.
Lemma no_scan x : no_overflow (bit_scan_reverse x).
Proof. unfold bit_scan_reverse. repeat no_step. Qed.
Lemma no_digits i : no_overflow (dtoa_digits_at i).
Proof. unfold dtoa_digits_at. repeat no_step. Qed.
Lemma no_int x : no_overflow (int_of_double x).
Proof. unfold int_of_double. repeat no_step. Qed.

Ltac no_leaf := match goal with
  | |- no_overflow (buf_write _ _ _) => apply no_write
  | |- no_overflow (buf_read _ _) => apply no_read
  | |- no_overflow (buf_memmove _ _ _ _) => apply no_memmove
  | |- no_overflow (put _ _) => apply no_put
  | |- no_overflow (shl64 _ _) => apply no_shl
  | |- no_overflow (shr64 _ _) => apply no_shr
  | |- no_overflow (table_at _ _) => apply no_table
  | |- no_overflow (POWER10_at _ _) => apply no_power
  | |- no_overflow (bit_scan_reverse _) => apply no_scan
  | |- no_overflow (dtoa_digits_at _) => apply no_digits
  | |- no_overflow (int_of_double _) => apply no_int
  end.
Ltac no_all := repeat first [ no_leaf | no_step ].

Lemma no_until fuel m x : no_overflow (shift_until fuel m x).
Proof. revert x. induction fuel; intros x; cbn [shift_until]; no_all. apply IHfuel. Qed.
Lemma no_normalize cc x : no_overflow (normalize cc x).
Proof. destruct cc; cbn [normalize]; unfold normalize_msvc, normalize_gnuc, normalize_generic; no_all. apply no_until. Qed.
Lemma no_boundary cc x : no_overflow (normalizeBoundary cc x).
Proof. destruct cc; cbn [normalizeBoundary]; unfold normalize_msvc, normalizeBoundary_generic; no_all; apply no_until. Qed.
Lemma no_boundaries cc x : no_overflow (normalizedBoundaries cc x).
Proof. unfold normalizedBoundaries. no_all. apply no_boundary. Qed.
Lemma no_cached ev e : no_overflow (getCachedPower ev e).
Proof. unfold getCachedPower. no_all. Qed.
Lemma no_round fuel b base len delta rest t w : no_overflow (grisuRound fuel b base len delta rest t w).
Proof. revert b rest. induction fuel; intros b rest; cbn [grisuRound]; unfold buf_decrement; no_all. apply IHfuel. Qed.
Lemma no_push b base len d : no_overflow (push_digit b base len d).
Proof. unfold push_digit. no_all. Qed.
Lemma no_integral pol kappa s p1 p2 delta w b base len :
  no_overflow (generate_integral pol kappa s p1 p2 delta w b base len).
Proof.
  revert p1 b len. induction kappa; intros p1 b len; cbn [generate_integral]; [discriminate|].
  destruct switch_divisor; [|discriminate].
  apply no_bind; [apply no_push|]. intros [b1 len1]. no_all; [apply no_round|apply IHkappa].
Qed.
Lemma no_fraction pol cs fuel s one p2 delta kappa w b base len :
  no_overflow (generate_fraction pol cs fuel s one p2 delta kappa w b base len).
Proof.
  revert p2 delta kappa b len. induction fuel; intros p2 delta kappa b len; cbn [generate_fraction]; [discriminate|].
  apply no_bind; [apply no_shr|]. intros d. apply no_bind; [apply no_push|]. intros [b1 len1].
  destruct Z.ltb; [|apply IHfuel]. no_all. apply no_round.
Qed.
Lemma no_generate pol cs W Mp delta b base k : no_overflow (generateDigits pol cs W Mp delta b base k).
Proof. unfold generateDigits. no_all; [apply no_integral|apply no_fraction]. Qed.
Lemma no_exponent k c : no_overflow (writeExponent k c).
Proof. unfold writeExponent, put_pair. no_all. Qed.
Lemma no_fill b i n : no_overflow (fill_zeros b i n).
Proof. revert b i. induction n; intros b i; cbn [fill_zeros]; no_all. apply IHn. Qed.
Lemma no_prettify b base len k : no_overflow (prettify b base len k).
Proof. unfold prettify. cbv zeta. no_all; match goal with |- no_overflow (fill_zeros _ _ _) => apply no_fill | _ => apply no_exponent end. Qed.
Lemma no_dtoa tc u c : no_overflow (dtoa tc u c).
Proof.
  unfold dtoa, grisu2. cbv zeta.
  no_all; match goal with
  | |- no_overflow (normalizedBoundaries _ _) => apply no_boundaries
  | |- no_overflow (getCachedPower _ _) => apply no_cached
  | |- no_overflow (normalize _ _) => apply no_normalize
  | |- no_overflow (generateDigits _ _ _ _ _ _ _ _) => apply no_generate
  | _ => apply no_prettify end.
Qed.
Lemma no_strtod d p : no_overflow (StrtodNormalPrecision d p) /\ no_overflow (fast d p).
Proof. unfold StrtodNormalPrecision, fast, fastPath, pow10. cbv zeta. split; no_all. Qed.

Lemma dtoa_signed tc u c : bits64 u -> double_finite u ->
  s_dtoa tc u c = dtoa tc u c /\ s_dtoa tc u c <> UB "signed overflow".
Proof.
  intros H F. assert (E : s_dtoa tc u c = dtoa tc u c) by (apply s_dtoa_ok; [exact H|apply double_finite_iff; assumption]).
  split; [exact E|]. rewrite E. apply no_dtoa.
Qed.

Lemma strtod_signed d p : - 2 ^ 31 <= p < 2 ^ 31 ->
  s_StrtodNormalPrecision d p = StrtodNormalPrecision d p /\ s_StrtodNormalPrecision d p <> UB "signed overflow" /\
  s_fast d p = fast d p /\ s_fast d p <> UB "signed overflow".
Proof.
  intros H. rewrite s_StrtodNormalPrecision_ok, s_fast_ok by exact H. destruct (no_strtod d p). auto.
Qed.

Lemma int_op_range x : (int_op x = Ok x <-> - 2147483648 <= x <= 2147483647) /\ (int_op x = UB "signed overflow" <-> ~ - 2147483648 <= x <= 2147483647).
Proof.
  unfold int_op. change (- 2 ^ 31) with (-2147483648). change (2 ^ 31) with 2147483648.
  destruct (Z.leb_spec (-2147483648) x), (Z.ltb_spec x 2147483648); cbn; split; split; intros; try reflexivity; try discriminate; try lia.
Qed.
