(** The strict policy (reading POWER10 out of bounds is undefined) and the lenient one (the
    read gives some word) differ in nothing else: a strict run gives what any lenient run
    gives, or is undefined at that read. *)
From Verif Require Import Machine LibMachine SpecApi ModelInt ModelText ModelIeee ModelDiyfp ModelDtoa ModelFloat
  SpecIeee ProofDiyfp ProofCached ProofDigits ProofGrisu ProofText ProofIeee ProofDtoa.
Open Scope Z_scope.

Definition agree {A} (x y : outcome A) : Prop := x = y \/ x = overrun.

Lemma agree_refl {A} (x : outcome A) : agree x x.
Proof. left. reflexivity. Qed.

Lemma agree_bind {A B} (x y : outcome A) (f g : A -> outcome B) :
  agree x y -> (forall a, agree (f a) (g a)) -> agree (bind x f) (bind y g).
Proof.
  intros [->| ->] H.
  - destruct y as [a| | |]; cbn [bind]; [apply H|left; reflexivity..].
  - right. reflexivity.
Qed.

Lemma POWER10_agree o i : agree (POWER10_at Strict i) (POWER10_at (Lenient o) i).
Proof. unfold POWER10_at. destruct (in_range _ _); [left|right]; reflexivity. Qed.

Lemma generate_integral_agree o kappa s p1 p2 delta wp_w b base len :
  agree (generate_integral Strict kappa s p1 p2 delta wp_w b base len)
        (generate_integral (Lenient o) kappa s p1 p2 delta wp_w b base len).
Proof.
  revert p1 b len. induction kappa as [|kappa IH]; intros p1 b len; cbn [generate_integral]; [apply agree_refl|].
  destruct (switch_divisor _) as [q|]; [|apply agree_refl].
  apply agree_bind; [apply agree_refl|]. intros [b' len'].
  apply agree_bind; [apply agree_refl|]. intros hi.
  destruct (_ <=? _); [|apply IH].
  apply agree_bind; [apply POWER10_agree|]. intros p. apply agree_refl.
Qed.

Lemma generate_fraction_agree o cs fuel s one p2 delta kappa wp_w b base len :
  agree (generate_fraction Strict cs fuel s one p2 delta kappa wp_w b base len)
        (generate_fraction (Lenient o) cs fuel s one p2 delta kappa wp_w b base len).
Proof.
  revert p2 delta kappa b len. induction fuel as [|fuel IH]; intros p2 delta kappa b len;
    cbn [generate_fraction]; [apply agree_refl|].
  apply agree_bind; [apply agree_refl|]. intros d.
  apply agree_bind; [apply agree_refl|]. intros [b' len'].
  destruct (_ <? _); [|apply IH].
  apply agree_bind; [apply POWER10_agree|]. intros p. apply agree_refl.
Qed.

Lemma generateDigits_agree o cs W Mp delta b base k :
  agree (generateDigits Strict cs W Mp delta b base k) (generateDigits (Lenient o) cs W Mp delta b base k).
Proof.
  unfold generateDigits.
  apply agree_bind; [apply agree_refl|]. intros one.
  apply agree_bind; [apply agree_refl|]. intros hi.
  apply agree_bind; [apply generate_integral_agree|]. intros [b' len kap|b' len]; [apply agree_refl|].
  apply agree_bind; [apply generate_fraction_agree|]. intros [[b2 len2] kap]. apply agree_refl.
Qed.

Definition set_policy (tc : toolchain) (pol : policy) : toolchain :=
  Toolchain (tc_mul tc) (tc_norm tc) (tc_norm_boundary tc) (tc_eval tc) (tc_char_signed tc) pol.
Definition float_policy (env : float_env) (pol : policy) : float_env :=
  FloatEnv (fe_ld env) (fe_nan env) (set_policy (fe_tc env) pol) (fe_lit env).

Lemma grisu2_agree tc o u b base :
  tc_policy tc = Strict -> agree (grisu2 tc u b base) (grisu2 (set_policy tc (Lenient o)) u b base).
Proof.
  intros E. unfold grisu2. cbn [set_policy tc_mul tc_norm tc_norm_boundary tc_eval tc_char_signed tc_policy].
  rewrite E.
  apply agree_bind; [apply agree_refl|]. intros [wm wp].
  apply agree_bind; [apply agree_refl|]. intros [c k].
  apply agree_bind; [apply agree_refl|]. intros vn. apply generateDigits_agree.
Qed.

Lemma dtoa_agree tc o u c :
  tc_policy tc = Strict -> agree (dtoa tc u c) (dtoa (set_policy tc (Lenient o)) u c).
Proof.
  intros E. unfold dtoa. destruct (double_is_zero u); [apply agree_refl|].
  apply agree_bind; [apply agree_refl|]. intros [c' v].
  apply agree_bind; [apply (grisu2_agree tc o _ _ _ E)|]. intros [[b len] k]. apply agree_refl.
Qed.

Lemma format_bits_agree env o u :
  tc_policy (fe_tc env) = Strict -> agree (format_bits env u) (format_bits (float_policy env (Lenient o)) u).
Proof.
  intros E. unfold format_bits. destruct (negb (isFinite u)); [apply agree_refl|].
  apply agree_bind; [apply (dtoa_agree _ o _ _ E)|]. intros c. apply agree_refl.
Qed.

(** The same environment with the overrun defined. *)
Definition defined (env : float_env) : float_env :=
  match tc_policy (fe_tc env) with
  | Strict => float_policy env (Lenient (fun _ => 0))
  | Lenient _ => env
  end.

Lemma defined_lenient env : lenient (fe_tc (defined env)).
Proof.
  unfold defined, lenient. destruct (tc_policy (fe_tc env)) eqn:E; [|exists oracle; exact E].
  exists (fun _ => 0). reflexivity.
Qed.

Lemma defined_eq env : lenient (fe_tc env) -> defined env = env.
Proof. intros [o E]. unfold defined. rewrite E. reflexivity. Qed.

Lemma defined_lit env : fe_lit (defined env) = fe_lit env.
Proof. unfold defined. destruct (tc_policy _); reflexivity. Qed.
Lemma defined_ld env : fe_ld (defined env) = fe_ld env.
Proof. unfold defined. destruct (tc_policy _); reflexivity. Qed.
Lemma defined_nan env : fe_nan (defined env) = fe_nan env.
Proof. unfold defined. destruct (tc_policy _); reflexivity. Qed.

Lemma format_bits_defined env u : agree (format_bits env u) (format_bits (defined env) u).
Proof.
  unfold defined. destruct (tc_policy (fe_tc env)) eqn:E; [|apply agree_refl].
  apply format_bits_agree. exact E.
Qed.

(** Formatting gives the text, or is undefined at the table read. *)
Theorem format_bits_any env u : float_literals_ok (fe_lit env) -> bits64 u ->
  exists text, float_text (defined env) u = Ok text /\
    ((exists o, format_bits env u = Ok o /\ FormatFloat_holds o text) \/ format_bits env u = overrun).
Proof.
  intros L H.
  destruct (format_bits_ok (defined env) u (defined_lenient env)) as (o & text & F & T & S);
    [rewrite defined_lit; exact L|exact H|].
  exists text. split; [exact T|]. destruct (format_bits_defined env u) as [E|E].
  - left. exists o. rewrite E. auto.
  - right. exact E.
Qed.

(** A lenient run does not overrun. *)
Theorem format_bits_lenient env u : float_literals_ok (fe_lit env) -> bits64 u -> lenient (fe_tc env) ->
  exists text o, float_text (defined env) u = Ok text /\ format_bits env u = Ok o /\ FormatFloat_holds o text.
Proof.
  intros L H Hl. rewrite (defined_eq env Hl).
  destruct (format_bits_ok env u Hl L H) as (o & text & F & T & S). eauto.
Qed.

(** ** Exactly when the strict run overruns: the digit generator stops more than nine
    positions after the decimal point of its fixed point number. *)

Lemma generate_integral_strict o kappa s p1 p2 delta wp_w b base len : (kappa <= 10)%nat ->
  generate_integral Strict kappa s p1 p2 delta wp_w b base len =
  generate_integral (Lenient o) kappa s p1 p2 delta wp_w b base len.
Proof.
  revert p1 b len. induction kappa as [|kappa IH]; intros p1 b len H; cbn [generate_integral]; [reflexivity|].
  destruct (switch_divisor _) as [q|]; [|reflexivity].
  destruct (push_digit b base len (p1 / q)) as [[b' len']| | |]; cbn [bind]; try reflexivity.
  destruct (shl64 (p1 mod q) s) as [hi| | |]; cbn [bind]; try reflexivity.
  destruct (_ <=? _); [|apply IH; lia].
  rewrite !POWER10_at_ok by lia. reflexivity.
Qed.

Lemma generate_fraction_strict o cs fuel s one p2 delta kappa wp_w b base len b' len' kap :
  kappa <= 0 ->
  generate_fraction (Lenient o) cs fuel s one p2 delta kappa wp_w b base len = Ok (b', len', kap) ->
  generate_fraction Strict cs fuel s one p2 delta kappa wp_w b base len =
  if -9 <=? kap then Ok (b', len', kap) else overrun.
Proof.
  revert p2 delta kappa b len. induction fuel as [|fuel IH]; intros p2 delta kappa b len Hk;
    cbn [generate_fraction]; [discriminate|].
  destruct (shr64 _ s) as [d| | |]; cbn [bind]; try discriminate.
  destruct (push_digit b base len _) as [[b1 len1]| | |]; cbn [bind]; try discriminate.
  destruct (_ <? _); [|apply IH; lia].
  unfold POWER10_at at 1 2. change (Z.of_nat (length POWER10)) with 10. unfold in_range.
  destruct ((0 <=? - (kappa - 1)) && (- (kappa - 1) <? 10)) eqn:R; cbn [bind].
  - destruct (grisuRound _ _ _ _ _ _ _ _) as [b2| | |]; cbn [bind]; try discriminate.
    intros E. apply Ok_inj in E. injection E as -> -> <-. replace (-9 <=? kappa - 1) with true by lia. reflexivity.
  - destruct (grisuRound _ _ _ _ _ _ _ _) as [b2| | |]; cbn [bind]; try discriminate.
    intros E. apply Ok_inj in E. injection E as -> -> <-. replace (-9 <=? kappa - 1) with false by lia. reflexivity.
Qed.

Lemma generate_integral_done pol kappa s p1 p2 delta wp_w b base len b' len' kap :
  generate_integral pol kappa s p1 p2 delta wp_w b base len = Ok (Done b' len' kap) -> 0 <= kap.
Proof.
  revert p1 b len. induction kappa as [|kappa IH]; intros p1 b len; cbn [generate_integral]; [discriminate|].
  destruct (switch_divisor _) as [q|]; [|discriminate].
  destruct (push_digit b base len (p1 / q)) as [[b1 len1]| | |]; cbn [bind]; try discriminate.
  destruct (shl64 (p1 mod q) s) as [hi| | |]; cbn [bind]; try discriminate.
  destruct (_ <=? _); [|apply IH].
  destruct (POWER10_at _ _) as [p| | |]; cbn [bind]; try discriminate.
  destruct (shl64 p s) as [ten| | |]; cbn [bind]; try discriminate.
  destruct (grisuRound _ _ _ _ _ _ _ _) as [b2| | |]; cbn [bind]; try discriminate.
  intros E. apply Ok_inj in E. injection E as _ _ <-. lia.
Qed.

Lemma generateDigits_strict o cs W Mp delta b base k b' len' K :
  generateDigits (Lenient o) cs W Mp delta b base k = Ok (b', len', K) ->
  generateDigits Strict cs W Mp delta b base k = if -9 <=? K - k then Ok (b', len', K) else overrun.
Proof.
  unfold generateDigits.
  destruct (shl64 1 _) as [one| | |]; cbn [bind]; try discriminate.
  destruct (shr64 (df Mp) _) as [hi| | |]; cbn [bind]; try discriminate.
  rewrite (generate_integral_strict o).
  2:{ pose proof (decimalCount_range (u32 hi)). lia. }
  destruct (generate_integral _ _ _ _ _ _ _ _ _ _) as [[b1 len1 kap|b1 len1]| | |] eqn:G; cbn [bind]; try discriminate.
  - intros E. apply Ok_inj in E. injection E as -> -> <-. apply generate_integral_done in G.
    replace (-9 <=? k + kap - k) with true by lia. reflexivity.
  - destruct (generate_fraction (Lenient o) _ _ _ _ _ _ _ _ _ _ _) as [[[b2 len2] kap]| | |] eqn:X; cbn [bind]; try discriminate.
    intros E. apply Ok_inj in E. injection E as -> -> <-.
    rewrite (generate_fraction_strict o _ _ _ _ _ _ _ _ _ _ _ _ _ _ (Z.le_refl 0) X).
    replace (k + kap - k) with kap by lia. destruct (-9 <=? kap); reflexivity.
Qed.

(** The strict run of dtoa on a non-zero finite double. *)
Lemma dtoa_strict tc o u : tc_policy tc = Strict -> bits64 u -> ModelIeee.isFinite u = true -> u mod 2 ^ 63 <> 0 ->
  exists ds K F E k kap,
    pure_grisu (set_policy tc (Lenient o)) (u mod 2 ^ 63) = Ok (ds, K) /\
    grisu_ok (u mod 2 ^ 63) ds K F E k kap /\
    getCachedPower EvalDouble (norm_e (u mod 2 ^ 63)) = Ok (MkDiyFp F E, k) /\
    dtoa tc u (Cursor (new_buf FLOAT_SIZE) 0) =
    if -9 <=? kap then dtoa (set_policy tc (Lenient o)) u (Cursor (new_buf FLOAT_SIZE) 0) else overrun.
Proof.
  intros HS H HF N. set (tc' := set_policy tc (Lenient o)).
  assert (FP : finite_pos (u mod 2 ^ 63)).
  { apply abs_finite; [exact H|apply isFinite_iff; assumption|exact N]. }
  destruct (grisu2_ok tc' _ ltac:(exists o; reflexivity) FP) as (ds & K & F & E & k & kap & P & G & GC & R).
  exists ds, K, F, E, k, kap. split; [exact P|]. split; [exact G|]. split; [exact GC|].
  assert (GR : forall b base b', grisu2 tc' (u mod 2 ^ 63) b base = Ok (b', Z.of_nat (length ds), K) ->
     grisu2 tc (u mod 2 ^ 63) b base =
     if -9 <=? kap then Ok (b', Z.of_nat (length ds), K) else overrun).
  { intros b base b' X.
    destruct (grisu2_unfold tc _ FP) as (F1 & E1 & k1 & C1 & G1 & U1 & _). cbn zeta in U1.
    destruct (grisu2_unfold tc' _ FP) as (F2 & E2 & k2 & C2 & G2 & U2 & _). cbn zeta in U2.
    rewrite GC in G1, G2. injection G1 as <- <- <-. injection G2 as <- <- <-.
    rewrite U1, HS. rewrite U2 in X. cbn [set_policy tc' tc_policy tc_char_signed] in X.
    rewrite (generateDigits_strict _ _ _ _ _ _ _ _ _ _ _ X).
    rewrite (go_K _ _ _ _ _ _ _ G). replace (k + kap - k) with kap by lia. reflexivity. }
  unfold dtoa. change (double_is_zero u) with (u mod 2 ^ 63 =? 0).
  rewrite (proj2 (Z.eqb_neq _ _) N), negative_spec by exact N.
  destruct (sign_field u) eqn:S.
  - assert (S' : 2 ^ 63 <= u) by (apply Z.leb_le; exact S).
    change (put (Cursor (new_buf FLOAT_SIZE) 0) "-"%char)
      with (Ok (Cursor (Some "-"%char :: new_buf 29) 1)). cbn [bind].
    rewrite negate_spec by assumption. cbn [cbuf cpos].
    destruct (R _ _ _ (holds_minus 29) ltac:(cbn; lia)) as (b' & E1 & _).
    change (Z.of_nat (length ["-"%char])) with 1 in E1. fold tc'.
    rewrite (GR _ _ _ E1), E1. destruct (-9 <=? kap); reflexivity.
  - assert (S' : u < 2 ^ 63) by (apply Z.leb_gt; exact S). cbn [bind cbuf cpos].
    assert (Eu : u = u mod 2 ^ 63) by (symmetry; apply Z.mod_small; unfold bits64 in H; lia).
    rewrite Eu at 1 2.
    destruct (R _ _ _ (holds_new FLOAT_SIZE) ltac:(unfold FLOAT_SIZE; cbn; lia)) as (b' & E1 & _).
    change (Z.of_nat (length (@nil ascii))) with 0 in E1. fold tc'.
    rewrite (GR _ _ _ E1), E1. destruct (-9 <=? kap); reflexivity.
Qed.

Lemma format_bits_strict env o u : tc_policy (fe_tc env) = Strict -> bits64 u -> ModelIeee.isFinite u = true ->
  u mod 2 ^ 63 <> 0 ->
  exists ds K F E k kap,
    pure_grisu (set_policy (fe_tc env) (Lenient o)) (u mod 2 ^ 63) = Ok (ds, K) /\
    grisu_ok (u mod 2 ^ 63) ds K F E k kap /\
    getCachedPower EvalDouble (norm_e (u mod 2 ^ 63)) = Ok (MkDiyFp F E, k) /\
    format_bits env u = if -9 <=? kap then format_bits (float_policy env (Lenient o)) u else overrun.
Proof.
  intros HS H HF N. destruct (dtoa_strict (fe_tc env) o u HS H HF N) as (ds & K & F & E & k & kap & P & G & GC & D).
  exists ds, K, F, E, k, kap. split; [exact P|]. split; [exact G|]. split; [exact GC|].
  unfold format_bits. rewrite HF. cbn [negb float_policy fe_tc]. rewrite D. destruct (-9 <=? kap); reflexivity.
Qed.

(** ** The compiler does not matter *)

Lemma generate_fraction_cs pol cs1 cs2 fuel s p2 delta kappa wp_w b base len :
  32 <= s <= 60 -> 0 <= p2 < 2 ^ s ->
  generate_fraction pol cs1 fuel s (2 ^ s) p2 delta kappa wp_w b base len =
  generate_fraction pol cs2 fuel s (2 ^ s) p2 delta kappa wp_w b base len.
Proof.
  intros Hs. revert p2 delta kappa b len. induction fuel as [|fuel IH]; intros p2 delta kappa b len Hp;
    cbn [generate_fraction]; [reflexivity|].
  pose proof (pow2_range s Hs) as P. rewrite (u64_small (p2 * 10)) by lia.
  rewrite shr64_ok by lia. cbn [bind]. rewrite land_ones_u64 by lia.
  assert (D : digit (p2 * 10 / 2 ^ s)).
  { split; [apply Z.div_pos; lia|apply Z.div_lt_upper_bound; lia]. }
  rewrite !digit_char by exact D.
  destruct (push_digit b base len _) as [[b1 len1]| | |]; cbn [bind]; [|reflexivity..].
  destruct (_ <? _); [reflexivity|]. apply IH. apply Z.mod_pos_bound. lia.
Qed.

Lemma generateDigits_cs pol cs1 cs2 W Mp delta b base k : 32 <= - de Mp <= 60 ->
  generateDigits pol cs1 W Mp delta b base k = generateDigits pol cs2 W Mp delta b base k.
Proof.
  intros Hs. unfold generateDigits. set (s := - de Mp) in *.
  pose proof (pow2_range s Hs) as P.
  rewrite shl64_ok by lia. cbn [bind]. rewrite Z.mul_1_l.
  destruct (shr64 (df Mp) s) as [hi| | |]; cbn [bind]; [|reflexivity..].
  destruct (generate_integral _ _ _ _ _ _ _ _ _ _) as [[b1 len1 kap|b1 len1]| | |]; cbn [bind]; [reflexivity| |reflexivity..].
  rewrite (generate_fraction_cs pol cs1 cs2); [reflexivity|exact Hs|].
  rewrite land_ones_u64 by lia. apply Z.mod_pos_bound. lia.
Qed.

Lemma grisu2_compiler tc1 tc2 u b base : tc_policy tc1 = tc_policy tc2 -> finite_pos u ->
  grisu2 tc1 u b base = grisu2 tc2 u b base.
Proof.
  intros HP FP.
  destruct (grisu2_unfold tc1 _ FP) as (F1 & E1 & k1 & C1 & G1 & U1 & _). cbn zeta in U1.
  destruct (grisu2_unfold tc2 _ FP) as (F2 & E2 & k2 & C2 & G2 & U2 & _). cbn zeta in U2.
  rewrite G1 in G2. injection G2 as <- <- <-. rewrite U1, U2, HP.
  apply generateDigits_cs. cbn [de]. rewrite Z.opp_involutive. unfold shift_of. pose proof (ck_e _ _ _ _ C1). lia.
Qed.

Lemma dtoa_compiler tc1 tc2 u c : tc_policy tc1 = tc_policy tc2 -> bits64 u -> ModelIeee.isFinite u = true ->
  dtoa tc1 u c = dtoa tc2 u c.
Proof.
  intros HP H HF. unfold dtoa. change (double_is_zero u) with (u mod 2 ^ 63 =? 0).
  destruct (Z.eqb_spec (u mod 2 ^ 63) 0) as [Z0|N]; [reflexivity|].
  assert (FP : finite_pos (u mod 2 ^ 63)).
  { apply abs_finite; [exact H|apply isFinite_iff; assumption|exact N]. }
  rewrite negative_spec by exact N. destruct (sign_field u) eqn:S.
  - assert (S' : 2 ^ 63 <= u) by (apply Z.leb_le; exact S).
    destruct (put c "-"%char) as [c'| | |]; cbn [bind]; [|reflexivity..].
    rewrite negate_spec by assumption. rewrite (grisu2_compiler tc1 tc2 _ _ _ HP FP). reflexivity.
  - assert (S' : u < 2 ^ 63) by (apply Z.leb_gt; exact S). cbn [bind].
    rewrite (Z.mod_small u) in FP by (unfold bits64 in H; lia).
    rewrite (grisu2_compiler tc1 tc2 _ _ _ HP FP). reflexivity.
Qed.

Theorem format_bits_compiler env1 env2 u :
  tc_policy (fe_tc env1) = tc_policy (fe_tc env2) -> fe_lit env1 = fe_lit env2 -> bits64 u ->
  format_bits env1 u = format_bits env2 u.
Proof.
  intros HP HL H. unfold format_bits. destruct (ModelIeee.isFinite u) eqn:F; cbn [negb]; [|rewrite HL; reflexivity].
  rewrite (dtoa_compiler _ _ u _ HP H F). reflexivity.
Qed.
