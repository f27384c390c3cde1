(** JSON texts of all arguments, sizes, order, conversions between types through text. *)
From Coq Require Import Reals Lra Psatz Floats.SpecFloat.
From Flocq Require Import Core IEEE754.BinarySingleNaN.
From Verif Require Import Machine LibMachine SpecApi SpecDecimal SpecInt SpecNumber SpecIeee SpecString SpecLayout SpecJson SpecRead SpecMore
  ModelItoa ModelInt ModelText ModelString ModelIeee ModelDiyfp ModelDtoa ModelFloat ModelLexi ModelPlatforms
  ProofDiyfp ProofDigits ProofGrisu ProofLayout ProofNumber ProofShort ProofUnique ProofItoa ProofInt ProofString ProofApi ProofIeee ProofDtoa
  ProofFloat ProofFloat2 ProofFloat3 ProofFloat4 ProofRead ProofRead2 ProofRead3 ProofMore.
Open Scope Z_scope.
Ltac Zify.zify_post_hook ::= idtac.

(** ** C54: JSON *)

Lemma value_is_text s : json_value s -> json_text s.
Proof. intros V. exists [], s, []. rewrite app_nil_r. repeat split; [constructor|exact V|constructor]. Qed.

Lemma text_head c r : json_text (c :: r) -> ~ (code c = 32 \/ code c = 9 \/ code c = 10 \/ code c = 13) ->
  exists v b, json_value v /\ json_ws b /\ c :: r = v ++ b /\ json_start c.
Proof.
  intros (a & v & b & A & V & B & E) N. destruct a as [|x a].
  - exists v, b. destruct (json_value_first v V) as (d & q & -> & S). injection E as <- E.
    repeat split; auto. cbn. f_equal. exact E.
  - exfalso. injection E as <- _. inversion A; subst. contradiction.
Qed.

Lemma quoted_json_text m : json_text (QUOTE :: m ++ [QUOTE]) -> json_string_text (QUOTE :: m ++ [QUOTE]).
Proof.
  intros T. destruct (text_head _ _ T) as (v & b & V & B & E & _); [cbn; lia|].
  assert (Hb : b = []).
  { destruct b as [|b0 b]; [reflexivity|].
    destruct (exists_last (l := b0 :: b)) as (b' & x & Hx); [discriminate|]. rewrite Hx in *.
    rewrite app_comm_cons, app_assoc in E. apply app_inj_tail in E as [_ <-].
    apply Forall_app in B as [_ B]. inversion B; subst. cbn in *. lia. }
  subst b. rewrite app_nil_r in E. rewrite E.
  destruct V as [| | |s n J|s J|w _|s _|w _|s _]; try discriminate E; [|exact J].
  exfalso. destruct (json_number_first s n J) as (c & r & -> & [->|D]); [discriminate E|injection E as <- _].
  unfold is_digit in D. cbn in D. lia.
Qed.

Lemma string_json cs m s : quoted_jsonify cs m = Ok s -> (utf8 m -> json_value s) /\ (json_text s -> utf8 m).
Proof.
  rewrite quoted_jsonify_eq. intros E. apply Ok_inj in E. subst s. split.
  - intros U. apply jv_string. split; [apply quoted_utf8; exact U|]. exists m. apply quoted_decodes.
  - intros T. apply quoted_json_text in T. apply quoted_utf8. apply T.
Qed.

Lemma integer_json s v : canonical_integer s v -> json_value s.
Proof.
  intros C. assert (J : exists n, json_number s n); [|destruct J as [n J]; apply (jv_number s n J)].
  destruct C as [[_ (N & F & _ & Z0)]|[_ (r & -> & N & F & _ & Z0)]].
  - exists (Number false s None None). split; [exists "e"%char; split; [left; reflexivity|cbn; rewrite !app_nil_r; reflexivity]|].
    cbn [n_integer n_fraction n_exponent]. repeat split; auto; discriminate.
  - exists (Number true r None None). split; [exists "e"%char; split; [left; reflexivity|cbn; rewrite !app_nil_r; reflexivity]|].
    cbn [n_integer n_fraction n_exponent]. repeat split; auto; discriminate.
Qed.

Lemma infinity_not_json (b : bool) : ~ json_text (if b then str "-Infinity" else str "Infinity").
Proof.
  intros T. destruct b.
  - destruct (text_head _ _ T) as (v & w & V & _ & E & _); [cbn; lia|].
    destruct V as [| | |s n J|s J|w' _|s _|w' _|s _]; try discriminate E.
    + destruct (json_number_second s n J) as (a & c & r & -> & [->| ->] & D).
      * injection E as <- _. unfold is_digit in D. cbn in D. lia.
      * injection E as <- _. unfold is_digit in D. cbn in D. lia.
    + destruct J as [_ [d D]]. destruct s as [|c r]; [discriminate D|]. injection E as <- _. discriminate D.
  - destruct (text_head _ _ T) as (v & w & V & _ & E & S); [cbn; lia|].
    unfold json_start, is_digit, QUOTE in S. cbn in S. repeat destruct S as [S|S]; try discriminate S. lia.
Qed.

Lemma double_json e u s : nan_ok (e_float e) -> e_lit e = default_literals -> bits64 u -> lexi e (VDouble u) = Ok s ->
  (double_finite u -> json_value s) /\ (json_text s -> double_finite u).
Proof.
  intros HN HL H L. split.
  - intros F. destruct (finite_json e u s H F) as [[n J] _].
    + destruct (floating_functions e (VDouble u) H) as (_ & _ & ->). exact L.
    + apply (jv_number s n J).
  - intros T. destruct (special_values e u HN HL H) as (A & B & C & _).
    destruct (double_cases u H) as [N|[[b I]|[[F _]|[F _]]]]; try exact F; exfalso.
    + apply A in N. rewrite L in N. apply Ok_inj in N. subst s. exact (nan_not_json T).
    + destruct b; [apply C in I|apply B in I]; rewrite L in I; apply Ok_inj in I; subst s;
        [exact (infinity_not_json true T)|exact (infinity_not_json false T)].
Qed.

Lemma all_json e v s : platform_ok (e_platform e) -> nan_ok (e_float e) -> e_lit e = default_literals -> argument_ok e v ->
  jsonify_of e v = Ok s -> (has_json v <-> json_value s) /\ (has_json v <-> json_text s).
Proof.
  intros HP HN HL HV J.
  assert (X : (has_json v -> json_value s) /\ (json_text s -> has_json v)).
  2: { destruct X as [X1 X2]. pose proof (value_is_text s). tauto. }
  assert (DJ : forall w, floating_ok e v -> bits64 w -> lexi e v = lexi e (VDouble w) ->
    (has_json v <-> double_finite w) -> (has_json v -> json_value s) /\ (json_text s -> has_json v)).
  { intros w FO BW LW HW. destruct (floating_functions e v FO) as (_ & _ & E). rewrite E, LW in J.
    destruct (double_json e w s HN HL BW J). tauto. }
  destruct v as [|b|c|t n|u|u|x|u n|off|m|m]; cbn [argument_ok value_ok has_json] in *.
  - destruct (null_default e "."%char [] HL) as (_ & _ & _ & E & _). rewrite E in J. apply Ok_inj in J. subst s.
    split; [intros _; constructor|auto].
  - destruct (bool_formats_default e b HL) as (_ & _ & _ & E). rewrite E in J. apply Ok_inj in J. subst s.
    split; [intros _; destruct b; constructor|auto].
  - destruct (char_views e c) as (f & _ & _ & _ & E). rewrite E in J. cbn [jsonify_of] in J.
    destruct (string_json _ _ _ J) as [A B]. unfold utf8 in A, B. cbn [utf8_run] in A, B.
    assert (U : is_ascii c <-> match utf8_start (code c) with Some p => utf8_run p [] | None => false end = true).
    { unfold is_ascii, utf8_start. destruct (Z.ltb_spec (code c) 128) as [K|K].
      - split; auto.
      - split; [lia|]. repeat (destruct (_ && _); [discriminate|]). repeat (destruct (_ =? _); [discriminate|]).
        repeat (destruct (_ && _); [discriminate|]). repeat (destruct (_ =? _); [discriminate|]).
        repeat (destruct (_ && _); [discriminate|]). repeat (destruct (_ =? _); [discriminate|]). 
        repeat (destruct (_ && _); [discriminate|]). repeat (destruct (_ =? _); [discriminate|]). discriminate. }
    tauto.
  - destruct (integer_formats e t n HP HV) as (s' & _ & _ & _ & E & C). rewrite E in J. apply Ok_inj in J. subst s'.
    split; [intros _; apply (integer_json _ _ C)|auto].
  - destruct (float_printed e u HN HV) as (w & BW & _ & LW & NW & IW & FW).
    apply (DJ w HV BW LW). split; [intros F; apply FW, F|]. intros F.
    destruct (double_exclusive w BW) as [X1 X2].
    unfold float_finite, float_nan, float_infinity in *.
    destruct (Bits.b32_of_bits u) as [? |b| |]; try reflexivity; exfalso.
    + apply (proj1 (X2 b (IW b eq_refl))). exact F.
    + apply (X1 (NW eq_refl)). exact F.
  - apply (DJ u HV HV eq_refl). reflexivity.
  - destruct (long_double_printed e x HN HV) as (w & BW & _ & LW & M).
    apply (DJ w HV BW LW). destruct (double_exclusive w BW) as [X1 X2].
    destruct x as [b|b| |b m k]; cbn [is_finite_SF].
    + revert M. destruct (Rlt_bool_spec (Rabs (nearest 53 1024 (SF2R radix2 (S754_zero b)))) (bpow radix2 1024)) as [R|R]; intros M.
      * destruct M as (M & _). tauto.
      * destruct (X2 _ M). split; [intros [_ Y]; lra|tauto].
    + destruct (X2 _ M). split; [intros [Y _]; discriminate Y|tauto].
    + split; [intros [Y _]; discriminate Y|intros Y; exfalso; exact (X1 M Y)].
    + revert M. destruct (Rlt_bool_spec (Rabs (nearest 53 1024 (SF2R radix2 (S754_finite b m k)))) (bpow radix2 1024)) as [R|R]; intros M.
      * destruct M as (M & _). tauto.
      * destruct (X2 _ M). split; [intros [_ Y]; lra|tauto].
  - destruct (enum_formats e u n HP HV) as (s' & _ & _ & _ & E & C). rewrite E in J. apply Ok_inj in J. subst s'.
    split; [intros _; apply (integer_json _ _ C)|auto].
  - destruct (fpos_formats e off HP HV) as (s' & _ & _ & _ & E & C). rewrite E in J. apply Ok_inj in J. subst s'.
    split; [intros _; apply (integer_json _ _ C)|auto].
  - cbn [jsonify_of] in J. apply (string_json _ _ _ J).
  - cbn [jsonify_of] in J. destruct (string_json _ _ _ J) as [A B].
    destruct (c_str_of_spec m) as (r & E & N & R). split.
    + intros U. apply A. apply (U _ r E N R).
    + intros T t q Em Nt Rq. replace t with (c_str_of m); [exact (B T)|]. rewrite Em. apply c_str_of_cut; [exact Nt|].
      destruct Rq as [->|[q' ->]]; [left; reflexivity|right; reflexivity].
Qed.

(** ** C56: order *)

Lemma finite_nearest e u s n : bits64 u -> double_finite u -> lexi e (VDouble u) = Ok s -> json_number s n ->
  nearest 53 1024 (n_value n) = double_value u.
Proof.
  intros H F L J. destruct (Req_dec (double_value u) 0) as [Z0|N].
  - rewrite lexi_zero in L by assumption. apply Ok_inj in L. subst s. rewrite (zero_number n J), Z0. apply nearest_0.
  - destruct (double_round_trip e u s H F N L) as (n' & _ & U & _ & R). rewrite (U n J). exact R.
Qed.

Lemma texts_ordered e1 e2 u1 u2 s1 s2 n1 n2 : bits64 u1 -> bits64 u2 -> double_finite u1 -> double_finite u2 ->
  lexi e1 (VDouble u1) = Ok s1 -> lexi e2 (VDouble u2) = Ok s2 -> json_number s1 n1 -> json_number s2 n2 ->
  (double_value u1 < double_value u2)%R -> (n_value n1 < n_value n2)%R.
Proof.
  intros H1 H2 F1 F2 L1 L2 J1 J2 X.
  pose proof (finite_nearest e1 u1 s1 n1 H1 F1 L1 J1) as R1. pose proof (finite_nearest e2 u2 s2 n2 H2 F2 L2 J2) as R2.
  apply Rnot_le_lt. intros Y. apply (nearest_le 53 1024) in Y; [|lia]. rewrite R1, R2 in Y. lra.
Qed.

Lemma texts_order e u1 u2 s1 s2 n1 n2 : bits64 u1 -> bits64 u2 -> double_finite u1 -> double_finite u2 ->
  lexi e (VDouble u1) = Ok s1 -> lexi e (VDouble u2) = Ok s2 -> json_number s1 n1 -> json_number s2 n2 ->
  (double_value u1 < double_value u2 <-> n_value n1 < n_value n2)%R /\
  (double_value u1 = double_value u2 <-> n_value n1 = n_value n2)%R.
Proof.
  intros H1 H2 F1 F2 L1 L2 J1 J2.
  pose proof (texts_ordered e e u1 u2 s1 s2 n1 n2 H1 H2 F1 F2 L1 L2 J1 J2) as A.
  pose proof (texts_ordered e e u2 u1 s2 s1 n2 n1 H2 H1 F2 F1 L2 L1 J2 J1) as B.
  assert (C : double_value u1 = double_value u2 -> n_value n1 = n_value n2).
  { intros E. destruct (Req_dec (double_value u1) 0) as [Z0|N].
    - assert (Z1 : double_value u2 = 0%R) by lra.
      rewrite lexi_zero in L1, L2 by assumption. apply Ok_inj in L1, L2. subst s1 s2.
      rewrite (zero_number n1 J1), (zero_number n2 J2). reflexivity.
    - assert (u1 = u2) by (apply double_value_inj; assumption). subst u2. rewrite L1 in L2. apply Ok_inj in L2. subst s2.
      rewrite (json_number_unique _ _ _ J1 J2). reflexivity. }
  destruct (Rtotal_order (double_value u1) (double_value u2)) as [X|[X|X]].
  - pose proof (A X). split; split; intros; lra || assumption.
  - pose proof (C X). split; split; intros; lra || assumption.
  - pose proof (B X). split; split; intros; lra || assumption.
Qed.

(** ** C57: integers through another integer type *)

Lemma integer_through e point t1 t2 v s : platform_ok (e_platform e) -> has_int_type (e_platform e) t1 v ->
  lexi e (VInt t1 v) = Ok s ->
  exists r, extract e point (TInt t2) s = Ok (XInt r) /\ has_int_type (e_platform e) t2 r /\ congruent (int_bits (e_platform e) t2) r v.
Proof.
  intros HP HV L. destruct (integer_formats e t1 v HP HV) as (s' & L' & _ & _ & _ & C). rewrite L in L'. apply Ok_inj in L'. subst s'.
  destruct (canonical_prefix s v C) as (ds & neg & P & E).
  destruct (integer_extract e point t2 s neg ds HP P) as (r & X & T & G). exists r. split; [exact X|]. split; [exact T|].
  pose proof (has_int_type_range _ _ _ HP HV) as B.
  assert (0 <= numeral_value ds).
  { destruct P as (? & ? & ? & _ & _ & _ & _ & HF & _). apply numeral_value_bounds. exact HF. }
  destruct (Z.ltb_spec (2 ^ 64 - 1) (numeral_value ds)); [destruct neg; lia|]. rewrite E. exact G.
Qed.

Lemma integer_through_same e point t1 t2 v s : platform_ok (e_platform e) -> has_int_type (e_platform e) t1 v ->
  has_int_type (e_platform e) t2 v -> lexi e (VInt t1 v) = Ok s -> extract e point (TInt t2) s = Ok (XInt v).
Proof.
  intros HP HV HV2 L. destruct (integer_through e point t1 t2 v s HP HV L) as (r & X & T & G). rewrite X. do 2 f_equal.
  apply (has_int_type_unique (e_platform e) t2); assumption.
Qed.

(** ** C59: numbers read as integers *)

Lemma number_prefix s n : json_number s n -> integer_prefix s (n_negative n) (n_integer n).
Proof.
  intros ((ec & EC & ->) & NI & DI & _ & FI & _).
  set (rest := optional (fun f => "."%char :: f) (n_fraction n) ++ optional (fun x => ec :: fst x ++ snd x) (n_exponent n)).
  exists [], (if n_negative n then ["-"%char] else []), rest. split; [reflexivity|]. split; [constructor|].
  assert (SD : starts_with is_digit (n_integer n ++ rest)).
  { destruct (n_integer n); [contradiction|]. inversion DI; assumption. }
  split; [|split; [|split; [exact DI|]]].
  - destruct (n_negative n); cbn [app starts_with]; [unfold is_space; cbn; lia|].
    destruct (n_integer n ++ rest); [contradiction SD|]. cbn [starts_with] in *. unfold is_digit, is_space in *. lia.
  - destruct (n_negative n); [left; auto|]. right. right. split; [reflexivity|]. split; [reflexivity|].
    destruct (n_integer n ++ rest); [contradiction SD|]. cbn [starts_with] in *. intros X. exact (digit_not_sign _ SD X).
  - unfold rest. destruct (n_fraction n) as [f|]; cbn [optional app]; [exact not_digit_dot|].
    destruct (n_exponent n) as [x|]; cbn; [apply not_digit_e; exact EC|auto].
Qed.

Lemma number_as_integer e point t s n : platform_ok (e_platform e) -> json_number s n ->
  exists r, extract e point (TInt t) s = Ok (XInt r) /\ has_int_type (e_platform e) t r /\ congruent (int_bits (e_platform e) t) r
      (let d := numeral_value (n_integer n) in
       if 2 ^ 64 - 1 <? d then 2 ^ 64 - 1 else if n_negative n then - d else d).
Proof. intros HP J. apply integer_extract; [exact HP|]. apply number_prefix. exact J. Qed.
