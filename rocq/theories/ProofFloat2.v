(** API-level results for floating point formatting, continued. *)
From Coq Require Import Reals Lra Psatz.
From Flocq Require Import Core.
From Flocq Require IEEE754.Binary IEEE754.Bits.
From Flocq Require Import IEEE754.BinarySingleNaN.
From Verif Require Import Machine LibMachine SpecApi SpecDecimal SpecInt SpecNumber SpecIeee SpecString SpecJson
  ModelItoa ModelInt ModelText ModelIeee ModelDiyfp ModelDtoa
  ModelFloat ModelLexi ProofDiyfp ProofCached ProofDigits ProofGrisu ProofLayout ProofIeee ProofDtoa ProofNumber
  ProofRound ProofStrict ProofUnique ProofShort ProofApi ProofFloat.
Open Scope Z_scope.
Ltac Zify.zify_post_hook ::= idtac.

(** ** All three types *)

(** The double that is printed. *)
Definition printed (e : env) (v : value) : Z :=
  match v with
  | VFloat u => widen (fe_nan (e_float e)) u
  | VDouble u => if (exp_field u =? 2047) && negb (frac_field u =? 0) then fe_nan (e_float e) else u
  | VLongDouble x => bits_of_double (fe_nan (e_float e)) (convert 53 1024 x)
  | _ => 0
  end.

Lemma convert_valid p q x : good_format p q -> is_finite_SF x = true -> valid_binary p q (convert p q x) = true.
Proof.
  intros G F. destruct x as [s|s| |s m e]; try discriminate F; [reflexivity|].
  apply (convert_rounded p q s m e G).
Qed.

Lemma convert_valid_any p q x : good_format p q -> valid_binary p q (convert p q x) = true.
Proof. intros G. destruct x as [s|s| |s m e]; try reflexivity. apply convert_valid; [exact G|reflexivity]. Qed.

Lemma bits_of_valid nan x : bits64 nan -> valid_binary 53 1024 x = true -> bits64 (bits_of_double nan x).
Proof.
  intros N V. destruct (SFeqb x x || negb (SFeqb x x)) eqn:D; [|destruct (SFeqb x x); discriminate]. clear D.
  destruct x as [s|s| |s m e]; try exact N; apply (double_of_bits_of_double nan _ V); discriminate.
Qed.

Lemma printed_bits e v : nan_ok (e_float e) -> floating_ok e v -> bits64 (printed e v).
Proof.
  intros [NB _] H. destruct v; try contradiction H; cbn [printed floating_ok] in *.
  - unfold widen. apply bits_of_valid; [exact NB|]. apply convert_valid_any. exact double_good.
  - destruct (_ && _); assumption.
  - apply bits_of_valid; [exact NB|]. apply convert_valid_any. exact double_good.
Qed.

Lemma Format_printed e v : floating_ok e v ->
  Format e v = let* o := format_bits (e_float e) (printed e v) in Ok (FFloat o).
Proof.
  intros H. destruct v; try contradiction H; cbn [Format printed].
  - rewrite float_bits. reflexivity.
  - rewrite double_bits by exact H. reflexivity.
  - reflexivity.
Qed.

Lemma Format_as_double e v : nan_ok (e_float e) -> floating_ok e v ->
  Format e v = Format e (VDouble (printed e v)).
Proof.
  intros HN H. rewrite (Format_printed e v H). pose proof (printed_bits e v HN H) as B.
  rewrite (Format_printed e (VDouble (printed e v)) B). cbn [printed].
  destruct (_ && _) eqn:N; [|reflexivity].
  assert (X : double_nan (printed e v)).
  { apply double_nan_iff; [exact B|]. apply andb_prop in N as [N1 N2]. split; [lia|].
    apply Bool.negb_true_iff in N2. apply Z.eqb_neq in N2. exact N2. }
  rewrite (format_nan (e_float e) _ B X). destruct HN as [NB NN]. rewrite (format_nan (e_float e) _ NB NN). reflexivity.
Qed.

Lemma lexi_of_Format e v : floating_ok e v -> lexi e v = let* f := Format e v in f_string f.
Proof. destruct v; try contradiction; reflexivity. Qed.

(** C49, floating point: the four functions agree, and so do the member functions. *)
Lemma floating_functions e v : floating_ok e v ->
  string_of e v = lexi e v /\ escape_of e v = lexi e v /\ jsonify_of e v = lexi e v.
Proof.
  intros H. assert (X : forall g, (forall o, g (FFloat o) = FormatFloat_string o) ->
    (let* f := Format e v in g f) = lexi e v).
  { intros g Hg. rewrite lexi_of_Format by exact H. rewrite Format_printed by exact H.
    destruct (format_bits _ _) as [o| | |]; try reflexivity. cbn [bind]. apply Hg. }
  destruct v; try contradiction H; (split; [|split]); apply X; reflexivity.
Qed.

Lemma lexi_as_double e v : nan_ok (e_float e) -> floating_ok e v -> lexi e v = lexi e (VDouble (printed e v)).
Proof.
  intros HN H. rewrite lexi_of_Format by exact H. rewrite Format_as_double by assumption.
  rewrite <- lexi_of_Format; [reflexivity|]. exact (printed_bits e v HN H).
Qed.

(** ** Objects *)

Lemma float_shows o s : FormatFloat_holds o s -> shows (FFloat o) FLOAT_SIZE s.
Proof.
  intros (S & Z & L & C & N). unfold shows; cbn [f_string f_to_string f_size f_length f_buffer f_c_str].
  split; [exact S|]. split; [exact S|]. split; [exact Z|]. split; [exact Z|]. split; [exact L|].
  split; [|split; [rewrite Z; exact N|exact C]].
  apply buf_read_in_range in N. unfold bytes in *. lia.
Qed.

(** C22, C23a, C34 *)
Lemma float_object e v : nan_ok (e_float e) -> float_literals_ok (e_lit e) -> floating_ok e v ->
  Format e v = overrun \/
  exists f s, Format e v = Ok f /\ lexi e v = Ok s /\ shows f FLOAT_SIZE s.
Proof.
  intros HN HL H. pose proof (printed_bits e v HN H) as B.
  destruct (format_bits_any (e_float e) (printed e v) HL B) as (text & _ & [(o & E & Ho)|E]).
  - right. exists (FFloat o), text. rewrite lexi_of_Format, Format_printed, E by exact H. cbn [bind f_string].
    split; [reflexivity|]. split; [apply Ho|]. apply float_shows. exact Ho.
  - left. rewrite Format_printed, E by exact H. reflexivity.
Qed.

Lemma float_object_lenient e v : nan_ok (e_float e) -> float_literals_ok (e_lit e) -> floating_ok e v ->
  lenient (fe_tc (e_float e)) -> exists f s, Format e v = Ok f /\ lexi e v = Ok s /\ shows f FLOAT_SIZE s.
Proof.
  intros HN HL H Le. pose proof (printed_bits e v HN H) as B.
  destruct (format_bits_lenient (e_float e) (printed e v) HL B Le) as (text & o & _ & E & Ho).
  exists (FFloat o), text. rewrite lexi_of_Format, Format_printed, E by exact H. cbn [bind f_string].
  split; [reflexivity|]. split; [apply Ho|]. apply float_shows. exact Ho.
Qed.

Lemma digit_not_nul c : is_digit c -> c <> NUL.
Proof. intros D ->. unfold is_digit in D. cbn in D. lia. Qed.

Lemma digits_not_nul l : Forall is_digit l -> Forall (fun c => c <> NUL) l.
Proof. apply Forall_impl. exact digit_not_nul. Qed.

Lemma json_number_not_nul s n : json_number s n -> Forall (fun c => c <> NUL) s.
Proof.
  intros ((ec & Ee & ->) & _ & DI & _ & DF & DX).
  apply Forall_app. split; [destruct (n_negative n); repeat constructor; discriminate|].
  apply Forall_app. split; [apply digits_not_nul; exact DI|].
  apply Forall_app. split.
  - destruct (n_fraction n) as [f|]; [|constructor]. cbn [optional]. constructor; [discriminate|].
    apply digits_not_nul. apply (DF f). reflexivity.
  - destruct (n_exponent n) as [[sg x]|]; [|constructor]. cbn [optional fst snd].
    destruct (DX sg x eq_refl) as (S & _ & D).
    constructor; [destruct Ee as [->| ->]; discriminate|]. apply Forall_app. split.
    + destruct S as [->|[->| ->]]; repeat constructor; discriminate.
    + apply digits_not_nul. exact D.
Qed.

Lemma float_not_nul e v s : nan_ok (e_float e) -> float_literals_ok (e_lit e) -> literals_not_nul (e_lit e) ->
  floating_ok e v -> lexi e v = Ok s -> Forall (fun c => c <> NUL) s.
Proof.
  intros HN (L1 & L2 & L3) (N1 & N2 & N3) H E. rewrite lexi_as_double in E by assumption.
  pose proof (printed_bits e v HN H) as B. set (u := printed e v) in *. clearbody u.
  destruct (double_cases u B) as [N|[[sg I]|[[F Z0]|[F N]]]].
  - rewrite lexi_nan in E by assumption. apply Ok_inj in E. subst s. exact N1.
  - rewrite (lexi_infinity e u sg) in E; try assumption; [|destruct sg; assumption].
    apply Ok_inj in E. subst s. destruct sg; assumption.
  - rewrite lexi_zero in E by assumption. apply Ok_inj in E. subst s. repeat constructor; discriminate.
  - destruct (double_round_trip e u s B F N E) as (n & J & _). apply (json_number_not_nul s n J).
Qed.

Lemma float_c_str e v f : nan_ok (e_float e) -> float_literals_ok (e_lit e) -> literals_not_nul (e_lit e) ->
  floating_ok e v -> Format e v = Ok f ->
  exists s, lexi e v = Ok s /\ shows f FLOAT_SIZE s /\ f_c_str f = Ok s /\ Forall (fun c => c <> NUL) s.
Proof.
  intros HN HL NL H E. destruct (float_object e v HN HL H) as [X|(f' & s & E' & L & S)].
  - rewrite E in X. discriminate X.
  - rewrite E in E'. apply Ok_inj in E'. subst f'. exists s. split; [exact L|]. split; [exact S|].
    pose proof (float_not_nul e v s HN HL NL H L) as NN. split; [|exact NN]. apply S. exact NN.
Qed.

(** ** Defined behaviour, C23 *)

(** With at most ten digits, no read is out of bounds. *)
Lemma few_digits_defined e oracle u s n : tc_policy (fe_tc (e_float e)) = Strict -> bits64 u -> double_finite u ->
  double_value u <> 0%R ->
  lexi (with_policy e (Lenient oracle)) (VDouble u) = Ok s -> json_number s n ->
  (length (strip_zeros (n_digits n)) <= 10)%nat -> lexi e (VDouble u) = Ok s.
Proof.
  intros S H F N L J Hl. pose proof (proj1 (double_finite_iff u H) F) as EF.
  pose proof (proj2 (isFinite_iff u H) EF) as IF. pose proof (proj1 (nonzero_field u H F) N) as NZ.
  destruct (format_bits_strict (e_float e) oracle u S H IF NZ)
    as (ds & K & F0 & E & k & kap & P & G & GC & X).
  destruct (finite_text _ u s H F N L) as (ds' & K' & F0' & E' & k' & kap' & P' & G' & Es).
  change (fe_tc (defined (e_float (with_policy e (Lenient oracle))))) with (set_policy (fe_tc (e_float e)) (Lenient oracle)) in P'.
  rewrite P in P'. apply Ok_inj in P'. injection P' as <- <-.
  pose proof (digits_good _ _ _ _ _ _ (go_digits _ _ _ _ _ _ _ G)) as GD.
  pose proof (grisu_exponent _ _ _ _ _ _ _ G) as GE.
  pose proof (layout_json (sign_field u) ds K GD GE) as J2.
  change ((if sign_field u then ["-"%char] else []) ++ layout ds K) with (sign_text u ++ layout ds K) in J2.
  rewrite <- Es in J2. rewrite (json_number_unique _ _ _ J J2) in Hl.
  pose proof (layout_significant (sign_field u) ds K GD) as [_ LS].
  pose proof (do_length _ _ _ _ _ _ (go_digits _ _ _ _ _ _ _ G)) as DL.
  pose proof (int_count_range (hi_of (dbl_f (u mod 2 ^ 63)) F0) (shift_of (u mod 2 ^ 63) E)) as CR.
  assert (KB : (-9 <=? kap) = true) by (apply Z.leb_le; lia).
  rewrite KB in X. rewrite lexi_double, double_finite_bits, X by assumption.
  rewrite <- L, lexi_double, double_finite_bits by assumption. reflexivity.
Qed.

(** ** JSON, C24 *)

Lemma json_number_text s n : json_number s n -> json_text s.
Proof.
  intros J. exists [], s, []. split; [constructor|]. split; [apply (jv_number s n J)|]. split; [constructor|].
  rewrite app_nil_r. reflexivity.
Qed.

Lemma zero_is_number : exists n, json_number (str "0.0") n.
Proof.
  exists (Number false (str "0") (Some (str "0")) None).
  split; [exists "e"%char; split; [left; reflexivity|reflexivity]|]. cbn [n_integer n_fraction n_exponent].
  split; [discriminate|]. split; [repeat constructor; cbn; lia|]. split; [intros r X; injection X as <-; reflexivity|].
  split; [intros f X; injection X as <-; split; [discriminate|repeat constructor; cbn; lia]|discriminate].
Qed.

Lemma finite_json e u s : bits64 u -> double_finite u -> jsonify_of e (VDouble u) = Ok s ->
  (exists n, json_number s n) /\ json_text s.
Proof.
  intros H F J. destruct (floating_functions e (VDouble u) H) as (_ & _ & X). rewrite X in J.
  assert (Y : exists n, json_number s n).
  { destruct (Req_dec (double_value u) 0) as [Z0|N].
    - rewrite lexi_zero in J by assumption. apply Ok_inj in J. subst s. exact zero_is_number.
    - destruct (double_round_trip e u s H F N J) as (n & JN & _). exists n. exact JN. }
  split; [exact Y|]. destruct Y as [n Y]. apply (json_number_text s n Y).
Qed.

Definition json_start (c : ascii) : Prop :=
  c = "f"%char \/ c = "n"%char \/ c = "t"%char \/ c = "-"%char \/ is_digit c \/ c = QUOTE \/ c = "["%char \/ c = "{"%char.

Lemma json_value_first s : json_value s -> exists c r, s = c :: r /\ json_start c.
Proof.
  unfold json_start. intros J. destruct J as [| | |s n J|s J|w _|s _|w _|s _].
  - exists "f"%char. eexists. split; [reflexivity|]. auto.
  - exists "n"%char. eexists. split; [reflexivity|]. auto.
  - exists "t"%char. eexists. split; [reflexivity|]. auto.
  - destruct (json_number_first s n J) as (c & r & -> & [->|D]); exists c || exists "-"%char; eexists; (split; [reflexivity|]); auto 8.
  - destruct J as [_ (d & D)]. unfold json_string_decode in D. destruct s as [|c r]; [discriminate|].
    destruct (Z.eqb_spec (code c) 34) as [X|]; [|discriminate]. exists c, r. split; [reflexivity|].
    assert (c = QUOTE); [|auto 8]. unfold QUOTE. rewrite <- X. symmetry. apply chr_code.
  - exists "["%char. eexists. split; [reflexivity|]. auto 8.
  - exists "["%char. eexists. split; [reflexivity|]. auto 8.
  - exists "{"%char. eexists. split; [reflexivity|]. auto 10.
  - exists "{"%char. eexists. split; [reflexivity|]. auto 10.
Qed.

Lemma nan_not_json : ~ json_text (str "NaN").
Proof.
  intros (a & v & b & A & V & B & E). destruct (json_value_first v V) as (c & r & -> & S).
  destruct a as [|x a].
  - injection E as <- _. unfold json_start, is_digit, QUOTE in S. cbn in S.
    repeat destruct S as [S|S]; try discriminate S. lia.
  - injection E as <- _. inversion A as [|y l Y _]; subst. cbn in Y. lia.
Qed.
