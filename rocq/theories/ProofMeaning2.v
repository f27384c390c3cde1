(** Proofs about every call: extraction gives a value of the type or throws, formatting gives
    a text. *)
From Coq Require Import Reals Floats.SpecFloat.
From Flocq Require Import Core IEEE754.BinarySingleNaN.
From Verif Require Import Machine LibMachine SpecApi SpecDecimal SpecInt SpecNumber SpecIeee SpecString SpecLayout SpecJson SpecRead SpecMore
  SpecMeaning ModelItoa ModelInt ModelText ModelString ModelIeee ModelDiyfp ModelDtoa ModelFloat ModelLexi ModelPlatforms
  ProofInt ProofApi ProofFloat ProofFloat2 ProofFloat3 ProofFloat4 ProofRead2 ProofRead3 ProofMore ProofMore2 ProofMore3 ProofMore4 ProofString.
Open Scope Z_scope.

Lemma read_valid p q v z : read_as p q v z -> valid_binary p q z = true.
Proof. destruct v; cbn [read_as]; try (intros ->; reflexivity); intros [H _]; exact H. Qed.
Lemma narrowed_valid p q y z : narrowed p q y z -> valid_binary p q z = true.
Proof. destruct y; cbn [narrowed]; try (intros ->; reflexivity); intros [H _]; exact H. Qed.

Lemma extract_total e point T s : platform_ok (e_platform e) -> point_ok point -> e_lit e = default_literals ->
  (readable T s -> exists r, extract e point T s = Ok r /\ of_type e T r) /\
  (~ readable T s -> exists what, extract e point T s = Throw what).
Proof.
  intros HP PO HL.
  destruct (ProofInt.integer_prefix_exists s) as (neg & ds & IP).
  destruct (texts_denote point s PO) as (v & R & _).
  destruct (float_extracts e point s v PO R) as (y & RA & EL & (zd & ED & ND) & (zf & EF & NF)).
  destruct T; cbn [readable of_type]; (split; [intros H|try (intros []; exact I)]).
  - destruct (null_default e point s HL) as (_ & _ & _ & _ & A & _). exists XNull. auto.
  - intros H. destruct (null_default e point s HL) as (_ & _ & _ & _ & _ & A). auto.
  - destruct H as [H|H]; [exists (XBool true)|exists (XBool false)]; (split; [|exact I]).
    + now apply (bool_extract_iff e point s true HL).
    + now apply (bool_extract_iff e point s false HL).
  - intros H. apply bool_extract_throws; auto.
  - pose proof (char_extract_cases e point s) as C. destruct s as [|c s]; [congruence|]. exists (XChar c). split; [exact C|exact I].
  - intros H. pose proof (char_extract_cases e point s) as C. destruct s as [|c s]; [exact C|]. exfalso. apply H. discriminate.
  - destruct (integer_extract e point t s neg ds HP IP) as (r & A & B & _). eauto.
  - eapply ex_intro. split; [exact EF|]. eapply narrowed_valid; eauto.
  - eapply ex_intro. split; [exact ED|]. eapply narrowed_valid; eauto.
  - eapply ex_intro. split; [exact EL|]. eapply read_valid; eauto.
  - destruct (enum_extract e point u s neg ds HP IP) as (r & A & B & _). eauto.
  - destruct (fpos_extract e point s neg ds HP IP) as (r & A & B & _). eauto.
Qed.

(** A value is formatted, unless the table is overrun and that is undefined. *)
Lemma format_total e v : platform_ok (e_platform e) -> nan_ok (e_float e) -> e_lit e = default_literals -> argument_ok e v ->
  (exists s t x, lexi e v = Ok s /\ string_of e v = Ok s /\ escape_of e v = Ok t /\ jsonify_of e v = Ok x) \/
  (tc_policy (fe_tc (e_float e)) = Strict /\ floating_ok e v /\
   lexi e v = overrun /\ string_of e v = overrun /\ escape_of e v = overrun /\ jsonify_of e v = overrun).
Proof.
  intros HP HN HL HV.
  assert (FL : floating_ok e v -> (exists s t x, lexi e v = Ok s /\ string_of e v = Ok s /\ escape_of e v = Ok t /\ jsonify_of e v = Ok x) \/
    (tc_policy (fe_tc (e_float e)) = Strict /\ floating_ok e v /\
     lexi e v = overrun /\ string_of e v = overrun /\ escape_of e v = overrun /\ jsonify_of e v = overrun)).
  { intros F. destruct (floating_functions e v F) as (A & B & C). rewrite A, B, C.
    destruct (float_terminates e v HN (default_fits e HL) F) as [[s E]|[E P]]; [left; eauto 8|right; auto 8]. }
  destruct v as [|b|c|t n|u|u|x|u n|off|s0|s0]; try (apply FL; exact HV); left; cbn [argument_ok value_ok] in HV.
  - destruct (null_default e "."%char [] HL) as (A & B & C & D & _). eauto 8.
  - destruct (bool_formats_default e b HL) as (A & B & C & D). eauto 8.
  - destruct (char_round_trip e "."%char c) as (A & B & _). destruct (jsonify_char_exact e c) as (t & D & _).
    destruct (char_views e c) as (f & _ & _ & C & _). eauto 8.
  - destruct (integer_formats e t n HP HV) as (x & A & B & C & D & _). eauto 8.
  - destruct (enum_formats e u n HP HV) as (x & A & B & C & D & _). eauto 8.
  - destruct (fpos_formats e off HP HV) as (x & A & B & C & D & _). eauto 8.
  - destruct (strings_pass e s0) as (A & B & _). destruct (escape_string e s0) as (t & C & _). destruct (jsonify_exact e s0) as (ts & D & _). eauto 8.
  - destruct (strings_pass e s0) as (_ & _ & t' & _ & A & B & _). destruct (cstring_as_string e s0 t' A) as [-> ->].
    destruct (escape_string e t') as (t & C & _). destruct (jsonify_exact e t') as (ts & D & _). eauto 8.
Qed.

(** ** Sizes and concatenation *)

Lemma json_char_length c t : json_char c t -> (1 <= length t <= 6)%nat.
Proof. intros J. inversion J; subst; cbn; lia. Qed.
Lemma concat_length s ts : Forall2 json_char s ts -> (length s <= length (List.concat ts) <= 6 * length s)%nat.
Proof. induction 1 as [|c t s ts J F IH]; cbn [List.concat length]; [lia|]. rewrite app_length. apply json_char_length in J. lia. Qed.
Lemma jsonify_size e s : exists t, jsonify_of e (VString s) = Ok t /\ (length s + 2 <= length t <= 6 * length s + 2)%nat.
Proof.
  destruct (jsonify_exact e s) as (ts & E & F). eexists. split; [exact E|]. apply concat_length in F.
  cbn [length]. rewrite app_length. cbn [length]. lia.
Qed.
Lemma json_chars_fun s t1 : Forall2 json_char s t1 -> forall t2, Forall2 json_char s t2 -> t1 = t2.
Proof.
  induction 1 as [|c t s l J G IH]; intros ts F; inversion F; subst; [reflexivity|].
  f_equal; [eapply json_char_fun; eauto|auto].
Qed.
Lemma jsonify_append e s1 s2 : exists t1 t2, jsonify_of e (VString s1) = Ok (QUOTE :: t1 ++ [QUOTE]) /\
  jsonify_of e (VString s2) = Ok (QUOTE :: t2 ++ [QUOTE]) /\ jsonify_of e (VString (s1 ++ s2)) = Ok (QUOTE :: (t1 ++ t2) ++ [QUOTE]).
Proof.
  destruct (jsonify_exact e s1) as (ts1 & E1 & F1). destruct (jsonify_exact e s2) as (ts2 & E2 & F2).
  destruct (jsonify_exact e (s1 ++ s2)) as (ts & E & F). exists (List.concat ts1), (List.concat ts2).
  split; [exact E1|]. split; [exact E2|]. rewrite E. do 2 f_equal. rewrite <- concat_app. do 2 f_equal.
  exact (json_chars_fun _ _ F _ (Forall2_app F1 F2)).
Qed.
Lemma escape_append e s1 s2 : exists t1 t2, escape_of e (VString s1) = Ok t1 /\ escape_of e (VString s2) = Ok t2 /\
  escape_of e (VString (s1 ++ s2)) = Ok (t1 ++ t2).
Proof.
  destruct (escape_string e s1) as (t1 & E1 & I1). destruct (escape_string e s2) as (t2 & E2 & I2).
  destruct (escape_string e (s1 ++ s2)) as (t & E & I). exists t1, t2. split; [exact E1|]. split; [exact E2|]. rewrite E. f_equal.
  apply (inserted_fun escaped_class (s1 ++ s2)); [exact I|]. clear - I1 I2. induction I1; cbn [app]; [exact I2|constructor; auto|constructor; auto].
Qed.
