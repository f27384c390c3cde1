(** Properties C68 to C70, and further theorems for C12, C14 and C34. *)
From Coq Require Import Reals Floats.SpecFloat.
From Flocq Require Import Core IEEE754.BinarySingleNaN.
From Verif Require Import Machine SpecApi SpecDecimal SpecInt SpecIeee SpecString SpecRead SpecMore SpecMeaning
  ModelItoa ModelInt ModelText ModelString ModelIeee ModelDiyfp ModelDtoa ModelFloat ModelLexi ModelPlatforms
  SpecNumber SpecLayout SpecJson ProofRead2 ProofMeaning ProofMeaning2 ProofMeaning3.
Open Scope Z_scope.

(** C68: arguments of whatever types have the same JSON exactly when they mean the same. *)
Theorem C68_json_iff : forall e v w m m' s s', platform_ok (e_platform e) -> nan_ok (e_float e) -> e_lit e = default_literals ->
  argument_ok e v -> argument_ok e w -> means v m -> means w m' ->
  jsonify_of e v = Ok s -> jsonify_of e w = Ok s' -> (s = s' <-> m = m').
Proof. exact json_iff. Qed.
Print Assumptions C68_json_iff.

(** Every argument means one thing. *)
Theorem C68_meaning_exists : forall e v, argument_ok e v -> exists m, means v m.
Proof. exact meaning_exists. Qed.
Print Assumptions C68_meaning_exists.

Theorem C68_meaning_unique : forall v m1 m2, means v m1 -> means v m2 -> m1 = m2.
Proof. exact meaning_unique. Qed.
Print Assumptions C68_meaning_unique.

Example C68_case : means (VChar "a"%char) (MText (str "a")) /\ means (VString (str "a")) (MText (str "a")) /\
  jsonify_of (linux_x86_64 zero_memory) (VChar "a"%char) = jsonify_of (linux_x86_64 zero_memory) (VString (str "a")) /\
  jsonify_of (linux_x86_64 zero_memory) (VString (str "true")) <> jsonify_of (linux_x86_64 zero_memory) (VBool true) /\
  jsonify_of (linux_x86_64 zero_memory) (VInt Int 1) = Ok (str "1") /\
  jsonify_of (linux_x86_64 zero_memory) (VDouble 0x3FF0000000000000) = Ok (str "1.0").
Proof. repeat split; try reflexivity; vm_compute; discriminate || reflexivity. Qed.

(** C69: extraction gives a value of the type or throws; the texts of null, booleans and
    characters decide which. *)
Theorem C69_extraction : forall e point T s, platform_ok (e_platform e) -> point_ok point -> e_lit e = default_literals ->
  (readable T s -> exists r, extract e point T s = Ok r /\ of_type e T r) /\
  (~ readable T s -> exists what, extract e point T s = Throw what).
Proof. exact extract_total. Qed.
Print Assumptions C69_extraction.

Example C69_case : extract (linux_x86_64 Strict) "."%char (TEnum EBool) (str "-x") = Ok (XEnum 0) /\
  of_type (linux_x86_64 Strict) (TEnum EBool) (XEnum 0) /\ ~ readable TBool (str "TRUE") /\
  extract (linux_x86_64 Strict) "."%char TBool (str "TRUE") = Throw "String is not boolean.".
Proof. split; [vm_compute; reflexivity|]. split; [now left|]. split; [intros [X|X]; discriminate X|reflexivity]. Qed.

(** C34: every formatting function gives a text, unless a table is overrun, which C23 says
    happens to floating point numbers. *)
Theorem C34_returns : forall e v, platform_ok (e_platform e) -> nan_ok (e_float e) -> e_lit e = default_literals -> argument_ok e v ->
  (exists s t x, lexi e v = Ok s /\ string_of e v = Ok s /\ escape_of e v = Ok t /\ jsonify_of e v = Ok x) \/
  (tc_policy (fe_tc (e_float e)) = Strict /\ floating_ok e v /\
   lexi e v = overrun /\ string_of e v = overrun /\ escape_of e v = overrun /\ jsonify_of e v = overrun).
Proof. exact format_total. Qed.
Print Assumptions C34_returns.

(** C12 and C14: the parts of a string are treated one by one. *)
Theorem C12_append : forall e s1 s2, exists t1 t2, escape_of e (VString s1) = Ok t1 /\ escape_of e (VString s2) = Ok t2 /\
  escape_of e (VString (s1 ++ s2)) = Ok (t1 ++ t2).
Proof. exact escape_append. Qed.
Print Assumptions C12_append.

Theorem C14_append : forall e s1 s2, exists t1 t2, jsonify_of e (VString s1) = Ok (QUOTE :: t1 ++ [QUOTE]) /\
  jsonify_of e (VString s2) = Ok (QUOTE :: t2 ++ [QUOTE]) /\ jsonify_of e (VString (s1 ++ s2)) = Ok (QUOTE :: (t1 ++ t2) ++ [QUOTE]).
Proof. exact jsonify_append. Qed.
Print Assumptions C14_append.

Theorem C14_size : forall e s, exists t, jsonify_of e (VString s) = Ok t /\ (length s + 2 <= length t <= 6 * length s + 2)%nat.
Proof. exact jsonify_size. Qed.
Print Assumptions C14_size.

Example C14_size_case : jsonify_of (linux_x86_64 Strict) (VString [chr 1; chr 2]) = Ok (QUOTE :: str "\u0001\u0002" ++ [QUOTE]).
Proof. reflexivity. Qed.

(** C70: a number is read out of the text around it. *)
Theorem C70_embedded : forall e point T v s ws rest, platform_ok (e_platform e) -> nan_ok (e_float e) -> e_lit e = default_literals ->
  point_ok point -> argument_ok e v -> is_number v -> number_type T -> lexi e v = Ok s -> Forall is_space ws -> ends_number point rest ->
  extract e point T (ws ++ s ++ rest) = extract e point T s.
Proof. exact embedded_number. Qed.
Print Assumptions C70_embedded.

(** White space before any text whatever does not matter. *)
Theorem C70_leading_space : forall e point T ws s, point_ok point -> number_type T -> Forall is_space ws ->
  extract e point T (ws ++ s) = extract e point T s.
Proof. exact leading_space. Qed.
Print Assumptions C70_leading_space.

(** The same for every JSON number, not only those the library writes. *)
Theorem C70_json : forall e point T s n rest, point_ok point -> number_type T -> json_number s n -> ends_number point rest ->
  extract e point T (s ++ rest) = extract e point T s.
Proof. exact number_before. Qed.
Print Assumptions C70_json.

Example C70_case : let e := linux_x86_64 Strict in
  extract e "."%char (TInt Int) (str "  -12, 7") = Ok (XInt (-12)) /\ ends_number "."%char (str ", 7") /\
  extract e "."%char TDouble (str " 0.5]") = extract e "."%char TDouble (str "0.5") /\
  extract e "."%char (TInt Int) (str "-127") <> extract e "."%char (TInt Int) (str "-12") /\ ~ ends_number "."%char (str "7").
Proof.
  cbv zeta. split; [vm_compute; reflexivity|]. split.
  - intros [X|[X|[[X|X]|[X|X]]]]; try discriminate X. unfold is_digit in X. cbn in X. lia.
  - split; [vm_compute; reflexivity|]. split; [vm_compute; discriminate|]. intros X. apply X. left. unfold is_digit. cbn. lia.
Qed.
