(** Properties C08-C11: booleans, null, characters, configured literals. *)
From Verif Require Import Machine SpecApi SpecString ModelItoa ModelInt ModelText ModelDtoa ModelFloat ModelLexi ModelPlatforms
  ProofApi.

(** C08 *)
Theorem C08_bool_formats : forall e b, e_lit e = default_literals ->
  let s := if b : bool then str "true" else str "false" in
  lexi e (VBool b) = Ok s /\ string_of e (VBool b) = Ok s /\
  escape_of e (VBool b) = Ok s /\ jsonify_of e (VBool b) = Ok s.
Proof. exact bool_formats_default. Qed.
Print Assumptions C08_bool_formats.

Theorem C08_bool_extracts : forall e point s (b : bool), e_lit e = default_literals ->
  (extract e point TBool s = Ok (XBool b) <-> s = if b then str "true" else str "false").
Proof. exact bool_extract_iff. Qed.
Print Assumptions C08_bool_extracts.

Theorem C08_other_strings_throw : forall e point s, e_lit e = default_literals ->
  s <> str "true" -> s <> str "false" -> exists what, extract e point TBool s = Throw what.
Proof. exact bool_extract_throws. Qed.
Print Assumptions C08_other_strings_throw.

Example C08_case : extract (linux_x86_64 Strict) "."%char TBool (str "true" ++ [NUL]) = Throw "String is not boolean."
  /\ lexi (linux_x86_64 Strict) (VBool false) = Ok (str "false").
Proof. split; reflexivity. Qed.

(** C09 *)
Theorem C09_null : forall e point s, e_lit e = default_literals ->
  lexi e VNull = Ok (str "null") /\ string_of e VNull = Ok (str "null") /\
  escape_of e VNull = Ok (str "null") /\ jsonify_of e VNull = Ok (str "null") /\
  (s = str "null" -> extract e point TNull s = Ok XNull) /\
  (s <> str "null" -> exists what, extract e point TNull s = Throw what).
Proof. exact null_default. Qed.
Print Assumptions C09_null.

Example C09_case : extract (linux_x86_64 Strict) "."%char TNull (str "null ") = Throw """String is not null.""".
Proof. reflexivity. Qed.

(** C10 *)
Theorem C10_char : forall e point c,
  lexi e (VChar c) = Ok [c] /\ string_of e (VChar c) = Ok [c] /\
  (let* s := lexi e (VChar c) in extract e point TChar s) = Ok (XChar c) /\
  exists f, Format e (VChar c) = Ok f /\ shows f 2 [c].
Proof. exact char_round_trip. Qed.
Print Assumptions C10_char.

Theorem C10_char_extracts : forall e point s,
  match s with
  | [] => exists what, extract e point TChar s = Throw what
  | c :: _ => extract e point TChar s = Ok (XChar c)
  end.
Proof. exact char_extract_cases. Qed.
Print Assumptions C10_char_extracts.

Example C10_case : lexi (linux_x86_64 Strict) (VChar NUL) = Ok [NUL].
Proof. reflexivity. Qed.

(** C11 is false: the sizes of the boolean and null literals are fixed. *)
Theorem C11_literals_honoured_refuted : exists e,
  lit_true (e_lit e) = str "yes" /\ lexi e (VBool true) = Ok (str "yes" ++ [NUL]).
Proof.
  exists (Env (e_platform (linux_x86_64 Strict))
           (FloatEnv LD80 0 (fe_tc (e_float (linux_x86_64 Strict)))
              (Literals (str "nil") (str "yes") (str "no") [] [] []))).
  split; reflexivity.
Qed.
Print Assumptions C11_literals_honoured_refuted.

(** Exactly when a configured literal is honoured (the floating point literals are in
    PropFloat.v); missing is every literal of another length. *)
Theorem C11_bool_literal_partial : forall e (b : bool),
  let lit := if b then lit_true (e_lit e) else lit_false (e_lit e) in
  lexi e (VBool b) = Ok lit <-> length lit = if b then 4%nat else 5%nat.
Proof. exact bool_literal_iff. Qed.
Print Assumptions C11_bool_literal_partial.

Theorem C11_null_literal_partial : forall e,
  lexi e VNull = Ok (lit_null (e_lit e)) <-> length (lit_null (e_lit e)) = 4%nat.
Proof. exact null_literal_iff. Qed.
Print Assumptions C11_null_literal_partial.
