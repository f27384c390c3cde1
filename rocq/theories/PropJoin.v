(** Properties C73 to C75: texts made of several results. *)
From Coq Require Import Reals Floats.SpecFloat.
From Verif Require Import Machine SpecApi SpecDecimal SpecInt SpecNumber SpecIeee SpecString SpecJson SpecRead SpecMore SpecMeaning SpecJoin
  ModelItoa ModelInt ModelText ModelIeee ModelDiyfp ModelDtoa ModelFloat ModelLexi ModelPlatforms
  ProofJoin ProofJoin2 ProofJoin3.
Open Scope Z_scope.

(** C73: arrays and objects, however deep, written with jsonify and punctuation only, are
    JSON exactly when every leaf has a JSON text and every key is UTF-8. *)
Theorem C73_valid : forall e, platform_ok (e_platform e) -> nan_ok (e_float e) -> e_lit e = default_literals ->
  forall t s, tree_all (argument_ok e) (fun _ => True) t -> tree_text e t = Ok s ->
  (tree_all has_json utf8 t <-> json_value s).
Proof. exact tree_json_iff. Qed.
Print Assumptions C73_valid.

(** They have the same text exactly when they have the same form and their leaves mean the
    same. *)
Theorem C73_distinct : forall e, platform_ok (e_platform e) -> nan_ok (e_float e) -> e_lit e = default_literals ->
  forall t t' m m' s s', tree_all (argument_ok e) (fun _ => True) t -> tree_all (argument_ok e) (fun _ => True) t' ->
  tree_means t m -> tree_means t' m' -> tree_text e t = Ok s -> tree_text e t' = Ok s' -> (s = s' <-> m = m').
Proof. exact tree_iff. Qed.
Print Assumptions C73_distinct.

Example C73_case :
  let t := Array (Element (Leaf (VInt Int (-5))) (Element (Object (Member (str "a,""]") (Leaf (VString (str "],["))) NoMember))
             (Element (Array NoElement) (Element (Leaf (VDouble 0x3FF8000000000000)) NoElement)))) in
  tree_all (argument_ok (linux_x86_64 zero_memory)) (fun _ => True) t /\ tree_all has_json utf8 t /\
  tree_text (linux_x86_64 zero_memory) t = Ok (str "[-5,{""a,\""]"":""],[""},[],1.5]").
Proof.
  split; [|split; [|vm_compute; reflexivity]].
  - cbn. unfold has_int_type, bits64. cbn. repeat split; try exact I; lia.
  - cbn. repeat split; try exact I; vm_compute; reflexivity.
Qed.

(** A leaf that is not JSON spoils the whole. *)
Example C73_nan_case :
  let t := Array (Element (Leaf (VDouble 0x7FF8000000000000)) NoElement) in
  tree_text (linux_x86_64 zero_memory) t = Ok (str "[NaN]") /\ ~ tree_all has_json utf8 t.
Proof. split; [vm_compute; reflexivity|]. intros [X _]. vm_compute in X. discriminate X. Qed.

(** C74: escaped strings with a separator between them can be told apart again. *)
Theorem C74_escaped : forall e sep l l' ts ts', escape_separator sep -> l <> [] -> l' <> [] ->
  Forall2 (fun s t => escape_of e (VString s) = Ok t) l ts -> Forall2 (fun s t => escape_of e (VString s) = Ok t) l' ts' ->
  (separated sep ts = separated sep ts' <-> l = l').
Proof. exact escaped_fields. Qed.
Print Assumptions C74_escaped.

(** ... and so can the texts of numbers. *)
Theorem C74_numbers : forall e sep l l' ts ts', platform_ok (e_platform e) -> nan_ok (e_float e) -> e_lit e = default_literals ->
  number_separator sep -> l <> [] -> l' <> [] ->
  Forall (fun v => argument_ok e v /\ is_number v) l -> Forall (fun v => argument_ok e v /\ is_number v) l' ->
  Forall2 (fun v t => lexi e v = Ok t) l ts -> Forall2 (fun v t => lexi e v = Ok t) l' ts' ->
  (separated sep ts = separated sep ts' <-> ts = ts').
Proof. exact number_fields. Qed.
Print Assumptions C74_numbers.

Example C74_case : escape_separator (str ", ") /\ number_separator (str ", ") /\
  escape_of (linux_x86_64 Strict) (VString (str "a, b")) = Ok (str "a\,\ b") /\
  separated (str ", ") [str "a\,\ b"; str "c"] = str "a\,\ b, c" /\
  separated (str ", ") [str "a"; str "b"] = str "a, b".
Proof.
  split; [exists ","%char, (str " "); repeat split; [left; cbn; lia|discriminate]|].
  split; [exists ","%char, (str " "); repeat split; try discriminate; unfold is_alphanumeric; cbn; lia|].
  repeat split; reflexivity.
Qed.

(** The backslash itself is no separator. *)
Example C74_backslash_case : exists t1 t2 t3, escape_of (linux_x86_64 Strict) (VString []) = Ok t1 /\
  escape_of (linux_x86_64 Strict) (VString (str "\")) = Ok t2 /\ escape_of (linux_x86_64 Strict) (VString (str "a")) = Ok t3 /\
  separated (str "\") [t1; t1; t3] = separated (str "\") [t2 ++ t3].
Proof. do 3 eexists. split; [reflexivity|]. split; [reflexivity|]. split; reflexivity. Qed.

(** C75: no control characters in JSON texts, nor in the texts of numbers, null and
    booleans. *)
Theorem C75_json : forall e v s, platform_ok (e_platform e) -> nan_ok (e_float e) -> e_lit e = default_literals -> argument_ok e v ->
  jsonify_of e v = Ok s -> one_line s.
Proof. exact leaf_line. Qed.
Print Assumptions C75_json.

Theorem C75_tree : forall e t s, platform_ok (e_platform e) -> nan_ok (e_float e) -> e_lit e = default_literals ->
  tree_all (argument_ok e) (fun _ => True) t -> tree_text e t = Ok s -> one_line s.
Proof. exact tree_line. Qed.
Print Assumptions C75_tree.

Theorem C75_numbers : forall e v s, platform_ok (e_platform e) -> nan_ok (e_float e) -> e_lit e = default_literals -> argument_ok e v ->
  is_number v \/ v = VNull \/ (exists b, v = VBool b) -> lexi e v = Ok s -> one_line s.
Proof. exact format_line. Qed.
Print Assumptions C75_numbers.

Example C75_case : jsonify_of (linux_x86_64 Strict) (VString [chr 10; chr 27; chr 127]) = Ok (QUOTE :: str "\n\u001b" ++ [chr 127; QUOTE]).
Proof. reflexivity. Qed.

(** It is false of escape, which leaves a line feed after its mark. *)
Theorem C75_escape_refuted : exists e s t, escape_of e (VString s) = Ok t /\ ~ one_line t.
Proof.
  exists (linux_x86_64 Strict), [chr 10], [BACKSLASH; chr 10]. split; [reflexivity|].
  intros H. inversion H as [|? ? _ X]; subst. inversion X as [|? ? Y _]; subst. vm_compute in Y. congruence.
Qed.
Print Assumptions C75_escape_refuted.
