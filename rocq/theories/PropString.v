(** Properties C12-C17: escaping, JSON strings, pass-through. *)
From Verif Require Import Machine SpecApi SpecString ModelItoa ModelInt ModelText ModelDtoa ModelFloat ModelLexi ModelPlatforms
  ProofApi.

(** C12 *)
Theorem C12_escape : forall e s, exists t, escape_of e (VString s) = Ok t /\
  inserted escaped_class s t /\ unescape t = Some s /\ (length s <= length t <= 2 * length s)%nat.
Proof. exact escape_spec. Qed.
Print Assumptions C12_escape.

Theorem C12_escape_any_platform : forall e1 e2 s, escape_of e1 (VString s) = escape_of e2 (VString s).
Proof. exact escape_any_env. Qed.
Print Assumptions C12_escape_any_platform.

Example C12_case : escape_of (linux_x86_64 Strict) (VString (str "a b\" ++ [chr 200; chr 127]))
  = Ok (str "a\ b\\" ++ [chr 200; chr 127]).
Proof. reflexivity. Qed.

(** C13 is false: DEL is ASCII, not alphanumeric, and not escaped. *)
Theorem C13_escape_all_refuted : exists e c, is_ascii c /\ ~ is_alphanumeric c /\
  escape_of e (VString [c]) = Ok [c].
Proof.
  exists (linux_x86_64 Strict), (chr 127). split; [reflexivity|]. split; [|reflexivity].
  unfold is_alphanumeric. vm_compute. intuition discriminate.
Qed.
Print Assumptions C13_escape_all_refuted.

(** Every other such character is escaped. *)
Theorem C13_escape_all_partial : forall e c, is_ascii c -> ~ is_alphanumeric c -> code c <> 127 ->
  escape_of e (VString [c]) = Ok [BACKSLASH; c].
Proof. exact escape_char_ascii. Qed.
Print Assumptions C13_escape_all_partial.

Example C13_case : is_ascii "~"%char /\ code "~"%char <> 127 /\
  escape_of (linux_x86_64 Strict) (VString (str "~")) = Ok (str "\~").
Proof. split; [reflexivity|]. split; [discriminate|reflexivity]. Qed.

(** C14 *)
Theorem C14_jsonify_decodes : forall e s, exists t, jsonify_of e (VString s) = Ok t /\
  json_string_decode t = Some s.
Proof. exact jsonify_decodes. Qed.
Print Assumptions C14_jsonify_decodes.

Theorem C14_jsonify_any_platform : forall e1 e2 s, jsonify_of e1 (VString s) = jsonify_of e2 (VString s).
Proof. exact jsonify_any_env. Qed.
Print Assumptions C14_jsonify_any_platform.

Example C14_case : jsonify_of (linux_x86_64 Strict) (VString [chr 34; chr 10; chr 1; chr 255])
  = Ok ([chr 34] ++ str "\" ++ [chr 34] ++ str "\n\u0001" ++ [chr 255; chr 34]).
Proof. reflexivity. Qed.

(** C15 *)
Theorem C15_jsonify_utf8 : forall e s, exists t, jsonify_of e (VString s) = Ok t /\ (utf8 t <-> utf8 s).
Proof. exact jsonify_utf8. Qed.
Print Assumptions C15_jsonify_utf8.

Example C15_case : utf8 [chr 0xE2; chr 0x82; chr 0xAC] /\ ~ utf8 [chr 0xC0; chr 0x80].
Proof. split; [reflexivity|discriminate]. Qed.

(** C16 is false: a byte above 127 alone is not UTF-8. *)
Theorem C16_jsonify_char_refuted : exists e c t, jsonify_of e (VChar c) = Ok t /\ ~ json_string_text t.
Proof.
  exists (linux_x86_64 Strict), (chr 200). eexists. split; [reflexivity|]. intros [U _]. discriminate U.
Qed.
Print Assumptions C16_jsonify_char_refuted.

(** It holds for the ASCII characters. *)
Theorem C16_jsonify_char_partial : forall e c, is_ascii c ->
  exists t, jsonify_of e (VChar c) = Ok t /\ json_string_text t /\ json_string_decode t = Some [c].
Proof. exact jsonify_char_ascii. Qed.
Print Assumptions C16_jsonify_char_partial.

(** ... and only for these. *)
Theorem C16_ascii_only : forall e c t, jsonify_of e (VChar c) = Ok t -> (json_string_text t <-> is_ascii c).
Proof. exact jsonify_char_iff. Qed.
Print Assumptions C16_ascii_only.

(** C17 *)
Theorem C17_strings_pass : forall e s, lexi e (VString s) = Ok s /\ string_of e (VString s) = Ok s /\
  exists t r, lexi e (VCString s) = Ok t /\ string_of e (VCString s) = Ok t /\
    s = t ++ r /\ Forall (fun c => c <> NUL) t /\ (r = [] \/ exists r', r = NUL :: r').
Proof. exact strings_pass. Qed.
Print Assumptions C17_strings_pass.

Theorem C17_cstrings_as_strings : forall e s t, lexi e (VCString s) = Ok t ->
  escape_of e (VCString s) = escape_of e (VString t) /\ jsonify_of e (VCString s) = jsonify_of e (VString t).
Proof. exact cstring_as_string. Qed.
Print Assumptions C17_cstrings_as_strings.

Example C17_case : lexi (linux_x86_64 Strict) (VString [NUL; "a"%char]) = Ok [NUL; "a"%char]
  /\ lexi (linux_x86_64 Strict) (VCString ["b"%char; NUL; "a"%char]) = Ok ["b"%char].
Proof. split; reflexivity. Qed.
