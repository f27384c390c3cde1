(** Properties C83 and C84: the public functions when allocations fail, and how many they make. *)
From Verif Require Import Machine SpecMemory ModelItoa ModelInt ModelText ModelString ModelIeee ModelDiyfp ModelDtoa ModelFloat
  ModelLexi ModelPlatforms ModelMemory ProofMemory.
Open Scope Z_scope.

(** The assumptions on the string library hold of the three common ones. *)
Theorem C83_libraries : forall bits, 8 <= bits -> library_ok (libstdcxx bits) /\ library_ok (libcxx bits) /\ library_ok (microsoft bits).
Proof. exact libraries_ok. Qed.
Print Assumptions C83_libraries.

(** That a failure is std::bad_alloc whenever the result would fit is false of escape. *)
Theorem C83_only_bad_alloc_refuted : forall has lib e k, library_ok lib -> 1 <= sl_max lib -> sl_max lib + 2 < 2 ^ sl_bits lib ->
  exists src s, escape_of e (VString src) = Ok s /\ size s <= sl_max lib /\
    m_escape_of has lib e (VString src) k = (Throw length_error, k).
Proof. exact length_error_seen. Qed.
Print Assumptions C83_only_bad_alloc_refuted.

(** The same text as with unlimited memory, or std::bad_alloc after a failed allocation, or
    std::length_error for the sizes named. *)
Theorem C83_lexi : forall has lib e v k, library_ok lib ->
  under_memory has is_text (lexi e v) k (result_too_long lib (lexi e v)) (m_lexi has lib e v k).
Proof. exact memory_lexi1. Qed.
Print Assumptions C83_lexi.

Theorem C83_escape : forall has lib e v k, library_ok lib ->
  under_memory has is_text (escape_of e v) k (reserve_too_long lib v \/ result_too_long lib (escape_of e v)) (m_escape_of has lib e v k).
Proof. exact memory_escape. Qed.
Print Assumptions C83_escape.

Theorem C83_jsonify : forall has lib e v k, library_ok lib ->
  under_memory has is_text (jsonify_of e v) k (reserve_too_long lib v \/ result_too_long lib (jsonify_of e v)) (m_jsonify_of has lib e v k).
Proof. exact memory_jsonify. Qed.
Print Assumptions C83_jsonify.

(** Extraction from a std::string allocates nothing unless it throws. *)
Theorem C83_extract : forall has lib e point T s k,
  under_memory has eq (extract e point T s) k False (m_extract has lib e point T s k) /\
  snd (m_extract has lib e point T s k) <= k + 1 /\
  (forall x, extract e point T s = Ok x -> m_extract has lib e point T s k = (Ok x, k)).
Proof. exact extract_outcome. Qed.
Print Assumptions C83_extract.

Theorem C83_extract_cstr : forall has lib e point T s k, library_ok lib ->
  under_memory has eq (extract_cstr e point T s) k (sl_max lib < size (c_str_of s)) (m_extract_cstr has lib e point T s k) /\
  snd (m_extract_cstr has lib e point T s k) <= k + 2.
Proof. exact memory_extract_cstr. Qed.
Print Assumptions C83_extract_cstr.

(** With memory for everything the calls succeed, lengths permitting. *)
Theorem C83_enough : forall lib e v k, library_ok lib ->
  (forall s, lexi e v = Ok s -> size s <= sl_max lib -> exists t k', m_lexi plenty lib e v k = (Ok t, k') /\ t_bytes t = s) /\
  (forall s, escape_of e v = Ok s -> size s <= sl_max lib -> ~ reserve_too_long lib v ->
     exists t k', m_escape_of plenty lib e v k = (Ok t, k') /\ t_bytes t = s) /\
  (forall s, jsonify_of e v = Ok s -> size s <= sl_max lib -> ~ reserve_too_long lib v ->
     exists t k', m_jsonify_of plenty lib e v k = (Ok t, k') /\ t_bytes t = s).
Proof. exact memory_enough. Qed.
Print Assumptions C83_enough.

(** Texts that fit into the std::string object need no memory at all. *)
Theorem C83_inside : forall has lib e v s k, library_ok lib -> size s <= sl_inside lib -> 15 <= sl_inside lib ->
  (lexi e v = Ok s -> m_lexi has lib e v k = (Ok (Text s (sl_inside lib)), k)) /\
  (escape_of e v = Ok s -> (forall src, source v = Some src -> 2 * size src + 1 <= sl_inside lib) ->
    m_escape_of has lib e v k = (Ok (Text s (sl_inside lib)), k)) /\
  (jsonify_of e v = Ok s -> (forall src, source v = Some src -> 2 * size src + 1 <= sl_inside lib) ->
    m_jsonify_of has lib e v k = (Ok (Text s (sl_inside lib)), k)).
Proof. exact memory_inside. Qed.
Print Assumptions C83_inside.

(** Without any memory all others fail, by std::bad_alloc at the first allocation. *)
Theorem C83_outside : forall lib e v s k, library_ok lib ->
  (lexi e v = Ok s -> sl_inside lib < size s <= sl_max lib -> m_lexi nothing lib e v k = (Throw bad_alloc, k + 1)) /\
  (forall src, v = VString src -> sl_inside lib < (2 * size src + 1) mod 2 ^ sl_bits lib <= sl_max lib ->
    m_escape_of nothing lib e v k = (Throw bad_alloc, k + 1) /\
    m_jsonify_of nothing lib e v k = (Throw bad_alloc, k + 1)).
Proof. exact memory_outside. Qed.
Print Assumptions C83_outside.

(** So null, booleans, characters and integers of up to 32 bits never fail. *)
Theorem C83_short : forall has lib e v s k, library_ok lib -> 15 <= sl_inside lib -> platform_ok (e_platform e) -> short_value e v ->
  (lexi e v = Ok s -> m_lexi has lib e v k = (Ok (Text s (sl_inside lib)), k)) /\
  (escape_of e v = Ok s -> m_escape_of has lib e v k = (Ok (Text s (sl_inside lib)), k)) /\
  (jsonify_of e v = Ok s -> m_jsonify_of has lib e v k = (Ok (Text s (sl_inside lib)), k)).
Proof. exact memory_short. Qed.
Print Assumptions C83_short.

Definition up_to (j k _ : Z) : bool := k <? j.
Example C83_case :
  m_lexi nothing (libstdcxx 64) (linux_x86_64 Strict) (VInt Int (-2147483648)) 0 = (Ok (Text (str "-2147483648") 15), 0) /\
  m_lexi nothing (libstdcxx 64) (linux_x86_64 Strict) (VInt LLong (-9223372036854775808)) 0 = (Throw bad_alloc, 1) /\
  m_lexi nothing (libcxx 64) (linux_x86_64 Strict) (VInt LLong (-9223372036854775808)) 0 = (Ok (Text (str "-9223372036854775808") 22), 0) /\
  m_escape_of (up_to 1) (libstdcxx 64) (linux_x86_64 Strict) (VString (str "0123456789abcdef")) 0 = (Ok (Text (str "0123456789abcdef") 33), 2) /\
  m_escape_of (up_to 1) (microsoft 64) (windows_x64 Strict) (VString (str "0123456789abcdef")) 0 = (Throw bad_alloc, 2) /\
  m_escape_of plenty (microsoft 8) (windows_x64 Strict) (VString (repeat "a"%char 64)) 0 = (Throw length_error, 0) /\
  m_extract_cstr nothing (libstdcxx 64) (linux_x86_64 Strict) "."%char TBool (str "true") 0 = (Ok (XBool true), 0) /\
  m_extract_cstr nothing (libstdcxx 64) (linux_x86_64 Strict) "."%char TBool (str "yes") 0 = (Throw bad_alloc, 1).
Proof. repeat (split; [vm_compute; reflexivity|]). vm_compute. reflexivity. Qed.

(** The number of allocations does not depend on the length. *)
Theorem C84_lexi : forall has lib e v k, library_ok lib -> k <= snd (m_lexi has lib e v k) <= k + 1.
Proof. exact allocations_lexi. Qed.
Print Assumptions C84_lexi.

(** One fewer for a std::string, which is not copied. *)
Theorem C84_escape : forall has lib e v k, library_ok lib -> no_wrap lib v ->
  k <= snd (m_escape_of has lib e v k) <= k + match v with VString _ => 2 | VChar _ | VCString _ => 3 | _ => 1 end.
Proof. exact allocations_escape. Qed.
Print Assumptions C84_escape.

Theorem C84_jsonify : forall has lib e v k, library_ok lib -> no_wrap lib v ->
  k <= snd (m_jsonify_of has lib e v k) <= k + match v with VString _ => 6 | VChar _ | VCString _ => 7 | _ => 1 end.
Proof. exact allocations_jsonify. Qed.
Print Assumptions C84_jsonify.

Example C84_case :
  snd (m_escape_of plenty (libstdcxx 64) (linux_x86_64 Strict) (VCString (repeat "a"%char 100)) 0) = 3 /\
  snd (m_jsonify_of plenty (libstdcxx 64) (linux_x86_64 Strict) (VString (repeat "a"%char 1000)) 0) = 3 /\
  snd (m_jsonify_of plenty (libstdcxx 64) (linux_x86_64 Strict) (VCString (repeat "001"%char 1000)) 0) = 6 /\
  snd (m_jsonify_of plenty (microsoft 64) (windows_x64 Strict) (VCString (repeat "001"%char 1000)) 0) = 6 /\
  snd (m_jsonify_of plenty (microsoft 64) (windows_x64 Strict) (VString (repeat "001"%char 1005)) 0) = 6 /\
  snd (m_jsonify_of plenty (microsoft 64) (windows_x64 Strict) (VCString (repeat "001"%char 1005)) 0) = 7 /\
  snd (m_escape_of plenty (microsoft 64) (windows_x64 Strict) (VString (repeat "a"%char 100)) 0) = 2 /\
  snd (m_jsonify_of plenty (libcxx 64) (linux_x86_64 zero_memory) (VDouble 4607182418800017409) 0) = 0 /\
  snd (m_jsonify_of plenty (libstdcxx 64) (linux_x86_64 zero_memory) (VDouble 4607182418800017409) 0) = 1.
Proof. repeat (split; [vm_compute; reflexivity|]). vm_compute. reflexivity. Qed.
