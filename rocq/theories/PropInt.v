(** Properties C01-C07: integers, enumerations, stream positions. *)
From Verif Require Import Machine SpecApi SpecDecimal SpecInt ModelItoa ModelInt ModelText ModelDtoa ModelLexi ModelPlatforms
  ProofApi.

(** C01 *)
Theorem C01_integers_canonical : forall e t v,
  platform_ok (e_platform e) -> has_int_type (e_platform e) t v ->
  exists s, lexi e (VInt t v) = Ok s /\ string_of e (VInt t v) = Ok s /\
            escape_of e (VInt t v) = Ok s /\ jsonify_of e (VInt t v) = Ok s /\ canonical_integer s v.
Proof. exact integer_formats. Qed.
Print Assumptions C01_integers_canonical.

(** The specification leaves no choice: there is one canonical numeral. *)
Theorem C01_canonical_unique : forall s1 s2 v,
  canonical_integer s1 v -> canonical_integer s2 v -> s1 = s2.
Proof. exact canonical_integer_unique. Qed.
Print Assumptions C01_canonical_unique.

Example C01_case : lexi (windows_x64 Strict) (VInt LLong (-9223372036854775808)) = Ok (str "-9223372036854775808")
  /\ platform_ok (e_platform (windows_x64 Strict)) /\ platform_ok (e_platform (linux_x86_64 Strict)) /\ platform_ok (e_platform (linux_aarch64 Strict))
  /\ has_int_type (e_platform (windows_x64 Strict)) LLong (-9223372036854775808).
Proof. vm_compute. intuition discriminate. Qed.

(** C02 *)
Theorem C02_integer_buffer : forall e t v,
  platform_ok (e_platform e) -> has_int_type (e_platform e) t v ->
  exists f s, Format e (VInt t v) = Ok f /\ canonical_integer s v /\ shows f INTEGER_SIZE s /\
    f_c_str f = Ok s /\ Forall (fun c => c <> NUL) s.
Proof. exact integer_object. Qed.
Print Assumptions C02_integer_buffer.

Example C02_case : has_int_type (e_platform (linux_x86_64 Strict)) ULong 18446744073709551615
  /\ exists f, Format (linux_x86_64 Strict) (VInt ULong 18446744073709551615) = Ok f /\ f_size f = 20
               /\ f_c_str f = Ok (str "18446744073709551615").
Proof. split; [vm_compute; intuition discriminate|]. eexists. split; [vm_compute; reflexivity|]. split; vm_compute; reflexivity. Qed.

(** C03 *)
Theorem C03_integer_round_trip : forall e point t v,
  platform_ok (e_platform e) -> has_int_type (e_platform e) t v ->
  (let* s := lexi e (VInt t v) in extract e point (TInt t) s) = Ok (XInt v) /\
  (let* s := lexi e (VInt t v) in extract_cstr e point (TInt t) s) = Ok (XInt v).
Proof. exact integer_round_trip. Qed.
Print Assumptions C03_integer_round_trip.

Example C03_case : extract (linux_x86_64 Strict) "."%char (TInt I8) (str "-128") = Ok (XInt (-128))
  /\ has_int_type (e_platform (linux_x86_64 Strict)) I8 (-128).
Proof. vm_compute. intuition discriminate. Qed.

(** C04: extraction never fails, and its value is determined by the maximal numeric prefix. *)
Theorem C04_integer_extraction : forall e point t s neg ds,
  platform_ok (e_platform e) -> integer_prefix s neg ds ->
  exists r, extract e point (TInt t) s = Ok (XInt r) /\ has_int_type (e_platform e) t r /\
    congruent (int_bits (e_platform e) t) r
      (if 2 ^ 64 - 1 <? numeral_value ds then 2 ^ 64 - 1
       else if neg then - numeral_value ds else numeral_value ds).
Proof. exact integer_extract. Qed.
Print Assumptions C04_integer_extraction.

(** Every byte string has such a prefix, and only one. *)
Theorem C04_prefix_exists : forall s, exists neg ds, integer_prefix s neg ds.
Proof. exact ProofInt.integer_prefix_exists. Qed.
Print Assumptions C04_prefix_exists.

Theorem C04_prefix_unique : forall s n1 d1 n2 d2,
  integer_prefix s n1 d1 -> integer_prefix s n2 d2 -> n1 = n2 /\ d1 = d2.
Proof. exact integer_prefix_unique. Qed.
Print Assumptions C04_prefix_unique.

Example C04_case : extract (linux_x86_64 Strict) "."%char (TInt Short) (str "  -70000x5") = Ok (XInt (-4464))
  /\ extract (linux_x86_64 Strict) "."%char (TInt Int) (str "--1") = Ok (XInt 0).
Proof. split; vm_compute; reflexivity. Qed.

(** C05 is false: text that is not a number, or denotes a number out of range, gives a
    normal value. *)
Theorem C05_malformed_reported_refuted : exists e point s t v,
  platform_ok (e_platform e) /\ extract e point (TInt t) s = Ok (XInt v) /\
  (forall n, has_int_type (e_platform e) t n -> ~ canonical_integer s n).
Proof.
  exists (linux_x86_64 Strict), "."%char, (str "99999999999999999999"), Int, (-1).
  split; [vm_compute; auto|]. split; [vm_compute; reflexivity|].
  intros n R [[_ (_ & _ & V & _)]|[_ (r & E & _)]]; [|discriminate E].
  vm_compute in V. subst n. destruct R as [_ R]. discriminate R.
Qed.
Print Assumptions C05_malformed_reported_refuted.

(** What holds: a text whose numeric prefix is in range is read exactly; missing is any
    report of the others. *)
Theorem C05_in_range_partial : forall e point t s neg ds,
  platform_ok (e_platform e) -> integer_prefix s neg ds ->
  has_int_type (e_platform e) t (if neg then - numeral_value ds else numeral_value ds) ->
  extract e point (TInt t) s = Ok (XInt (if neg then - numeral_value ds else numeral_value ds)).
Proof. exact integer_in_range. Qed.
Print Assumptions C05_in_range_partial.

(** The number denoted is read exactly if and only if it is in range. *)
Theorem C05_exact_iff : forall e point t s neg ds, platform_ok (e_platform e) -> integer_prefix s neg ds ->
  let z := if neg then - numeral_value ds else numeral_value ds in
  extract e point (TInt t) s = Ok (XInt z) <-> has_int_type (e_platform e) t z.
Proof. exact integer_exact_iff. Qed.
Print Assumptions C05_exact_iff.

Example C05_case : extract (linux_x86_64 Strict) "."%char (TInt UInt) (str "+0042 ") = Ok (XInt 42).
Proof. vm_compute. reflexivity. Qed.

(** C06 *)
Theorem C06_enum_formats : forall e u v,
  platform_ok (e_platform e) -> underlying_has (e_platform e) u v ->
  exists s, lexi e (VEnum u v) = Ok s /\ string_of e (VEnum u v) = Ok s /\
            escape_of e (VEnum u v) = Ok s /\ jsonify_of e (VEnum u v) = Ok s /\ canonical_integer s v.
Proof. exact enum_formats. Qed.
Print Assumptions C06_enum_formats.

Theorem C06_enum_round_trip : forall e point u v,
  platform_ok (e_platform e) -> underlying_has (e_platform e) u v ->
  (let* s := lexi e (VEnum u v) in extract e point (TEnum u) s) = Ok (XEnum v).
Proof. exact enum_round_trip. Qed.
Print Assumptions C06_enum_round_trip.

Example C06_case : lexi (linux_aarch64 Strict) (VEnum EWchar 4294967295) = Ok (str "4294967295")
  /\ underlying_has (e_platform (linux_aarch64 Strict)) EWchar 4294967295
  /\ lexi (linux_x86_64 Strict) (VEnum EChar (-1)) = Ok (str "-1")
  /\ underlying_has (e_platform (linux_x86_64 Strict)) EWchar (-2147483648)
  /\ lexi (linux_x86_64 Strict) (VEnum EWchar (-2147483648)) = Ok (str "-2147483648")
  /\ extract (windows_x64 Strict) "."%char (TEnum EWchar) (str "65537") = Ok (XEnum 1).
Proof. vm_compute. intuition discriminate. Qed.

(** C07 *)
Theorem C07_fpos_formats : forall e off,
  platform_ok (e_platform e) -> - 2 ^ 63 <= off < 2 ^ 63 ->
  exists s, lexi e (VFpos off) = Ok s /\ string_of e (VFpos off) = Ok s /\
            escape_of e (VFpos off) = Ok s /\ jsonify_of e (VFpos off) = Ok s /\ canonical_integer s off.
Proof. exact fpos_formats. Qed.
Print Assumptions C07_fpos_formats.

Theorem C07_fpos_round_trip : forall e point off,
  platform_ok (e_platform e) -> - 2 ^ 63 <= off < 2 ^ 63 ->
  (let* s := lexi e (VFpos off) in extract e point TFpos s) = Ok (XFpos off).
Proof. exact fpos_round_trip. Qed.
Print Assumptions C07_fpos_round_trip.

Example C07_case : lexi (windows_x64 Strict) (VFpos (-1)) = Ok (str "-1").
Proof. vm_compute. reflexivity. Qed.
