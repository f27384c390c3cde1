(** Property C71: conditional compilation; and C35 for every function and type. *)
From Verif Require Import Machine SpecApi SpecDecimal SpecInt SpecMore SpecConfig ModelItoa ModelInt ModelText ModelIeee ModelDiyfp ModelDtoa
  ModelFloat ModelLexi ModelPlatforms ModelConfig ProofConfig.

(** C71: Windows compilers and those that define __GNUC__ print integers of every type. *)
Theorem C71_supported : forall m e lb cs ws wb t v, e_platform e = compiled_platform m lb cs ws wb -> describes m lb ->
  for_windows m \/ gnu_compatible m -> wb = 16 \/ wb = 32 -> has_int_type (e_platform e) t v ->
  exists s, lexi e (VInt t v) = Ok s /\ canonical_integer s v.
Proof. exact long_prints. Qed.
Print Assumptions C71_supported.

(** Other compilers with a 64-bit long: the 32-bit routine is compiled. *)
Theorem C71_every_compiler_refuted : exists m e lb cs ws wb v, e_platform e = compiled_platform m lb cs ws wb /\ describes m lb /\
  (wb = 16 \/ wb = 32) /\ has_int_type (e_platform e) Long v /\ exists s, lexi e (VInt Long v) = Ok s /\ ~ canonical_integer s v.
Proof.
  exists xlc_aix, (Env (compiled_platform xlc_aix 64 false false 32) (e_float (linux_aarch64 Strict))), 64, false, false, 32, (2 ^ 32).
  split; [reflexivity|]. split; [exact xlc_described|]. split; [right; reflexivity|].
  split; [vm_compute; intuition discriminate|].
  exists (str "0"). split; [vm_compute; reflexivity|].
  intros H. discriminate (canonical_number_unique _ _ _ H zero_canonical).
Qed.
Print Assumptions C71_every_compiler_refuted.

(** Exactly which choices of the macros print every long. *)
Theorem C71_exact : forall m e lb cs ws wb, e_platform e = compiled_platform m lb cs ws wb -> lb = 32 \/ lb = 64 -> wb = 16 \/ wb = 32 ->
  ((forall v, has_int_type (e_platform e) Long v -> exists s, lexi e (VInt Long v) = Ok s /\ canonical_integer s v) <->
   lb = 32 \/ (m_WIN32 m = None /\ SYSTEM_ARCHITECTURE m = Some 64)).
Proof. exact long_exact. Qed.
Print Assumptions C71_exact.

(** What is printed with the 32-bit routines: the number modulo 2^32. *)
Theorem C71_cut : forall e (sg : bool) v, sys64 (e_platform e) = false ->
  exists s z, lexi e (VInt (if sg then Long else ULong) v) = Ok s /\ canonical_integer s z /\ congruent 32 z v /\
    if sg then - 2 ^ 31 <= z < 2 ^ 31 else 0 <= z < 2 ^ 32.
Proof. exact long_cut. Qed.
Print Assumptions C71_cut.

(** SYSTEM_ARCHITECTURE is not defined twice with different values, and is never 16. *)
Theorem C71_legal : forall m lb, describes m lb -> gnu_windows_ok m -> architecture_legal m = true.
Proof. exact architecture_once. Qed.
Print Assumptions C71_legal.

Theorem C71_values : forall m a, SYSTEM_ARCHITECTURE m = Some a -> a = 32 \/ a = 64.
Proof. exact architecture_values. Qed.
Print Assumptions C71_values.

(** What architecture.hpp defines for which macros, and when it defines it twice. *)
Theorem C71_architecture : forall m,
  (SYSTEM_ARCHITECTURE m = None <-> ~ windows_macro m /\ ~ true_macro (m_GNUC m)) /\
  (SYSTEM_ARCHITECTURE m = Some 64 <-> true_macro (m_WIN64 m) \/ (~ windows_macro m /\ true_macro (m_GNUC m) /\ sixty_four m)) /\
  (architecture_legal m = true <-> (windows_macro m -> true_macro (m_GNUC m) -> (true_macro (m_WIN64 m) <-> sixty_four m))).
Proof. exact architecture_exact. Qed.
Print Assumptions C71_architecture.

(** The compilers of SpecConfig and the branches they get: Clang has __int128 but takes the
    portable multiplication, since it says it is GCC 4.2. *)
Example C71_case : map long_is_64 [gcc_linux; clang_macos; gcc_arm; gcc_aarch64; msvc_x64; mingw_x64; xlc_aix] =
    [true; true; false; true; false; false; false] /\
  map mul_branch [gcc_linux; clang_macos; gcc_arm; gcc_aarch64; msvc_x64; mingw_x64; xlc_aix] =
    [GNUC64; Generic; Generic; Generic; MSVC64; GNUC64; Generic] /\
  map norm_branch [gcc_linux; clang_macos; gcc_arm; gcc_aarch64; msvc_x64; mingw_x64; xlc_aix] =
    [GNUC64; GNUC64; GNUC64; GNUC64; MSVC64; GNUC64; Generic] /\
  map unreachable_branch [gcc_linux; clang_macos; msvc_x64] = [BuiltinUnreachable; AssignZero; Assume0] /\
  describes gcc_linux 64 /\ describes clang_macos 64 /\ describes gcc_arm 32 /\ describes gcc_aarch64 64 /\
  describes msvc_x64 32 /\ describes mingw_x64 32 /\ gnu_windows_ok mingw_x64.
Proof. exact compilers_described. Qed.

(** Which compilers get which branch: the one with unsigned __int128 goes only to compilers that
    have it, the intrinsics of Visual C++ only to it, and the builtins of GCC only to compilers that
    say they are GCC. *)
Theorem C71_branches : forall m,
  ((mul_branch m = MSVC64 <-> visual_x64 m) /\ (mul_branch m = GNUC64 <-> ~ visual_x64 m /\ has_int128 m)) /\
  ((mulAdd_branch m = MSVC64 <-> visual_x64 m) /\ (mulAdd_branch m = GNUC64 <-> ~ visual_x64 m /\ has_int128 m)) /\
  ((norm_branch m = MSVC64 <-> visual_x64 m) /\ (norm_branch m = GNUC64 <-> ~ visual_x64 m /\ m_GNUC m <> None)) /\
  ((boundary_branch m = MSVC64 <-> visual_x64 m) /\ boundary_branch m <> GNUC64) /\
  ((unreachable_branch m = Assume0 <-> m_MSC_VER m <> None) /\
   (unreachable_branch m = BuiltinUnreachable <-> m_MSC_VER m = None /\ gcc_version_from 4 5 m)).
Proof. exact branches_exact. Qed.
Print Assumptions C71_branches.

Example C71_branches_case : map mulAdd_branch [gcc_linux; clang_macos; msvc_x64; gcc_old] = [GNUC64; Generic; MSVC64; Generic] /\
  unreachable_branch gcc_old = AssignZero.
Proof. split; reflexivity. Qed.

(** C35: whatever the compiler, each of the four functions gives the same for each value. *)
Theorem C35_every_function : forall e1 e2 v, platform_ok (e_platform e1) -> platform_ok (e_platform e2) ->
  nan_ok (e_float e1) -> nan_ok (e_float e2) -> e_lit e1 = e_lit e2 ->
  tc_policy (fe_tc (e_float e1)) = tc_policy (fe_tc (e_float e2)) -> argument_ok e1 v -> argument_ok e2 v ->
  lexi e1 v = lexi e2 v /\ string_of e1 v = string_of e2 v /\ escape_of e1 v = escape_of e2 v /\
  jsonify_of e1 v = jsonify_of e2 v.
Proof. exact same_results. Qed.
Print Assumptions C35_every_function.

(** Integers of the same width and stream positions are read alike. *)
Theorem C35_integers_read : forall e1 e2 p1 p2 t s, platform_ok (e_platform e1) -> platform_ok (e_platform e2) ->
  int_bits (e_platform e1) t = int_bits (e_platform e2) t -> extract e1 p1 (TInt t) s = extract e2 p2 (TInt t) s.
Proof. exact integer_same. Qed.
Print Assumptions C35_integers_read.

Theorem C35_positions_read : forall e1 e2 p1 p2 s, platform_ok (e_platform e1) -> platform_ok (e_platform e2) ->
  extract e1 p1 TFpos s = extract e2 p2 TFpos s.
Proof. exact fpos_same. Qed.
Print Assumptions C35_positions_read.

Example C35_functions_case : escape_of (linux_aarch64 Strict) (VChar (chr 200)) = Ok [chr 200] /\
  escape_of (linux_x86_64 Strict) (VChar (chr 200)) = Ok [chr 200] /\
  extract (windows_x64 Strict) "."%char TFpos (str "-4294967297") = Ok (XFpos (-4294967297)) /\
  extract (linux_x86_64 Strict) "."%char TFpos (str "-4294967297") = Ok (XFpos (-4294967297)).
Proof. repeat split; vm_compute; reflexivity. Qed.
