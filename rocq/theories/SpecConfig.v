(** What is known about compilers: which macros they predefine, and what that says about their
    types. *)
From Verif Require Import Machine ModelInt ModelConfig.

(** Windows compilers define _WIN32 (as 1), also where _WIN64 is defined, and have a 32-bit long. *)
Definition for_windows (m : macros) : Prop := m_WIN32 m = Some 1.
(** GCC, Clang and ICC define __GNUC__ as a positive version, and __LP64__ (as 1) exactly where long
    has 64 bits. *)
Definition gnu_compatible (m : macros) : Prop := exists v, m_GNUC m = Some v /\ 0 < v.

(** The macros [m] belong to a compiler with a long of [lb] bits. *)
Definition describes (m : macros) (lb : Z) : Prop :=
  (lb = 32 \/ lb = 64) /\
  (for_windows m -> lb = 32) /\ (~ for_windows m -> m_WIN32 m = None /\ m_WIN64 m = None) /\
  (gnu_compatible m -> (lb = 64 <-> m_LP64 m = Some 1)) /\ (~ gnu_compatible m -> m_GNUC m = None).

(** GNU compilers for Windows define __x86_64__ or __aarch64__ where they define _WIN64, and none of
    the macros of 64-bit systems elsewhere. *)
Definition gnu_windows_ok (m : macros) : Prop :=
  for_windows m -> gnu_compatible m ->
  (m_WIN64 m = Some 1 /\ (m_x86_64 m = Some 1 \/ m_aarch64 m = Some 1)) \/
  (m_WIN64 m = None /\ m_x86_64 m = None /\ m_ppc64 m = None /\ m_amd64 m = None /\ m_M_X64 m = None /\
   m_ia64 m = None /\ m_M_IA64 m = None /\ m_aarch64 m = None /\ m_powerpc64 m = None /\ m_LP64 m = None).

(** Visual C++ for x64; a compiler that says it is GCC of a version, by __GNUC__ and
    __GNUC_MINOR__, not before [major].[minor]; and one that has unsigned __int128 (GCC since 4.6,
    for 64-bit targets, of which the library asks for x86-64). *)
Definition visual_x64 (m : macros) : Prop := m_MSC_VER m <> None /\ m_M_AMD64 m <> None.
Definition gcc_version_from (major minor : Z) (m : macros) : Prop :=
  exists a b, m_GNUC m = Some a /\ (m_GNUC_MINOR m = Some b \/ m_GNUC_MINOR m = None /\ b = 0) /\
    (a > major \/ a = major /\ b >= minor).
Definition has_int128 (m : macros) : Prop := gcc_version_from 4 6 m /\ m_x86_64 m <> None.

(** Compilers in use. *)
(** GCC 6 on x86-64 Linux *)
Definition gcc_linux : macros :=
  Macros None None None None None None None (Some 6) (Some 3) (Some 1) (Some 1) None None None None (Some 1).
(** Clang, which says it is GCC 4.2, on macOS *)
Definition clang_macos : macros :=
  Macros None None None None None None None (Some 4) (Some 2) (Some 1) (Some 1) None None None None (Some 1).
(** GCC on 32-bit ARM *)
Definition gcc_arm : macros :=
  Macros None None None None None None None (Some 6) (Some 3) None None None None None None None.
(** GCC on AArch64 *)
Definition gcc_aarch64 : macros :=
  Macros None None None None None None None (Some 6) (Some 3) None None None None None (Some 1) (Some 1).
(** Visual C++ 2017 for x64 *)
Definition msvc_x64 : macros :=
  Macros None (Some 1) (Some 1) (Some 1910) (Some 100) (Some 100) None None None None None None None None None None.
(** MinGW-w64 *)
Definition mingw_x64 : macros :=
  Macros None (Some 1) (Some 1) None None None None (Some 6) (Some 3) (Some 1) (Some 1) None None None None None.
(** A 64-bit Unix compiler of another family, such as IBM XL on AIX: no __GNUC__ *)
Definition xlc_aix : macros :=
  Macros None None None None None None None None None None None None (Some 1) None None (Some 1).
(** GCC 2.95 on 32-bit x86 *)
Definition gcc_old : macros :=
  Macros None None None None None None None (Some 2) (Some 95) None None None None None None None.

(** A macro that counts as true in an #if; the macros of 64-bit systems that architecture.hpp asks for. *)
Definition true_macro (M : option Z) : Prop := exists v, M = Some v /\ v <> 0.
Definition sixty_four (m : macros) : Prop :=
  Exists true_macro [m_x86_64 m; m_ppc64 m; m_amd64 m; m_LP64 m; m_M_X64 m; m_ia64 m; m_M_IA64 m; m_aarch64 m; m_powerpc64 m].
Definition windows_macro (m : macros) : Prop := true_macro (m_WIN32 m) \/ true_macro (m_WIN64 m).
