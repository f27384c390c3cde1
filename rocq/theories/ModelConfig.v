(** Model of the conditional compilation: include/lexi/detail/architecture.hpp and the #if
    directives in src/int.cpp, src/detail/diyfp.cpp, dtoa.cpp and bigint.cpp. *)
From Verif Require Import Machine ModelInt ModelDiyfp.

(** The macros the directives ask for, as the compiler predefines them: undefined, or
    defined as an integer. *)
Record macros := Macros {
  m_WIN16 : option Z; m_WIN32 : option Z; m_WIN64 : option Z;
  m_MSC_VER : option Z; m_M_AMD64 : option Z; m_M_X64 : option Z; m_M_IA64 : option Z;
  m_GNUC : option Z; m_GNUC_MINOR : option Z;
  m_x86_64 : option Z; m_amd64 : option Z; m_ppc64 : option Z; m_powerpc64 : option Z;
  m_ia64 : option Z; m_aarch64 : option Z; m_LP64 : option Z
}.

(** [defined(M)], and [M] in the expression of an #if: an undefined name counts as 0
    ([cpp.cond]). *)
Definition is_defined (M : option Z) : bool := match M with Some _ => true | None => false end.
Definition macro_value (M : option Z) : Z := match M with Some v => v | None => 0 end.
Definition holds (M : option Z) : bool := negb (macro_value M =? 0).

(** architecture.hpp:17-25, then 30-36: the values given to SYSTEM_ARCHITECTURE by #define
    directives, in order. *)
Definition windows_architecture (m : macros) : list Z :=
  if holds (m_WIN32 m) || holds (m_WIN64 m) then
    if holds (m_WIN64 m) then [64]
    else if holds (m_WIN32 m) then [32]
    else if holds (m_WIN16 m) then [16]
    else []
  else [].
Definition gnu_architecture (m : macros) : list Z :=
  if holds (m_GNUC m) then
    if holds (m_x86_64 m) || holds (m_ppc64 m) || holds (m_amd64 m) || holds (m_LP64 m) || holds (m_M_X64 m) ||
       holds (m_ia64 m) || holds (m_M_IA64 m) || holds (m_aarch64 m) || holds (m_powerpc64 m)
    then [64] else [32]
  else [].
Definition architecture_definitions (m : macros) : list Z := windows_architecture m ++ gnu_architecture m.

(** A macro may be defined again only with the same replacement ([cpp.replace]). *)
Definition architecture_legal (m : macros) : bool :=
  match architecture_definitions m with a :: b :: _ => a =? b | _ => true end.
Definition SYSTEM_ARCHITECTURE (m : macros) : option Z :=
  match architecture_definitions m with a :: _ => Some a | [] => None end.

(** src/int.cpp:71 and 86 *)
Definition long_is_64 (m : macros) : bool :=
  negb (is_defined (m_WIN32 m)) && (macro_value (SYSTEM_ARCHITECTURE m) =? 64).

(** diyfp.cpp:37, 93 and bigint.cpp:12, 51 *)
Definition msvc_amd64 (m : macros) : bool := is_defined (m_MSC_VER m) && is_defined (m_M_AMD64 m).
(** [__GNUC__ > 4 || (__GNUC__ == 4 && __GNUC_MINOR__ >= minor)] *)
Definition gnuc_since_4 (m : macros) (minor : Z) : bool :=
  (4 <? macro_value (m_GNUC m)) || ((macro_value (m_GNUC m) =? 4) && (minor <=? macro_value (m_GNUC_MINOR m))).

(** diyfp.cpp:37-89 *)
Definition mul_branch (m : macros) : compiler :=
  if msvc_amd64 m then MSVC64 else if gnuc_since_4 m 6 && is_defined (m_x86_64 m) then GNUC64 else Generic.
(** diyfp.cpp:93-129 *)
Definition norm_branch (m : macros) : compiler :=
  if msvc_amd64 m then MSVC64 else if is_defined (m_GNUC m) then GNUC64 else Generic.
(** diyfp.cpp:133-160 *)
Definition boundary_branch (m : macros) : compiler := if msvc_amd64 m then MSVC64 else Generic.
(** bigint.cpp:51-109 *)
Definition mulAdd_branch (m : macros) : compiler :=
  if msvc_amd64 m then MSVC64 else if gnuc_since_4 m 6 && is_defined (m_x86_64 m) then GNUC64 else Generic.

(** dtoa.cpp:140-146: what LEXI_UNREACHABLE(d) does. *)
Inductive unreachable := Assume0 | BuiltinUnreachable | AssignZero.
Definition unreachable_branch (m : macros) : unreachable :=
  if is_defined (m_MSC_VER m) then Assume0 else if gnuc_since_4 m 5 then BuiltinUnreachable else AssignZero.

(** A platform whose choice in int.cpp is the one the directives make. *)
Definition compiled_platform (m : macros) (lb : Z) (cs ws : bool) (wb : Z) : platform :=
  Platform lb (long_is_64 m) cs ws wb.
