(** Concrete environments, used as instances in the examples beside the theorems. *)
From Verif Require Import Machine ModelItoa ModelInt ModelString ModelText ModelIeee ModelDiyfp
  ModelDtoa ModelFloat ModelLexi.

(** x86-64 Linux with GCC or Clang: LP64, signed char, 32-bit signed wchar_t, x87 long
    double; the word read after the table POWER10 is given by [oracle]. *)
Definition linux_x86_64 (pol : policy) : env :=
  Env (Platform 64 true true true 32)
      (FloatEnv LD80 0x7FF8000000000000
         (Toolchain GNUC64 GNUC64 GNUC64 EvalDouble true pol) default_literals).

(** 64-bit Windows with MSVC: LLP64, signed char, 16-bit unsigned wchar_t. *)
Definition windows_x64 (pol : policy) : env :=
  Env (Platform 32 false true false 16)
      (FloatEnv LD64 0x7FF8000000000000
         (Toolchain MSVC64 MSVC64 MSVC64 EvalDouble true pol) default_literals).

(** AArch64 Linux: LP64, unsigned char, 32-bit unsigned wchar_t, binary128 long double,
    fused multiply-add. *)
Definition linux_aarch64 (pol : policy) : env :=
  Env (Platform 64 true false false 32)
      (FloatEnv LD128 0x7FF8000000000000
         (Toolchain Generic GNUC64 Generic EvalFused false pol) default_literals).

(** The memory after the table, as an example. *)
Definition zero_memory : policy := Lenient (fun _ => 0).
