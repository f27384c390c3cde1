(** Property C99: formatting a floating point number takes few turns of the loops. *)
From Coq Require Import Reals.
From Verif Require Import Machine SpecApi SpecIeee SpecWork ModelInt ModelItoa ModelText ModelIeee ModelDiyfp ModelDtoa ModelFloat ModelLexi ModelPlatforms
  ModelWork ProofWork.
Open Scope Z_scope.

(** Keeping the record changes nothing: the run gives what the formatter gives. *)
Theorem C99_same : forall env u, result (w_format_bits env u) = format_bits env u.
Proof. exact format_same. Qed.
Print Assumptions C99_same.

(** Whatever the double, the compiler and the memory after the table: at most 104 shifts by
    one bit, 17 digits, 9 corrections of the last digit and 20 zeros. *)
Theorem C99_few : forall env u o t, bits64 u -> w_format_bits env u = Ok (o, t) -> few_turns t.
Proof. exact work_few. Qed.
Print Assumptions C99_few.

(** The shifts are as many as the number is below the normal numbers, once for every loop
    the build has; normal numbers take none. *)
Theorem C99_shifts : forall env u o t n, bits64 u -> w_format_bits env u = Ok (o, t) ->
  double_finite u -> double_value u <> 0%R -> bits_below u n -> times Shift t = shifting_loops (fe_tc env) * n.
Proof. exact work_shifts. Qed.
Print Assumptions C99_shifts.

Theorem C99_below : forall u, bits64 u -> double_finite u -> double_value u <> 0%R -> exists n, bits_below u n.
Proof. exact below_exists. Qed.
Print Assumptions C99_below.

(** Zeros, infinities and NaNs take no turn at all, and they are the only ones. *)
Theorem C99_none : forall env u o t, bits64 u -> w_format_bits env u = Ok (o, t) ->
  (times Digit t = 0 <-> ~ (double_finite u /\ double_value u <> 0%R)) /\ (times Digit t = 0 -> t = []).
Proof. exact work_digits. Qed.
Print Assumptions C99_none.

(** The turns of a run, in the order shift, digit, round, zero. *)
Definition turns_of (e : env) (u : Z) : outcome (Z * Z * Z * Z) :=
  let* (_, t) := w_format_bits (e_float e) u in Ok (times Shift t, times Digit t, times Round t, times Zero t).

(** The smallest double (a build with both loops, one, and none), 10^20, 0.1 + 0.2, a number
    whose last digit is corrected four times because of the memory after the table, and
    infinity. *)
Example C99_case :
  turns_of (Env (Platform 64 true true true 32) (FloatEnv LD80 0x7FF8000000000000 (Toolchain Generic Generic Generic EvalDouble true Strict) default_literals)) 1
    = Ok (104, 1, 2, 0) /\
  turns_of (linux_x86_64 Strict) 1 = Ok (52, 1, 2, 0) /\
  turns_of (windows_x64 Strict) 1 = Ok (0, 1, 2, 0) /\
  turns_of (linux_x86_64 Strict) 0x4415AF1D78B58C40 = Ok (0, 1, 0, 20) /\
  turns_of (linux_x86_64 zero_memory) 0x3FD3333333333334 = Ok (0, 17, 0, 0) /\
  turns_of (linux_x86_64 (Lenient (fun _ => 2 ^ 32 - 1))) 0x31FFE4504D24A616 = Ok (0, 17, 4, 0) /\
  turns_of (linux_x86_64 Strict) 0x7FF0000000000000 = Ok (0, 0, 0, 0).
Proof. repeat (split; [vm_compute; reflexivity|]). vm_compute. reflexivity. Qed.
