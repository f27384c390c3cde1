(** Further theorems for C23 and C65: exactly which doubles make the digit generator read outside
    of the table POWER10, and how close the others are printed. *)
From Coq Require Import Reals.
From Flocq Require Import Core.
From Verif Require Import Machine SpecApi SpecNumber SpecIeee SpecOverrun ModelIeee ModelDiyfp ModelDtoa ModelFloat ModelLexi ModelPlatforms
  ProofFloat ProofOverrun.
Open Scope Z_scope.

(** [s] is what is printed when the read has no consequences.  With the scale [g] of the number,
    the read stays inside exactly when the last digit printed has a place of at least
    - g - 9.  For large numbers (g < -4), zeros before the decimal point do not count. *)
Theorem C23_exact : forall e oracle u s n g, tc_policy (fe_tc (e_float e)) = Strict -> bits64 u -> double_finite u ->
  double_value u <> 0%R ->
  lexi (with_policy e (Lenient oracle)) (VDouble u) = Ok s -> json_number s n -> decimal_scale (Rabs (double_value u)) g ->
  (- g - 9 <= n_scale n -> lexi e (VDouble u) = Ok s) /\
  (-4 <= g -> n_scale n < - g - 9 -> lexi e (VDouble u) = overrun) /\
  (forall N P, n_magnitude n = (IZR N * bpow radix10 P)%R -> N mod 10 <> 0 -> P < - g - 9 -> lexi e (VDouble u) = overrun).
Proof. exact overrun_exact. Qed.
Print Assumptions C23_exact.

(** Every double has one scale. *)
Theorem C23_scale_exists : forall u, bits64 u -> double_finite u -> double_value u <> 0%R ->
  exists g, decimal_scale (Rabs (double_value u)) g.
Proof. exact scale_exists. Qed.
Print Assumptions C23_scale_exists.

Theorem C23_scale_unique : forall x g g', decimal_scale x g -> decimal_scale x g' -> g = g'.
Proof. exact scale_unique. Qed.
Print Assumptions C23_scale_unique.

(** Between 2^-11 and 2^16 that means: exactly the numbers printed with more than 13 decimals. *)
Theorem C23_thirteen_decimals : forall e oracle u s n, tc_policy (fe_tc (e_float e)) = Strict -> bits64 u -> double_finite u ->
  (bpow radix2 (-11) <= Rabs (double_value u) < bpow radix2 16)%R ->
  lexi (with_policy e (Lenient oracle)) (VDouble u) = Ok s -> json_number s n ->
  lexi e (VDouble u) = if n_scale n <? -13 then overrun else Ok s.
Proof. exact everyday_overrun. Qed.
Print Assumptions C23_thirteen_decimals.

Example C23_decimals_case :
  lexi (linux_x86_64 zero_memory) (VDouble 0x400921FB54442D11) = Ok (str "3.14159265358979") /\
  lexi (linux_x86_64 Strict) (VDouble 0x400921FB54442D11) = overrun /\
  lexi (linux_x86_64 Strict) (VDouble 0x400921FB54442C46) = Ok (str "3.1415926535897").
Proof. vm_compute. repeat split. Qed.

(** C65: whatever lies behind the table, a number whose last place is at least - g - 9 is printed
    as close as in C65_closest. *)
Theorem C65_inside : forall e u s n g N K D, bits64 u -> double_finite u -> double_value u <> 0%R ->
  lexi e (VDouble u) = Ok s -> json_number s n ->
  decimal_scale (Rabs (double_value u)) g -> - g - 9 <= n_scale n ->
  n_magnitude n = (IZR N * bpow radix10 K)%R -> N mod 10 <> 0 ->
  let x := Rabs (double_value u) in let margin := (ulp radix2 (binary_format 53 1024) x / 500)%R in
  (lower_end x + margin <= IZR D * bpow radix10 K <= upper_end x - margin)%R ->
  (Rabs (n_magnitude n - x) <= Rabs (IZR D * bpow radix10 K - x) + margin)%R.
Proof. exact closest_inside. Qed.
Print Assumptions C65_inside.

(** 15 digits and 10 decimals, in memory of zeros. *)
Example C65_inside_case :
  lexi (linux_x86_64 zero_memory) (VDouble 0x40C81CD6E63C53B2) = Ok (str "12345.6789012345") /\
  lexi (linux_x86_64 Strict) (VDouble 0x40C81CD6E63C53B2) = Ok (str "12345.6789012345").
Proof. vm_compute. repeat split. Qed.
