(** Property C77: the formatting of doubles does not depend on the rounding direction or the
    precision in which the processor computes. *)
From Coq Require Import Reals Floats.SpecFloat.
From Flocq Require Import Core IEEE754.BinarySingleNaN.
From Verif Require Import Machine SpecIeee SpecRounding ModelIeee ModelDiyfp ModelDtoa ModelRounding ModelPlatforms ProofRounding.
Open Scope Z_scope.

(** C77: whatever neighbours of the exact results the operations of the one floating point
    expression give, in whatever precision not below double, the text is the same, ... *)
Theorem C77_any_evaluation : forall tc dk u c, bits64 u -> double_finite u ->
  (forall e, -1137 <= e <= 960 -> value_of_expression e (dk e)) -> r_dtoa tc dk u c = dtoa tc u c.
Proof. exact r_dtoa_same. Qed.
Print Assumptions C77_any_evaluation.

(** ... in particular in each rounding direction of IEEE 754, ... *)
Theorem C77_directions : forall tc m u c, bits64 u -> double_finite u ->
  r_dtoa tc (ieee_expression m) u c = dtoa tc u c.
Proof. exact r_dtoa_modes. Qed.
Print Assumptions C77_directions.

(** ... where the program of ModelDtoa is the same with the evaluation of the tool chain. *)
Theorem C77_model : forall tc u c, r_dtoa tc (cached_dk (tc_eval tc)) u c = dtoa tc u c.
Proof. exact r_dtoa_model. Qed.
Print Assumptions C77_model.

(** The directions do give different values; the index tolerates it, but not an error of one. *)
Example C77_case :
  ieee_expression mode_UP (-1137) = S754_finite false 5901371599210904 (-43) /\
  ieee_expression mode_DN (-1137) = S754_finite false 5901371599210903 (-43) /\
  r_getCachedPower (S754_finite false 5901371599210904 (-43)) = getCachedPower EvalDouble (-1137) /\
  r_getCachedPower (S754_finite false 5901371599210903 (-43)) = getCachedPower EvalDouble (-1137) /\
  r_getCachedPower (S754_finite false 5906576464412672 (-43)) <> getCachedPower EvalDouble (-1137).
Proof. vm_compute. repeat split; congruence. Qed.
