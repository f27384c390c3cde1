(** src/detail/strtod.cpp where the program has changed the rounding direction, and where the
    expressions are evaluated in a wider format than double (FLT_EVAL_METHOD 2, the x87 unit, C17
    5.2.4.2.2): ModelStrtod is the same for FLT_EVAL_METHOD 0 to nearest.  The literals are rounded by
    the compiler. *)
From Coq Require Import Floats.SpecFloat.
From Verif Require Import Machine ModelFloat ModelDirected ModelStrtod.

Record evaluation := Evaluation { ev_direction : direction; ev_format : ld_format }.

(** The standard library's [SFmul] and [SFdiv], which round to nearest, in a direction. *)
Definition d_mul (d : direction) (prec emax : Z) (x y : spec_float) : spec_float :=
  match x, y with
  | S754_nan, _ | _, S754_nan => S754_nan
  | S754_infinity _, S754_zero _ | S754_zero _, S754_infinity _ => S754_nan
  | S754_infinity a, S754_infinity b | S754_infinity a, S754_finite b _ _ | S754_finite a _ _, S754_infinity b => S754_infinity (xorb a b)
  | S754_zero a, S754_zero b | S754_zero a, S754_finite b _ _ | S754_finite a _ _, S754_zero b => S754_zero (xorb a b)
  | S754_finite a m e, S754_finite b n f => d_round_aux d prec emax (xorb a b) (Zpos (m * n)) (e + f) loc_Exact
  end.
Definition d_div (d : direction) (prec emax : Z) (x y : spec_float) : spec_float :=
  match x, y with
  | S754_nan, _ | _, S754_nan => S754_nan
  | S754_infinity _, S754_infinity _ | S754_zero _, S754_zero _ => S754_nan
  | S754_infinity a, S754_zero b | S754_infinity a, S754_finite b _ _ | S754_finite a _ _, S754_zero b => S754_infinity (xorb a b)
  | S754_zero a, S754_infinity b | S754_zero a, S754_finite b _ _ | S754_finite a _ _, S754_infinity b => S754_zero (xorb a b)
  | S754_finite a m e, S754_finite b n f =>
      let '(m, e, l) := SFdiv_core_binary prec emax (Zpos m) e (Zpos n) f in d_round_aux d prec emax (xorb a b) m e l
  end.

Section Evaluation.
Context (ev : evaluation).

(** Operands are converted to the format of the evaluation; assignment to a double and the return
    of one convert back (C17 5.2.4.2.2, 6.8.6.4). *)
Definition widened (a : spec_float) : spec_float := d_convert (ev_direction ev) (ld_prec (ev_format ev)) (ld_emax (ev_format ev)) a.
Definition to_double (a : spec_float) : spec_float := d_convert (ev_direction ev) 53 1024 a.
Definition e_mul (a b : spec_float) : spec_float :=
  d_mul (ev_direction ev) (ld_prec (ev_format ev)) (ld_emax (ev_format ev)) (widened a) (widened b).
Definition e_div (a b : spec_float) : spec_float :=
  d_div (ev_direction ev) (ld_prec (ev_format ev)) (ld_emax (ev_format ev)) (widened a) (widened b).

(** strtod.cpp:26-36 *)
Definition e_fastPath (significand : spec_float) (exp : Z) : outcome spec_float :=
  if exp <? -308 then Ok (S754_zero false)
  else if 0 <=? exp then let* q := pow10 exp in Ok (to_double (e_mul significand q))
  else let* q := pow10 (- exp) in Ok (to_double (e_div significand q)).

(** strtod.cpp:41-52 *)
Definition e_StrtodNormalPrecision (d : spec_float) (p : Z) : outcome spec_float :=
  if p <? -308 then
    let* d := e_fastPath d (-308) in
    e_fastPath d (p + 308)
  else e_fastPath d p.

(** strtod.cpp:138-152 *)
Definition e_fast (d : spec_float) (p : Z) : outcome (option spec_float) :=
  let* (d, p) :=
    if (22 <? p) && (p <? 22 + 16) then let* q := pow10 (p - 22) in Ok (to_double (e_mul d q), 22)
    else Ok (d, p) in
  if (-22 <=? p) && (p <=? 22) && dle d max_significand then
    let* r := e_fastPath d p in Ok (Some r)
  else Ok None.

End Evaluation.
