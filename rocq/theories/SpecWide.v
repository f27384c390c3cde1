(** The numbers compared in C56. *)
From Coq Require Import Reals.
From Verif Require Import Machine SpecIeee ModelInt ModelIeee ModelFloat ModelLexi.
Open Scope Z_scope.

(** [v] is the number [x], a double: a finite float or double, or an integer up to 2^53. *)
Definition stands_for (e : env) (v : value) (x : R) : Prop :=
  match v with
  | VInt t i => has_int_type (e_platform e) t i /\ Z.abs i <= 2 ^ 53 /\ x = IZR i
  | VFloat u => bits32 u /\ float_finite u /\ x = float_value u
  | VDouble u => bits64 u /\ double_finite u /\ x = double_value u
  | _ => False
  end.

(** [v] is the number [x], of whatever magnitude. *)
Definition number_of (e : env) (v : value) (x : R) : Prop :=
  match v with
  | VInt t i => has_int_type (e_platform e) t i /\ x = IZR i
  | VFloat u => bits32 u /\ float_finite u /\ x = float_value u
  | VDouble u => bits64 u /\ double_finite u /\ x = double_value u
  | _ => False
  end.
