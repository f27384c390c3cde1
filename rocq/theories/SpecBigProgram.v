(** Programs of BigInteger operations on one number, and what they compute. *)
From Verif Require Import Machine SpecBig ModelDiyfp ModelBigint.
Open Scope Z_scope.

Inductive big_op :=
| OAdd (d : Z) | OMul (d : Z) | OMul32 (d : Z) | OPow5 (e : Z) | OShift (s : Z) | OAssign (d : Z).

(** The arguments are of their types; shifts are by less than a word (see C43 for others). *)
Definition op_ok (o : big_op) : Prop :=
  match o with
  | OAdd d | OMul d | OAssign d => 0 <= d < 2 ^ 64
  | OMul32 d => 0 <= d < 2 ^ 32
  | OPow5 e => 0 <= e < 2 ^ 32
  | OShift s => 0 <= s < 64
  end.

(** The operation on numbers. *)
Definition op_value (o : big_op) (n : Z) : Z :=
  match o with
  | OAdd d => n + d
  | OMul d | OMul32 d => n * d
  | OPow5 e => n * 5 ^ e
  | OShift s => n * 2 ^ s
  | OAssign d => d
  end.

(** The numbers a program goes through stay below [lim]; [m] is the last. *)
Fixpoint computes (lim : Z) (ops : list big_op) (n m : Z) : Prop :=
  match ops with
  | [] => m = n
  | o :: r => op_value o n < lim /\ computes lim r (op_value o n) m
  end.

(** The operations as the class performs them. *)
Definition perform (cc : compiler) (o : big_op) (b : BigInteger) : outcome BigInteger :=
  match o with
  | OAdd d => add_word b d
  | OMul d => mul_word cc b d
  | OMul32 d => mul_word32 b d
  | OPow5 e => mulPow5 cc b e
  | OShift s => shift_left b s
  | OAssign d => assign_word b d
  end.
Fixpoint perform_all (cc : compiler) (ops : list big_op) (b : BigInteger) : outcome BigInteger :=
  match ops with
  | [] => Ok b
  | o :: r => let* b := perform cc o b in perform_all cc r b
  end.
