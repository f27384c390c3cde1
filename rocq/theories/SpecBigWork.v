(** Independent statements about how much work the operations on BigIntegers are: what a run
    leaves behind when every turn of a loop is written down. *)
From Coq Require Import List ZArith.
Import ListNotations.
Open Scope Z_scope.

(** The loops of bigint.cpp by what a turn does: read a character, treat a 64-bit word, multiply by
    a large power of five, read a group of 19 characters. *)
Inductive work := Char | Word | Power | Group.

Definition work_eqb (a b : work) : bool :=
  match a, b with
  | Char, Char | Word, Word | Power, Power | Group, Group => true
  | _, _ => false
  end.

(** How many turns of a kind a run took. *)
Fixpoint taken (a : work) (t : list work) : Z :=
  match t with
  | [] => 0
  | b :: t => (if work_eqb a b then 1 else 0) + taken a t
  end.

(** The number of groups of up to 19 characters. *)
Definition groups (length : Z) : Z := (length + 18) / 19.
