(** Independent statements about reading long decimals. *)
From Coq Require Import ZArith Reals.
From Flocq Require Import Core.
From Verif Require Import Machine SpecNumber SpecRead.
Open Scope Z_scope.

(** [D] is a number of at most [k] digits followed by zeros. *)
Definition few_digits (k D : Z) : Prop := exists N j, 0 <= j /\ 0 <= N < 10 ^ k /\ D = N * 10 ^ j.

Definition short (k : Z) (v : denoted) : Prop := match v with DDecimal _ D _ => few_digits k D | _ => True end.

(** [v'] is [v], or a decimal of [k] digits next to it if [v] has more. *)
Definition next_to (k : Z) (v v' : denoted) : Prop :=
  (short k v /\ v' = v) \/
  (~ short k v /\ exists neg D K L D' K', v = DDecimal neg D K /\ v' = DDecimal neg D' K' /\
     10 ^ (k - 1) <= L < 10 ^ k /\
     (IZR L * bpow radix10 K' < IZR D * bpow radix10 K < IZR (L + 1) * bpow radix10 K')%R /\ (D' = L \/ D' = L + 1)).
