(** Independent specification of subnormal numbers, and what flushing does with them. *)
From Coq Require Import Reals.
From Flocq Require Import Core.
From Verif Require Import Machine SpecIeee.
Open Scope Z_scope.

(** The numbers of a format that are smaller than its smallest normal number, [2^(2-emax)]: 2^-1022
    for binary64 and 2^-126 for binary32. *)
Definition subnormal (emax : Z) (v : R) : Prop := (0 < Rabs v < bpow radix2 (2 - emax))%R.
