(** What it means to be rounded in a direction: the greatest value of the type not above the number,
    or the least not below it, where the infinities are values. *)
From Coq Require Import Reals Floats.SpecFloat.
From Flocq Require Import Core IEEE754.BinarySingleNaN.
From Verif Require Import Machine SpecIeee SpecRead SpecMore ModelDirected.
Open Scope Z_scope.

(** A value of the type compared with a real number. *)
Definition not_above (z : spec_float) (x : R) : Prop :=
  match z with S754_nan => False | S754_infinity s => s = true | _ => (SF2R radix2 z <= x)%R end.
Definition not_below (z : spec_float) (x : R) : Prop :=
  match z with S754_nan => False | S754_infinity s => s = false | _ => (x <= SF2R radix2 z)%R end.

Definition greatest_below (p q : Z) (z : spec_float) (x : R) : Prop :=
  valid_binary p q z = true /\ not_above z x /\ forall y, valid_binary p q y = true -> not_above y x -> at_most y z.
Definition least_above (p q : Z) (z : spec_float) (x : R) : Prop :=
  valid_binary p q z = true /\ not_below z x /\ forall y, valid_binary p q y = true -> not_below y x -> at_most z y.

(** [z] is [x] rounded in the direction [d] (other than to nearest). *)
Definition directed (d : direction) (p q : Z) (z : spec_float) (x : R) : Prop :=
  match d with
  | ToNearest => False
  | Downward => greatest_below p q z x
  | Upward => least_above p q z x
  | TowardZero => ((0 <= x)%R -> greatest_below p q z x) /\ ((x <= 0)%R -> least_above p q z x)
  end.

(** The sign a text has. *)
Definition negative (v : denoted) : bool :=
  match v with DDecimal neg _ _ | DHex neg _ _ | DInfinity neg => neg | _ => false end.

(** [z] is the greatest value of the type less than [x], the least greater than [x]. *)
Definition less (z : spec_float) (x : R) : Prop :=
  match z with S754_nan => False | S754_infinity s => s = true | _ => (SF2R radix2 z < x)%R end.
Definition greater (z : spec_float) (x : R) : Prop :=
  match z with S754_nan => False | S754_infinity s => s = false | _ => (x < SF2R radix2 z)%R end.
Definition just_below (p q : Z) (z : spec_float) (x : R) : Prop :=
  valid_binary p q z = true /\ less z x /\ forall y, valid_binary p q y = true -> less y x -> at_most y z.
Definition just_above (p q : Z) (z : spec_float) (x : R) : Prop :=
  valid_binary p q z = true /\ greater z x /\ forall y, valid_binary p q y = true -> greater y x -> at_most z y.
