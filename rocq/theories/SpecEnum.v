(** Independent specification of enumerations and of their values ([dcl.enum]). *)
From Verif Require Import Machine ModelItoa ModelInt.

(** An enumeration: its underlying type, whether the program has fixed it (always so for a
    scoped enumeration), and its enumerators. *)
Record enumeration := Enumeration { en_type : enum_underlying; en_fixed : bool; en_list : list Z }.

(** [v] is a value of the hypothetical integer type with [M] value bits, with a sign or without. *)
Definition bits_hold (sign : Prop) (M v : Z) : Prop := - 2 ^ M <= v < 2 ^ M /\ (sign \/ 0 <= v).

(** The values of an enumeration: those of the underlying type if it is fixed, otherwise those of
    every such integer type that holds all enumerators (so those of the smallest); it has a sign
    if one of the enumerators is negative. *)
Definition enum_value (p : platform) (E : enumeration) (v : Z) : Prop :=
  if en_fixed E then underlying_has p (en_type E) v
  else let sign := Exists (fun x => x < 0) (en_list E) in
       forall M, 0 <= M -> Forall (bits_hold sign M) (en_list E) -> bits_hold sign M v.

(** The enumerators are values of the underlying type. *)
Definition enum_ok (p : platform) (E : enumeration) : Prop := Forall (underlying_has p (en_type E)) (en_list E).
