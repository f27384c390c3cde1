(** Independent specification: the text that a character pointer points to. *)
From Verif Require Import Machine ModelItoa ModelInt ModelFloat ModelLexi ModelPointer.

(** The array holds the characters of [t], none of them NUL, from [i] on, and a NUL behind them. *)
Definition text_of (p : char_pointer) (t : bytes) : Prop :=
  match p with
  | NullPointer => False
  | PointerTo b i => 0 <= i /\ Forall (fun c => c <> NUL) t /\ exists q, skipn (Z.to_nat i) b = map Some t ++ Some NUL :: q
  end.
