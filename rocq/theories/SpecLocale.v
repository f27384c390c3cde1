(** Independent vocabulary for locales of the C library (C17 7.4.1.10, 7.11). *)
From Verif Require Import Machine SpecDecimal SpecInt.

Definition is_letter (c : ascii) : Prop := 65 <= code c <= 90 \/ 97 <= code c <= 122.

(** A byte that is neither NUL nor a sign nor a letter nor a digit. *)
Definition neutral (c : ascii) : Prop := c <> NUL /\ ~ is_sign c /\ ~ is_letter c /\ ~ is_digit c.

(** [w] occurs in [s]. *)
Definition occurs (w s : bytes) : Prop := exists x y, s = x ++ w ++ y.

(** [s] is [a], the word [w] where it occurs first, and [b]. *)
Definition first_occurrence (w s a b : bytes) : Prop :=
  s = a ++ w ++ b /\ ~ occurs w (a ++ removelast w).
