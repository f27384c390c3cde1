(** Independent statements about configured literals. *)
From Coq Require Import List ZArith String Ascii.
From Verif Require Import Machine.
Import ListNotations.

(** The text of a literal for C: what is before its first NUL. *)
Definition c_text (l c : bytes) : Prop := ~ In NUL c /\ (l = c \/ exists r, l = c ++ NUL :: r).
