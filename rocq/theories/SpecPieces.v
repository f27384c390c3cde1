(** What it is for a text to be cut, and how long escaped texts are. *)
From Verif Require Import Machine SpecString.

(** [a] is where [b] begins. *)
Definition begins (a b : bytes) : Prop := exists r, b = a ++ r.

(** How many bytes of [s] are in a class. *)
Inductive counted (P : ascii -> Prop) : bytes -> Z -> Prop :=
| counted_nil : counted P [] 0
| counted_in c s n : P c -> counted P s n -> counted P (c :: s) (n + 1)
| counted_out c s n : ~ P c -> counted P s n -> counted P (c :: s) n.

(** RFC 8259: the bytes with an escape of two characters that are written so here (the solidus need not be),
    and the other control characters, with an escape of six. *)
Definition short_escape (c : ascii) : Prop := In (code c) [8; 9; 10; 12; 13; 34; 92].
Definition long_escape (c : ascii) : Prop := code c < 32 /\ ~ In (code c) [8; 9; 10; 12; 13].
