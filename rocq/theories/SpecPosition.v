(** Independent specification of stream positions with a conversion state. *)
From Verif Require Import Machine.
Open Scope Z_scope.

(** A position is a number of characters from the start of the stream, a [std::streamoff] ... *)
Definition is_offset (n : Z) : Prop := - 2 ^ 63 <= n < 2 ^ 63.
(** ... and the state of the conversion of multi-byte characters there.  The operator == compares the
    numbers ([fpos.operations]); [same_place] is what a stream needs to continue from there. *)
Definition equal_positions (n m : Z) : Prop := n = m.
Definition same_place {State : Type} (n : Z) (s : State) (m : Z) (t : State) : Prop := n = m /\ s = t.
