(** Independent specification of multi-word natural numbers. *)
From Verif Require Import Machine.

(** The number with the 64-bit words [ws], least significant first. *)
Fixpoint words_value (ws : list Z) : Z :=
  match ws with
  | [] => 0
  | w :: r => w + 2 ^ 64 * words_value r
  end.

(** The array [d] (416 words, of which [count] are in use) holds the number [n]: the words
    are defined, the top one is not zero unless the number is, and their value is [n]. *)
Definition holds_number (d : list (option Z)) (count n : Z) : Prop :=
  exists ws rest, d = map Some ws ++ rest /\ Z.of_nat (length d) = 416 /\ count = Z.of_nat (length ws) /\
    ws <> [] /\ Forall (fun w => 0 <= w < 2 ^ 64) ws /\ (last ws 0 = 0 -> ws = [0]) /\ words_value ws = n.

(** Numbers that fit in 416 words. *)
Definition LIMIT : Z := 2 ^ (64 * 416).

(** Word [j] of the number [n]. *)
Definition nth_word (n j : Z) : Z := (n / 2 ^ (64 * j)) mod 2 ^ 64.

(** In the subtraction of [small] from [large], no borrow arrives at an all-ones word. *)
Definition borrow_free (large small : Z) : Prop :=
  forall j, 0 <= j -> nth_word small j = 2 ^ 64 - 1 -> small mod 2 ^ (64 * j) <= large mod 2 ^ (64 * j).
