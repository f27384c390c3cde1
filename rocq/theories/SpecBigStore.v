(** Programs on any number of big integers, whose exceptions are caught, and what they
    compute. *)
From Verif Require Import Machine SpecDecimal SpecBig SpecBigProgram.
Open Scope Z_scope.

(** The array [d] is full of words, whose value is [n]; the top ones may be zero. *)
Definition holds_full (d : list (option Z)) (count n : Z) : Prop :=
  count = 416 /\ exists ws, d = map Some ws /\ Z.of_nat (length ws) = 416 /\ Forall (fun w => 0 <= w < 2 ^ 64) ws /\ words_value ws = n.

(** The factors of a product by 5^[e], in order: 5^27 as often as it goes, then 5^13 as often
    as it goes, then the rest.  [a] fives have been multiplied when the factor 5^[f] comes. *)
Definition pow5_factor (e a f : Z) : Prop :=
  (f = 27 /\ exists i, 0 <= i /\ a = 27 * i /\ 27 * (i + 1) <= e) \/
  (f = 13 /\ exists i, 0 <= i /\ a = 27 * (e / 27) + 13 * i /\ 13 * (i + 1) <= e mod 27) \/
  (a = e - f /\ f = (e mod 27) mod 13 /\ 0 < f).

(** Objects are numbered as they are made. *)
Inductive store_op :=
| New (d : Z) | NewCopy (y : nat) | NewText (s : bytes)
| Assign (x y : nat) | Do (x : nat) (o : big_op) | Shift (x : nat) (s : Z) | Difference (x y z : nat)
| Compare (x y : nat) | Equal (x y : nat) | EqualWord (x : nat) (d : Z) | IsZero (x : nat) | Digit (x : nat) (i : Z).

(** What the program sees of an operation. *)
Inductive seen := Nothing | Refused | Number (v : Z).

Fixpoint put {A} (x : nat) (v : A) (l : list A) : list A :=
  match l, x with
  | [], _ => []
  | _ :: r, O => v :: r
  | a :: r, S x => a :: put x v r
  end.

Definition flag (b : bool) : seen := Number (if b then 1 else 0).
Definition order (n m : Z) : Z := match n ?= m with Lt => -1 | Eq => 0 | Gt => 1 end.

(** The numbers of the objects before and after; [None] is an object that a refused operation
    left, which may be assigned to only. *)
Inductive step : list (option Z) -> store_op -> list (option Z) -> seen -> Prop :=
| SNew s d : 0 <= d < 2 ^ 64 -> step s (New d) (s ++ [Some d]) Nothing
| SNewCopy s y n : nth_error s y = Some (Some n) -> step s (NewCopy y) (s ++ [Some n]) Nothing
| SNewText s t : Z.of_nat (length t) <= 7999 -> Forall is_digit t -> step s (NewText t) (s ++ [Some (numeral_value t)]) Nothing
| SNewTextRefused s t : Z.of_nat (length t) <= 7999 -> ~ Forall is_digit t -> step s (NewText t) s Refused
| SAssign s x y n : nth_error s y = Some (Some n) -> (x < length s)%nat -> step s (Assign x y) (put x (Some n) s) Nothing
| SAssignWord s x d : 0 <= d < 2 ^ 64 -> (x < length s)%nat -> step s (Do x (OAssign d)) (put x (Some d) s) Nothing
| SDo s x o n : nth_error s x = Some (Some n) -> op_ok o -> (forall k, o <> OShift k) -> op_value o n < LIMIT ->
    step s (Do x o) (put x (Some (op_value o n)) s) Nothing
| SDoRefused s x o n : nth_error s x = Some (Some n) -> op_ok o -> (forall k, o <> OShift k) -> LIMIT <= op_value o n ->
    step s (Do x o) (put x None s) Refused
(* not by whole words unless the number is one word, and not into the last word (C43) *)
| SShift s x k n : nth_error s x = Some (Some n) -> 0 <= k -> (k mod 64 = 0 -> n < 2 ^ 64 \/ k = 0) ->
    (k mod 64 <> 0 -> n = 0 \/ ~ 2 ^ (64 * (415 - k / 64)) <= n < 2 ^ (64 * (416 - k / 64))) -> n * 2 ^ k < LIMIT ->
    step s (Shift x k) (put x (Some (n * 2 ^ k)) s) Nothing
| SShiftRefused s x k n : nth_error s x = Some (Some n) -> 0 <= k -> (k mod 64 = 0 -> n < 2 ^ 64 \/ k = 0) ->
    (k mod 64 <> 0 -> n = 0 \/ ~ 2 ^ (64 * (415 - k / 64)) <= n < 2 ^ (64 * (416 - k / 64))) -> LIMIT <= n * 2 ^ k ->
    step s (Shift x k) s Refused
(* no borrow at an all-ones word (C45); in place only for numbers of one word (C51) *)
| SDifference s x y z n m : nth_error s x = Some (Some n) -> nth_error s y = Some (Some m) -> n <> m -> (z < length s)%nat -> z <> x -> z <> y ->
    borrow_free (Z.max n m) (Z.min n m) -> step s (Difference x y z) (put z (Some (Z.abs (n - m))) s) (flag (n <? m))
| SInPlace s x y z n m : nth_error s x = Some (Some n) -> nth_error s y = Some (Some m) -> n <> m -> z = x \/ z = y ->
    n < 2 ^ 64 -> m < 2 ^ 64 -> step s (Difference x y z) (put z (Some (Z.abs (n - m))) s) (flag (n <? m))
| SDifferenceRefused s x y z n : nth_error s x = Some (Some n) -> nth_error s y = Some (Some n) -> (z < length s)%nat ->
    step s (Difference x y z) s Refused
| SCompare s x y n m : nth_error s x = Some (Some n) -> nth_error s y = Some (Some m) -> step s (Compare x y) s (Number (order n m))
| SEqual s x y n m : nth_error s x = Some (Some n) -> nth_error s y = Some (Some m) -> step s (Equal x y) s (flag (n =? m))
| SEqualWord s x d n : nth_error s x = Some (Some n) -> 0 <= d < 2 ^ 64 -> step s (EqualWord x d) s (flag (n =? d))
| SIsZero s x n : nth_error s x = Some (Some n) -> step s (IsZero x) s (flag (n =? 0))
| SDigit s x i n : nth_error s x = Some (Some n) -> 0 <= i -> (i = 0 \/ 2 ^ (64 * i) <= n) -> step s (Digit x i) s (Number (nth_word n i))
| SDigitRefused s x i n : nth_error s x = Some (Some n) -> 0 < i -> n < 2 ^ (64 * i) -> step s (Digit x i) s Refused.

(** A whole program, and all that it sees. *)
Inductive runs : list (option Z) -> list store_op -> list (option Z) -> list seen -> Prop :=
| RNil s : runs s [] s []
| RCons s o r s' s'' v vs : step s o s' v -> runs s' r s'' vs -> runs s (o :: r) s'' (v :: vs).
