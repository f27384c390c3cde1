(** What programs on big integers compute when nothing is assumed of the objects but that their
    words are defined: also on those that an exception left, or that a wrong result is in. *)
From Verif Require Import Machine SpecDecimal SpecBig SpecBigProgram SpecBigStore.
Open Scope Z_scope.

(** [count] words of the array [d] are in use and their value is [n]; the top ones may be zero. *)
Definition holds_words (d : list (option Z)) (count n : Z) : Prop :=
  exists ws rest, d = map Some ws ++ rest /\ Z.of_nat (length d) = 416 /\ count = Z.of_nat (length ws) /\
    ws <> [] /\ Forall (fun w => 0 <= w < 2 ^ 64) ws /\ words_value ws = n.

(** An object: how many words it has, and their value. *)
Definition thing : Type := Z * Z.

(** The result [p] comes to an object of [c] words, which becomes longer by one if it must; the
    longest cannot, and keeps what is below 2^(64*416). *)
Definition settle (c p : Z) : thing * seen :=
  if p <? 2 ^ (64 * c) then ((c, p), Nothing)
  else if c <? 416 then ((c + 1, p), Nothing)
  else ((416, p mod LIMIT), Refused).

Definition times (x : thing) (d : Z) : thing * seen := if d =? 0 then ((1, 0), Nothing) else settle (fst x) (snd x * d).

Fixpoint times_all (x : thing) (ds : list Z) : thing * seen :=
  match ds with
  | [] => (x, Nothing)
  | d :: r => match times x d with
              | (y, Nothing) => times_all y r
              | stopped => stopped
              end
  end.

(** The factors of 5^[e]. *)
Definition fives (e : Z) : list Z :=
  repeat (5 ^ 27) (Z.to_nat (e / 27)) ++ repeat (5 ^ 13) (Z.to_nat (e mod 27 / 13)) ++
  (if (e mod 27) mod 13 =? 0 then [] else [5 ^ ((e mod 27) mod 13)]).

(** Operations other than shifts. *)
Definition change (o : big_op) (x : thing) : thing * seen :=
  match o with
  | OAdd d => settle (fst x) (snd x + d)
  | OMul d | OMul32 d => times x d
  | OPow5 e => times_all x (fives e)
  | OAssign d => ((1, d), Nothing)
  | OShift _ => (x, Nothing)
  end.

(** Shifts by [k] bits.  Only the number zero in one word is taken for zero. *)
Inductive shifts : thing -> Z -> thing -> seen -> Prop :=
| ShNone x k : k = 0 \/ x = (1, 0) -> shifts x k x Nothing
| ShFar c n k : 0 < k -> (c, n) <> (1, 0) -> 416 < c + k / 64 -> shifts (c, n) k (c, n) Refused
| ShBits c n k : 0 < k -> k mod 64 <> 0 -> (c, n) <> (1, 0) -> c + k / 64 < 416 ->
    shifts (c, n) k (fst (settle (c + k / 64) (n * 2 ^ k))) Nothing
(* whole words, of an object of one word *)
| ShOne n k : 0 < k -> k mod 64 = 0 -> n <> 0 -> 1 + k / 64 <= 416 -> shifts (1, n) k (1 + k / 64, n * 2 ^ k) Nothing
(* one word, of a longer object: the lowest word is cleared, and the highest one doubled *)
| ShWord c n : 2 <= c <= 208 -> shifts (c, n) 64 (c + 1, n - n mod 2 ^ 64 + 2 ^ (64 * c) * nth_word n (c - 1)) Nothing.

(** Objects are compared by their lengths first. *)
Definition order_things (x y : thing) : Z := if fst x =? fst y then order (snd x) (snd y) else order (fst x) (fst y).

(** Subtraction of [k] words, word by word, in which a borrow is forgotten where it meets a word
    of all ones in the smaller number; and so is the last one. *)
Fixpoint lossy_difference (k : nat) (n m borrow : Z) : Z :=
  match k with
  | O => 0
  | S k =>
      let a := n mod 2 ^ 64 in
      let b := m mod 2 ^ 64 in
      if (borrow =? 1) && (b =? 2 ^ 64 - 1) then a + 2 ^ 64 * lossy_difference k (n / 2 ^ 64) (m / 2 ^ 64) 0
      else (a - b - borrow) mod 2 ^ 64 + 2 ^ 64 * lossy_difference k (n / 2 ^ 64) (m / 2 ^ 64) (if a <? b + borrow then 1 else 0)
  end.

(** The number of words that [v] takes, for 0 < [v]. *)
Definition width (v : Z) : Z := Z.log2 v / 64 + 1.

(** Where the difference goes. *)
Inductive place := Elsewhere (z : thing) | IntoLarger | IntoSmaller.

(** The larger one less the smaller one; they first differ in word [i]. *)
Inductive less : thing -> thing -> place -> thing -> Prop :=
| LApart ca n cb m z v : v = lossy_difference (Z.to_nat ca) n m 0 -> v <> 0 -> less (ca, n) (cb, m) (Elsewhere z) (width v, v)
(* all words are zero: the length is not set *)
| LZero ca n cb m cz p : lossy_difference (Z.to_nat ca) n m 0 = 0 -> less (ca, n) (cb, m) (Elsewhere (cz, p)) (cz, 2 ^ (64 * ca) * (p / 2 ^ (64 * ca)))
| LLarger ca n cb m i : 0 <= i -> (2 ^ (64 * i) | n - m) -> ~ (2 ^ (64 * (i + 1)) | n - m) ->
    less (ca, n) (cb, m) IntoLarger (i + 1, (n - m) mod 2 ^ (64 * (i + 1)))
| LSmaller ca n cb m i v : 0 <= i -> (2 ^ (64 * i) | n - m) -> ~ (2 ^ (64 * (i + 1)) | n - m) -> v = (n - m mod 2 ^ (64 * (i + 1))) mod 2 ^ (64 * ca) ->
    less (ca, n) (cb, m) IntoSmaller (width v, v)
| LLargerSame ca cb n : less (ca, n) (cb, n) IntoLarger (ca, 0)
| LSmallerSame ca cb n : less (ca, n) (cb, n) IntoSmaller (cb, 0).

(** One operation on the objects. *)
Inductive wstep : list thing -> store_op -> list thing -> seen -> Prop :=
| WNew s d : 0 <= d < 2 ^ 64 -> wstep s (New d) (s ++ [(1, d)]) Nothing
| WNewCopy s y b : nth_error s y = Some b -> wstep s (NewCopy y) (s ++ [b]) Nothing
| WNewText s t v : Z.of_nat (length t) <= 7999 -> Forall is_digit t -> v = numeral_value t ->
    wstep s (NewText t) (s ++ [(if v =? 0 then 1 else width v, v)]) Nothing
| WNewTextRefused s t : Z.of_nat (length t) <= 7999 -> ~ Forall is_digit t -> wstep s (NewText t) s Refused
| WAssign s x y a b : nth_error s x = Some a -> nth_error s y = Some b -> wstep s (Assign x y) (put x b s) Nothing
| WDo s x o a b v : nth_error s x = Some a -> op_ok o -> (forall k, o <> OShift k) -> change o a = (b, v) -> wstep s (Do x o) (put x b s) v
| WDoShift s x k a b v : nth_error s x = Some a -> 0 <= k < 64 -> shifts a k b v -> wstep s (Do x (OShift k)) (put x b s) v
| WShift s x k a b v : nth_error s x = Some a -> 0 <= k -> shifts a k b v -> wstep s (Shift x k) (put x b s) v
| WDifferenceRefused s x y z a b c : nth_error s x = Some a -> nth_error s y = Some b -> nth_error s z = Some c ->
    order_things a b = 0 -> wstep s (Difference x y z) s Refused
| WDifference s x y z a b c r : nth_error s x = Some a -> nth_error s y = Some b -> nth_error s z = Some c -> order_things a b = 1 ->
    less a b (if (z =? x)%nat then IntoLarger else if (z =? y)%nat then IntoSmaller else Elsewhere c) r ->
    wstep s (Difference x y z) (put z r s) (Number 0)
| WDifferenceLess s x y z a b c r : nth_error s x = Some a -> nth_error s y = Some b -> nth_error s z = Some c -> order_things a b = -1 ->
    less b a (if (z =? x)%nat then IntoSmaller else if (z =? y)%nat then IntoLarger else Elsewhere c) r ->
    wstep s (Difference x y z) (put z r s) (Number 1)
| WCompare s x y a b : nth_error s x = Some a -> nth_error s y = Some b -> wstep s (Compare x y) s (Number (order_things a b))
| WEqual s x y a b : nth_error s x = Some a -> nth_error s y = Some b -> wstep s (Equal x y) s (flag (order_things a b =? 0))
| WEqualWord s x d a : nth_error s x = Some a -> 0 <= d < 2 ^ 64 -> wstep s (EqualWord x d) s (flag ((fst a =? 1) && (snd a =? d)))
| WIsZero s x a : nth_error s x = Some a -> wstep s (IsZero x) s (flag ((fst a =? 1) && (snd a =? 0)))
| WDigit s x i c n : nth_error s x = Some (c, n) -> 0 <= i < c -> wstep s (Digit x i) s (Number (nth_word n i))
| WDigitRefused s x i c n : nth_error s x = Some (c, n) -> c <= i -> wstep s (Digit x i) s Refused.

Inductive wruns : list thing -> list store_op -> list thing -> list seen -> Prop :=
| WNil s : wruns s [] s []
| WCons s o r s' s'' v vs : wstep s o s' v -> wruns s' r s'' vs -> wruns s (o :: r) s'' (v :: vs).

(** The calls that the types allow, on [k] objects. *)
Definition typed (k : nat) (o : store_op) : Prop :=
  match o with
  | New d => 0 <= d < 2 ^ 64
  | NewCopy y => (y < k)%nat
  | NewText _ => True
  | Assign x y | Compare x y | Equal x y => (x < k)%nat /\ (y < k)%nat
  | Do x o => (x < k)%nat /\ op_ok o
  | Shift x s => (x < k)%nat /\ 0 <= s
  | Difference x y z => (x < k)%nat /\ (y < k)%nat /\ (z < k)%nat
  | EqualWord x d => (x < k)%nat /\ 0 <= d < 2 ^ 64
  | IsZero x => (x < k)%nat
  | Digit x i => (x < k)%nat /\ 0 <= i
  end.

(** Of these, [wstep] leaves out: a shift that writes past the array, a shift by whole words of
    an object of several, which moves words that are not in use, and a text that is too long. *)
Definition shift_outside (x : thing) (k : Z) : Prop :=
  0 < k /\ x <> (1, 0) /\
  ((k mod 64 <> 0 /\ fst x + k / 64 = 416) \/ (k mod 64 = 0 /\ 2 <= fst x /\ fst x + k / 64 <= 416 /\ (k = 64 -> 208 < fst x))).
Definition outside (s : list thing) (o : store_op) : Prop :=
  match o with
  | NewText t => 7999 < Z.of_nat (length t)
  | Shift x k | Do x (OShift k) => match nth_error s x with Some a => shift_outside a k | None => False end
  | _ => False
  end.
