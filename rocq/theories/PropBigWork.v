(** Property C101: the work of the operations on BigIntegers. *)
From Verif Require Import Machine SpecBig SpecBigWork ModelDiyfp ModelBigint ModelBigWork ProofBig4 ProofBigWork.
Open Scope Z_scope.

(** Keeping the record changes nothing: every run gives what the operation gives. *)
Theorem C101_same : forall cc,
  (forall x d, fst (l_add_word x d) = add_word x d) /\
  (forall x d, fst (l_mul_word cc x d) = mul_word cc x d) /\
  (forall x d, fst (l_mul_word32 x d) = mul_word32 x d) /\
  (forall x s, fst (l_shift_left x s) = shift_left x s) /\
  (forall x e, fst (l_mulPow5 cc x e) = mulPow5 cc x e) /\
  (forall s, fst (l_BigInteger_decimals cc s) = BigInteger_decimals cc s) /\
  (forall x y, fst (l_compare x y) = compare x y) /\
  (forall x y o, fst (l_difference x y o) = difference x y o).
Proof. exact all_same. Qed.
Print Assumptions C101_same.

(** Multiplication treats every word once, or none when a factor is one or the word is zero. *)
Theorem C101_multiply : forall cc b n d, holds_number (digits_ b) (count_ b) n -> 0 <= d < 2 ^ 64 ->
  let turns := repeat Word (if (d =? 0) || (d =? 1) || (n =? 1) then 0%nat else Z.to_nat (count_ b)) in
  snd (l_mul_word cc b d) = turns /\ (d < 2 ^ 32 -> snd (l_mul_word32 b d) = turns).
Proof. exact multiply_work. Qed.
Print Assumptions C101_multiply.

(** Addition looks at the second word and goes on only as long as there is a carry into the
    word after. *)
Theorem C101_add : forall b n d, holds_number (digits_ b) (count_ b) n -> 0 <= d < 2 ^ 64 ->
  exists k, snd (l_add_word b d) = repeat Word (Z.to_nat k) /\ 0 <= k <= count_ b - 1 /\ (1 < count_ b -> 1 <= k) /\
    (forall j, 1 <= j < k -> 2 ^ (64 * j) <= n mod 2 ^ (64 * j) + d) /\
    (k < count_ b - 1 -> n mod 2 ^ (64 * k) + d < 2 ^ (64 * k)).
Proof. exact add_work. Qed.
Print Assumptions C101_add.

(** A shift by bits treats every word once; a shift by whole words, of zero, or beyond the
    capacity treats none. *)
Theorem C101_shift : forall b n s, holds_number (digits_ b) (count_ b) n -> 0 <= s ->
  (taken Word (snd (l_shift_left b s)) <= count_ b) /\
  (count_ b + s / 64 <> 416 ->
    snd (l_shift_left b s) = repeat Word (if (n =? 0) || (s mod 64 =? 0) || (416 <? count_ b + s / 64) then 0%nat else Z.to_nat (count_ b))).
Proof. exact shift_work. Qed.
Print Assumptions C101_shift.

(** Comparison of numbers of different lengths looks at no word; else it stops at the first
    difference from the top. *)
Theorem C101_compare : forall x y n m, holds_number (digits_ x) (count_ x) n -> holds_number (digits_ y) (count_ y) m ->
  (count_ x <> count_ y -> snd (l_compare x y) = []) /\
  (count_ x = count_ y -> exists k, snd (l_compare x y) = repeat Word (Z.to_nat k) /\ 1 <= k <= count_ x /\
     (forall i, count_ x - k < i < count_ x -> nth_word n i = nth_word m i) /\
     (k < count_ x -> nth_word n (count_ x - k) <> nth_word m (count_ x - k))).
Proof. exact compare_work. Qed.
Print Assumptions C101_compare.

(** The difference compares and then treats every word of the larger number. *)
Theorem C101_difference : forall x y out n m, holds_number (digits_ x) (count_ x) n -> holds_number (digits_ y) (count_ y) m -> n <> m ->
  Z.of_nat (length (digits_ out)) = 416 ->
  snd (l_difference x y (OutApart out)) = snd (l_compare x y) ++ repeat Word (Z.to_nat (Z.max (count_ x) (count_ y))).
Proof. exact difference_work. Qed.
Print Assumptions C101_difference.

(** Also into one of the operands, and whatever the words are. *)
Theorem C101_difference_bound : forall x y o, taken Word (snd (l_difference x y o)) <= 2 * Z.max 0 (Z.max (count_ x) (count_ y)).
Proof. exact difference_bound. Qed.
Print Assumptions C101_difference_bound.

(** A power of five is e/27 large multiplications, at most two smaller ones, and the rest. *)
Theorem C101_power : forall cc b n e, holds_number (digits_ b) (count_ b) n -> 0 <= e ->
  let t := snd (l_mulPow5 cc b e) in
  taken Power t <= e / 27 + e mod 27 / 13 /\ taken Word t <= 416 * (taken Power t + 1) /\
  (forall b', mulPow5 cc b e = Ok b' -> taken Power t = e / 27 + e mod 27 / 13).
Proof. exact power_work. Qed.
Print Assumptions C101_power.

(** Reading decimal text, digits or not: every character at most once, a turn for every whole
    group, and words quadratic in the groups, but never more than a constant, which is what is
    reached before the number is too large. *)
Theorem C101_decimals : forall cc s,
  let t := snd (l_BigInteger_decimals cc s) in let n := Z.of_nat (length s) in
  taken Word t <= 2 * groups n ^ 2 /\ taken Word t <= 2 * 423 ^ 2 /\ taken Power t <= groups n /\ taken Char t <= n /\ taken Group t <= n / 19 /\
  (forall y, fst (l_BigInteger_decimals cc s) = Ok y -> taken Char t = n /\ taken Group t = n / 19).
Proof. exact decimals_work. Qed.
Print Assumptions C101_decimals.

Example C101_case :
  (let t := snd (l_BigInteger_decimals Generic (str "12345678901234567890123456789012345678901234567890")) in
   (taken Char t, taken Group t, taken Power t, taken Word t) = (50, 2, 1, 12)) /\
  snd (l_add_word (big_of [2 ^ 64 - 1; 2 ^ 64 - 1; 2; 3; 4; 5]) 1) = [Word; Word; Word] /\
  snd (l_compare (big_of [1; 2; 3]) (big_of [1; 5; 3])) = [Word; Word] /\
  snd (l_shift_left (big_of [1; 2; 3]) 64) = [].
Proof. repeat (split; [vm_compute; reflexivity|]). vm_compute. reflexivity. Qed.
