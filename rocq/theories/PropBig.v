(** Properties of BigInteger: C41 to C45, C51 to C53, C62. *)
From Verif Require Import Machine SpecDecimal SpecBig SpecBigProgram ModelDiyfp ModelBigint ProofBig ProofBig2 ProofBig3 ProofBig4 ProofBig5 ProofBig6 ProofBig7.

(** C41: decimal text.  [cc] is the compiler's version of mulAdd. *)
Theorem C41_decimal_text : forall cc s, Z.of_nat (length s) <= 7999 ->
  (Forall is_digit s -> exists b, BigInteger_decimals cc s = Ok b /\ holds_number (digits_ b) (count_ b) (numeral_value s)) /\
  (~ Forall is_digit s -> exists w, BigInteger_decimals cc s = Throw w).
Proof. exact decimals_any. Qed.
Print Assumptions C41_decimal_text.

(** With leading zeros the text may be of any length. *)
Theorem C41_decimal_value : forall cc s, Forall is_digit s -> numeral_value s < 2 ^ (64 * 415) ->
  exists b, BigInteger_decimals cc s = Ok b /\ holds_number (digits_ b) (count_ b) (numeral_value s).
Proof. exact decimals_exact. Qed.
Print Assumptions C41_decimal_value.

Theorem C41_decimal_refused : forall cc a c t, Forall is_digit a -> ~ is_digit c -> numeral_value a < 2 ^ (64 * 415) ->
  exists w, BigInteger_decimals cc (a ++ c :: t) = Throw w.
Proof. exact decimals_refused. Qed.
Print Assumptions C41_decimal_refused.

Example C41_example : exists b, BigInteger_decimals Generic (str "123456789012345678901234567890123456789012345678901234567890") = Ok b /\
  firstn 5 (digits_ b) = [Some 10146594115496643282; Some 4577808104728016028; Some 12318757736197022231; Some 19; Some 0] /\ count_ b = 4.
Proof. eexists. vm_compute. repeat split. Qed.

(** C42: addition and multiplication, exact or refused. *)
Theorem C42_add : forall b n d, holds_number (digits_ b) (count_ b) n -> 0 <= d < 2 ^ 64 ->
  (n + d < LIMIT -> exists b', add_word b d = Ok b' /\ holds_number (digits_ b') (count_ b') (n + d)) /\
  (LIMIT <= n + d -> exists w, add_word b d = Throw w).
Proof. exact add_word_split. Qed.
Print Assumptions C42_add.

Theorem C42_multiply_64 : forall cc b n d, holds_number (digits_ b) (count_ b) n -> 0 <= d < 2 ^ 64 ->
  (n * d < LIMIT -> exists b', mul_word cc b d = Ok b' /\ holds_number (digits_ b') (count_ b') (n * d)) /\
  (LIMIT <= n * d -> exists w, mul_word cc b d = Throw w).
Proof. exact mul_word_split. Qed.
Print Assumptions C42_multiply_64.

Theorem C42_multiply_32 : forall b n d, holds_number (digits_ b) (count_ b) n -> 0 <= d < 2 ^ 32 ->
  (n * d < LIMIT -> exists b', mul_word32 b d = Ok b' /\ holds_number (digits_ b') (count_ b') (n * d)) /\
  (LIMIT <= n * d -> exists w, mul_word32 b d = Throw w).
Proof. exact mul_word32_split. Qed.
Print Assumptions C42_multiply_32.

Theorem C42_power_of_five : forall cc b n e, holds_number (digits_ b) (count_ b) n -> 0 <= e ->
  (n * 5 ^ e < LIMIT -> exists b', mulPow5 cc b e = Ok b' /\ holds_number (digits_ b') (count_ b') (n * 5 ^ e)) /\
  (LIMIT <= n * 5 ^ e -> exists w, mulPow5 cc b e = Throw w).
Proof. exact mulPow5_split. Qed.
Print Assumptions C42_power_of_five.

(** Every number that fits is held by some object, so the theorems above speak of all of
    them. *)
Theorem C42_every_number : forall n, 0 <= n < LIMIT -> exists b, holds_number (digits_ b) (count_ b) n.
Proof. exact every_number. Qed.
Print Assumptions C42_every_number.

Example C42_example : exists b, add_word (big_of [2 ^ 64 - 1; 2 ^ 64 - 1]) 7 = Ok b /\ firstn 3 (digits_ b) = [Some 6; Some 0; Some 1] /\ count_ b = 3.
Proof. eexists. vm_compute. repeat split. Qed.
Example C42_full : (let full := big_of (repeat (2 ^ 64 - 1) (Z.to_nat 416)) in match add_word full 1 with Throw _ => true | _ => false end) = true.
Proof. vm_compute. reflexivity. Qed.

(** C43: left shift.  Exact or refused outside two situations ... *)
Theorem C43_shift : forall b n shift, holds_number (digits_ b) (count_ b) n -> 0 <= shift ->
  (shift mod 64 = 0 -> n < 2 ^ 64 \/ shift = 0) -> (shift mod 64 <> 0 -> n = 0 \/ count_ b + shift / 64 <> 416) ->
  (n * 2 ^ shift < LIMIT -> exists b', shift_left b shift = Ok b' /\ holds_number (digits_ b') (count_ b') (n * 2 ^ shift)) /\
  (LIMIT <= n * 2 ^ shift -> exists w, shift_left b shift = Throw w).
Proof. exact shift_split. Qed.
Print Assumptions C43_shift.

Example C43_example : exists b, shift_left (big_of [2 ^ 63 + 1; 3]) 67 = Ok b /\ firstn 4 (digits_ b) = [Some 0; Some 8; Some 28; Some 0] /\ count_ b = 3.
Proof. eexists. vm_compute. repeat split. Qed.

(** ... and in these two it goes wrong: whole words of longer numbers, ... *)
Theorem C43_whole_words_refuted : exists b n shift b' r, holds_number (digits_ b) (count_ b) n /\ 0 <= shift /\ n * 2 ^ shift < LIMIT /\
  shift_left b shift = Ok b' /\ holds_number (digits_ b') (count_ b') r /\ r <> n * 2 ^ shift.
Proof. exact shift_wrong. Qed.
Print Assumptions C43_whole_words_refuted.

(** ... and shifts that bring the number to the last word, which write past the array ... *)
Theorem C43_last_word_refuted : exists b n shift w, holds_number (digits_ b) (count_ b) n /\ 0 <= shift /\ n * 2 ^ shift < LIMIT /\ shift_left b shift = UB w.
Proof. exact shift_overruns. Qed.
Print Assumptions C43_last_word_refuted.

(** ... always. *)
Theorem C43_last_word_always : forall b n shift, holds_number (digits_ b) (count_ b) n -> n <> 0 -> 0 <= shift -> shift mod 64 <> 0 ->
  count_ b + shift / 64 = 416 -> exists w, shift_left b shift = UB w.
Proof. exact shift_last_word. Qed.
Print Assumptions C43_last_word_always.

(** What a shift by whole words does to a number of several words: the words below the new
    position are cleared, the top word is moved, and those between keep what the array held. *)
Theorem C43_whole_words_result : forall b n k, holds_number (digits_ b) (count_ b) n -> 2 ^ 64 <= n -> 1 <= k ->
  let c := count_ b in
  (416 < c + k -> exists w, shift_left b (64 * k) = Throw w) /\
  (c + k <= 416 < 2 * c - 1 + k -> exists w, shift_left b (64 * k) = UB w) /\
  (2 * c - 1 + k <= 416 -> exists b', shift_left b (64 * k) = Ok b' /\ count_ b' = c + k /\
     forall j, 0 <= j < c + k -> nth (Z.to_nat j) (digits_ b') None =
       (if j <? k then Some 0 else if j <? c - 1 + k then nth (Z.to_nat j) (digits_ b) None
        else nth (Z.to_nat (c - 1)) (digits_ b) None)).
Proof. exact whole_words. Qed.
Print Assumptions C43_whole_words_result.

(** C44: comparison. *)
Theorem C44_compare : forall x y n m, holds_number (digits_ x) (count_ x) n -> holds_number (digits_ y) (count_ y) m ->
  compare x y = Ok (match n ?= m with Lt => -1 | Eq => 0 | Gt => 1 end).
Proof. exact compare_ok. Qed.
Print Assumptions C44_compare.

Theorem C44_equal : forall x y n m, holds_number (digits_ x) (count_ x) n -> holds_number (digits_ y) (count_ y) m -> equal x y = Ok (n =? m).
Proof. exact equal_ok. Qed.
Print Assumptions C44_equal.

Theorem C44_queries : forall b n, holds_number (digits_ b) (count_ b) n ->
  big_isZero b = Ok (n =? 0) /\ (forall d, 0 <= d < 2 ^ 64 -> equal_word b d = Ok (n =? d)) /\
  (forall i, 0 <= i < count b -> digit b i = Ok (nth_word n i)) /\
  (forall i, count b <= i -> exists w, digit b i = Throw w) /\
  1 <= count b <= 416 /\ n < 2 ^ (64 * count b) /\ (n <> 0 -> 2 ^ (64 * (count b - 1)) <= n).
Proof. exact queries. Qed.
Print Assumptions C44_queries.

Example C44_example : compare (big_of [9; 9; 1]) (big_of [0; 0; 2]) = Ok (-1) /\ compare (big_of [1; 2]) (big_of [5]) = Ok 1 /\ equal (big_of [7; 8]) (big_of [7; 8]) = Ok true.
Proof. vm_compute. repeat split. Qed.

(** C45: difference into another object.  The comparison result is right, the difference is
    right exactly when no borrow arrives at an all-ones word of the smaller number, and it
    is too large otherwise. *)
Theorem C45_difference_partial : forall x y out n m,
  holds_number (digits_ x) (count_ x) n -> holds_number (digits_ y) (count_ y) m -> Z.of_nat (length (digits_ out)) = 416 -> n <> m ->
  exists o r, difference x y (OutApart out) = Ok (o, n <? m) /\ holds_number (digits_ o) (count_ o) r /\ Z.abs (n - m) <= r /\
    (r = Z.abs (n - m) <-> borrow_free (Z.max n m) (Z.min n m)).
Proof. exact difference_ok. Qed.
Print Assumptions C45_difference_partial.

Theorem C45_identical : forall x y out n, holds_number (digits_ x) (count_ x) n -> holds_number (digits_ y) (count_ y) n -> exists w, difference x y out = Throw w.
Proof. exact difference_same. Qed.
Print Assumptions C45_identical.

Example C45_example : exists o, difference (big_of [1; 5]) (big_of [2; 5; 1]) (OutApart (big_of [0])) = Ok (o, true) /\ firstn 3 (digits_ o) = [Some 1; Some 0; Some 1] /\ count_ o = 3.
Proof. eexists. vm_compute. repeat split. Qed.

Theorem C45_lost_borrow_refuted : exists x y out n m o r,
  holds_number (digits_ x) (count_ x) n /\ holds_number (digits_ y) (count_ y) m /\ Z.of_nat (length (digits_ out)) = 416 /\ n <> m /\
  difference x y (OutApart out) = Ok (o, n <? m) /\ holds_number (digits_ o) (count_ o) r /\ r <> Z.abs (n - m).
Proof. exact difference_wrong. Qed.
Print Assumptions C45_lost_borrow_refuted.

(** C51: difference into one of the operands: right for numbers of one word, wrong for longer
    ones. *)
Theorem C51_in_place_partial : forall x y o n m, holds_number (digits_ x) (count_ x) n -> holds_number (digits_ y) (count_ y) m ->
  n < 2 ^ 64 -> m < 2 ^ 64 -> n <> m -> (o = OutThis \/ o = OutOther) ->
  exists r, difference x y o = Ok (r, n <? m) /\ holds_number (digits_ r) (count_ r) (Z.abs (n - m)).
Proof. exact difference_alias. Qed.
Print Assumptions C51_in_place_partial.

(** In general: let the 64-bit words of the operands differ in word [i] and agree below.  Into the
    larger one, only word [i] of the difference is computed; into the smaller one, its words above
    [i] are not subtracted. *)
Theorem C51_in_place_result : forall x y o n m i, holds_number (digits_ x) (count_ x) n -> holds_number (digits_ y) (count_ y) m ->
  n <> m -> (o = OutThis \/ o = OutOther) -> 0 <= i -> (2 ^ (64 * i) | n - m) -> ~ (2 ^ (64 * (i + 1)) | n - m) ->
  exists r v, difference x y o = Ok (r, n <? m) /\ holds_number (digits_ r) (count_ r) v /\
    ((o = OutThis /\ m < n) \/ (o = OutOther /\ n < m) -> v = Z.abs (n - m) mod 2 ^ (64 * (i + 1))) /\
    ((o = OutThis /\ n < m) \/ (o = OutOther /\ m < n) -> v = Z.max n m - Z.min n m mod 2 ^ (64 * (i + 1))).
Proof. exact difference_in_place. Qed.
Print Assumptions C51_in_place_result.

Theorem C51_in_place_refuted : exists x y n m o r,
  holds_number (digits_ x) (count_ x) n /\ holds_number (digits_ y) (count_ y) m /\ n <> m /\ borrow_free (Z.max n m) (Z.min n m) /\
  difference x y OutThis = Ok (o, n <? m) /\ holds_number (digits_ o) (count_ o) r /\ r <> Z.abs (n - m).
Proof. exact alias_wrong. Qed.
Print Assumptions C51_in_place_refuted.

Example C51_example : exists o, difference (big_of [5]) (big_of [9]) OutOther = Ok (o, true) /\ firstn 1 (digits_ o) = [Some 4].
Proof. eexists. vm_compute. repeat split. Qed.

(** The number 7 + 8*2^64 + 9*2^128 less 7 + 6*2^64 + 5*2^128, into either. *)
Example C51_words : exists o p,
  difference (big_of [7; 8; 9]) (big_of [7; 6; 5]) OutThis = Ok (o, false) /\ count_ o = 2 /\ firstn 2 (digits_ o) = [Some 0; Some 2] /\
  difference (big_of [7; 8; 9]) (big_of [7; 6; 5]) OutOther = Ok (p, false) /\ count_ p = 3 /\ firstn 3 (digits_ p) = [Some 0; Some 2; Some 9].
Proof. eexists _, _. vm_compute. repeat split. Qed.

(** C52: construction from a word, assignment and copies. *)
Theorem C52_words : forall d, 0 <= d < 2 ^ 64 ->
  (exists b, BigInteger_word d = Ok b /\ holds_number (digits_ b) (count_ b) d) /\
  (forall x n, holds_number (digits_ x) (count_ x) n -> exists b, assign_word x d = Ok b /\ holds_number (digits_ b) (count_ b) d).
Proof. exact word_starts. Qed.
Print Assumptions C52_words.

Theorem C52_copies : forall b n, holds_number (digits_ b) (count_ b) n ->
  (exists c, BigInteger_copy b = Ok c /\ holds_number (digits_ c) (count_ c) n) /\
  (forall x k, holds_number (digits_ x) (count_ x) k -> exists c, assign x b = Ok c /\ holds_number (digits_ c) (count_ c) n).
Proof. exact copies. Qed.
Print Assumptions C52_copies.

Example C52_example : exists c, BigInteger_copy (big_of [7; 8; 9]) = Ok c /\ firstn 4 (digits_ c) = [Some 7; Some 8; Some 9; None] /\ count_ c = 3.
Proof. eexists. vm_compute. repeat split. Qed.

(** C53: digits beyond the capacity: a number that would fit makes the constructor write past
    its array. *)
Theorem C53_overrun_refuted : forall cc, exists s w, Forall is_digit s /\ numeral_value s < LIMIT /\ BigInteger_decimals cc s = UB w.
Proof. exact digits_overrun. Qed.
Print Assumptions C53_overrun_refuted.

(** Every digit string: the exact number or an overrun, never a wrong number, and never refused. *)
Theorem C53_any_digits : forall cc s, Forall is_digit s ->
  (exists b, BigInteger_decimals cc s = Ok b /\ holds_number (digits_ b) (count_ b) (numeral_value s)) \/
  (exists w, BigInteger_decimals cc s = UB w /\ 2 ^ (64 * 415) <= numeral_value s).
Proof. exact any_digits. Qed.
Print Assumptions C53_any_digits.

Theorem C53_too_large : forall cc s, Forall is_digit s -> LIMIT <= numeral_value s -> exists w, BigInteger_decimals cc s = UB w.
Proof. exact too_large. Qed.
Print Assumptions C53_too_large.

(** Without leading zeros the limit is 7999 digits (up to there: C41_decimal_text). *)
Theorem C53_from_8000 : forall cc c s, Forall is_digit (c :: s) -> c <> "0"%char -> 8000 <= Z.of_nat (length (c :: s)) ->
  exists w, BigInteger_decimals cc (c :: s) = UB w.
Proof. exact from_8000. Qed.
Print Assumptions C53_from_8000.

(** Exactly, with leading zeros or without: the digits are taken in groups of 19, and the last group
    [p] overruns if and only if the number before it, times 5^length, does not fit into 415 words. *)
Theorem C53_exactly : forall cc a p j, Forall is_digit (a ++ p) -> length a = (19 * j)%nat -> (1 <= length p <= 19)%nat ->
  ((exists w, BigInteger_decimals cc (a ++ p) = UB w) <-> 2 ^ (64 * 415) <= numeral_value a * 5 ^ Z.of_nat (length p)).
Proof. exact overrun_iff. Qed.
Print Assumptions C53_exactly.

(** Nor is any other text left open: the groups before the first character [c] that is no digit
    overrun under the same condition, and otherwise the text is refused. *)
Theorem C53_any_text : forall cc g a c t j, Forall is_digit (g ++ a) -> ~ is_digit c -> length g = (19 * j)%nat -> (length a < 19)%nat ->
  (2 ^ (64 * 415) <= numeral_value g / 10 ^ 19 * 5 ^ 19 -> exists w, BigInteger_decimals cc (g ++ a ++ c :: t) = UB w) /\
  (numeral_value g / 10 ^ 19 * 5 ^ 19 < 2 ^ (64 * 415) -> exists w, BigInteger_decimals cc (g ++ a ++ c :: t) = Throw w).
Proof. exact stopped_text. Qed.
Print Assumptions C53_any_text.

Example C53_stopped : exists w, BigInteger_decimals Generic (repeat "0"%char (19 * 500) ++ str "12" ++ "x"%char :: str "3") = Throw w.
Proof. eexists. vm_compute. reflexivity. Qed.

Example C53_nines : exists w, BigInteger_decimals GNUC64 (repeat "9"%char (Z.to_nat 8000)) = UB w.
Proof.
  change (Z.to_nat 8000) with (S (Z.to_nat 7999)). cbn [repeat]. apply from_8000.
  - apply (Forall_forall is_digit ("9"%char :: repeat "9"%char (Z.to_nat 7999))). intros x [<-|H]; [split; discriminate|].
    apply repeat_spec in H. subst. split; discriminate.
  - discriminate.
  - cbn [length]. rewrite repeat_length. vm_compute. discriminate.
Qed.

(** C62: programs of operations on one number. *)
Theorem C62_programs_exact : forall cc ops n m, Forall op_ok ops -> 0 <= n < 2 ^ 64 -> computes (2 ^ (64 * 415)) ops n m ->
  exists b b', BigInteger_word n = Ok b /\ perform_all cc ops b = Ok b' /\ holds_number (digits_ b') (count_ b') m.
Proof. exact programs_exact. Qed.
Print Assumptions C62_programs_exact.

(** The first operation whose result does not fit into the array is refused. *)
Theorem C62_programs_refused : forall cc ops o n m, Forall op_ok ops -> op_ok o -> 0 <= n < 2 ^ 64 ->
  computes (2 ^ (64 * 415)) ops n m -> LIMIT <= op_value o m ->
  exists b w, BigInteger_word n = Ok b /\ perform_all cc (ops ++ [o]) b = Throw w.
Proof. exact programs_refused. Qed.
Print Assumptions C62_programs_refused.

Example C62_example :
  (let* b := BigInteger_word 7 in
   let* b := perform_all Generic [OPow5 40; OShift 40; OAdd 123; OMul 18446744073709551615; OMul32 10] b in
   Ok (firstn 4 (digits_ b), count_ b)) =
  Ok ([Some 2803343433480010546; Some 13519923268122024921; Some 2123477372107514091; Some 2057], 4).
Proof. vm_compute. reflexivity. Qed.
