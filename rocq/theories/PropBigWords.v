(** Properties of BigIntegers in any state: C93, and the exact difference of C45. *)
From Verif Require Import Machine SpecDecimal SpecBig SpecBigProgram SpecBigStore SpecBigWords ModelDiyfp ModelBigint ModelThrown ModelBigStore ProofBigWords ProofBigWords2.

(** C93: whatever is done to BigIntegers, also after exceptions and wrong results, they compute
    what [wstep] says of their lengths and values. *)
Theorem C93_programs : forall cc ops s vs, wruns [] ops s vs ->
  exists st, execute_all cc [] ops = Ok (st, vs) /\ Forall2 (fun x b => count_ b = fst x /\ holds_words (digits_ b) (count_ b) (snd x)) s st.
Proof. exact words_programs. Qed.
Print Assumptions C93_programs.

(** One operation, from any objects. *)
Theorem C93_operation : forall cc s o s' v st, wstep s o s' v ->
  Forall2 (fun x b => count_ b = fst x /\ holds_words (digits_ b) (count_ b) (snd x)) s st ->
  exists st', execute cc st o = Ok (st', v) /\ Forall2 (fun x b => count_ b = fst x /\ holds_words (digits_ b) (count_ b) (snd x)) s' st'.
Proof. exact wstep_ok. Qed.
Print Assumptions C93_operation.

(** It says something, and only one thing, of every call but those [outside]. *)
Theorem C93_every_call : forall s st o,
  Forall2 (fun x b => count_ b = fst x /\ holds_words (digits_ b) (count_ b) (snd x)) s st -> typed (length s) o -> ~ outside s o ->
  exists s' v, wstep s o s' v.
Proof. exact wstep_exists. Qed.
Print Assumptions C93_every_call.

Theorem C93_one_result : forall s st o s1 v1 s2 v2,
  Forall2 (fun x b => count_ b = fst x /\ holds_words (digits_ b) (count_ b) (snd x)) s st -> wstep s o s1 v1 -> wstep s o s2 v2 -> s1 = s2 /\ v1 = v2.
Proof. exact wstep_unique. Qed.
Print Assumptions C93_one_result.

(** Of those, the shifts that overrun are undefined. *)
Theorem C93_overrun : forall cc s st o x k c n,
  Forall2 (fun x b => count_ b = fst x /\ holds_words (digits_ b) (count_ b) (snd x)) s st ->
  (o = Shift x k \/ o = Do x (OShift k)) -> nth_error s x = Some (c, n) -> 0 <= k -> (c, n) <> (1, 0) -> k mod 64 <> 0 -> c + k / 64 = 416 ->
  exists w, execute cc st o = UB w.
Proof. exact overrun_any. Qed.
Print Assumptions C93_overrun.

(** The numbers of C42 to C45 are the objects without zeros on top. *)
Theorem C93_numbers : forall b n,
  holds_number (digits_ b) (count_ b) n <->
  holds_words (digits_ b) (count_ b) n /\ (count_ b = 1 \/ 2 ^ (64 * (count_ b - 1)) <= n).
Proof. exact numbers_words. Qed.
Print Assumptions C93_numbers.

(** A multiplication that is refused leaves 416 zeros, which are compared as larger than 5, and
    used further. *)
Example C93_case : wruns [] damaged_program [(1, 2); (1, 3); (1, 2)]
  [Nothing; Nothing; Nothing; Refused; Number 0; Number 0; Nothing; Number 1; Nothing; Number 1;
   Nothing; Number 0; Number 2; Number 1; Number 0; Number 1; Refused; Number 1; Number 3].
Proof. exact damaged_runs. Qed.

(** A shift by one word of 3 + 5*2^64 makes the upper word twice; 2^128 less 2^128-1 loses the borrow. *)
Example C93_shift_case : shifts (2, 3 + 5 * 2 ^ 64) 64 (3, 5 * 2 ^ 64 + 5 * 2 ^ 128) Nothing /\
  lossy_difference 3 (2 ^ 128) (2 ^ 128 - 1) 0 = 1 + 2 ^ 128.
Proof.
  split; [|vm_compute; reflexivity]. replace (3, 5 * 2 ^ 64 + 5 * 2 ^ 128) with (2 + 1, (3 + 5 * 2 ^ 64) - (3 + 5 * 2 ^ 64) mod 2 ^ 64 + 2 ^ (64 * 2) * nth_word (3 + 5 * 2 ^ 64) (2 - 1)) by (vm_compute; reflexivity).
  apply ShWord. split; discriminate.
Qed.

(** C45: exactly what a difference of two numbers into another object is. *)
Theorem C45_difference_exactly : forall x y out n m,
  holds_number (digits_ x) (count_ x) n -> holds_number (digits_ y) (count_ y) m -> Z.of_nat (length (digits_ out)) = 416 -> n <> m ->
  exists o, difference x y (OutApart out) = Ok (o, n <? m) /\
    holds_number (digits_ o) (count_ o) (lossy_difference (Z.to_nat (width (Z.max n m))) (Z.max n m) (Z.min n m) 0).
Proof. exact difference_number. Qed.
Print Assumptions C45_difference_exactly.
