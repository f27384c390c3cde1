(** Properties of BigIntegers after exceptions: C88, C89. *)
From Verif Require Import Machine SpecDecimal SpecBig SpecBigProgram SpecBigStore ModelDiyfp ModelBigint ModelThrown ModelBigStore ProofThrown ProofBigStore.

(** C88: what a refused operation leaves.  The operations here return the object afterwards, and
    the message if they threw; otherwise they are those of C42, C43 and C45. *)
Theorem C88_model : forall cc x,
  (forall d, erase (t_add_word x d) = add_word x d) /\ (forall d, erase (t_mul_word cc x d) = mul_word cc x d) /\
  (forall d, erase (t_mul_word32 x d) = mul_word32 x d) /\ (forall e, erase (t_mulPow5 cc x e) = mulPow5 cc x e) /\
  (forall s, erase (t_shift_left x s) = shift_left x s).
Proof. exact erases. Qed.
Print Assumptions C88_model.

Theorem C88_model_difference : forall x y o,
  (let* (c, r) := t_difference x y o in match r with inl w => Throw w | inr v => Ok (c, v) end) = difference x y o.
Proof. exact erase_difference. Qed.
Print Assumptions C88_model_difference.

(** Shifts and differences leave their objects as they were. *)
Theorem C88_unchanged : forall b n, holds_number (digits_ b) (count_ b) n ->
  (forall s, 0 <= s -> (exists w, shift_left b s = Throw w) -> exists w, t_shift_left b s = Ok (b, Some w)) /\
  (forall x out, holds_number (digits_ x) (count_ x) n ->
     exists w, t_difference b x out = Ok (match out with OutApart o => o | OutThis => b | OutOther => x end, inl w)).
Proof. exact shift_difference_left. Qed.
Print Assumptions C88_unchanged.

(** Additions and multiplications leave the result without what is beyond the array, in 416
    words of which the top ones may be zero. *)
Theorem C88_add : forall b n d, holds_number (digits_ b) (count_ b) n -> 0 <= d < 2 ^ 64 -> LIMIT <= n + d ->
  exists b' w, t_add_word b d = Ok (b', Some w) /\ holds_full (digits_ b') (count_ b') (n + d - LIMIT).
Proof. exact add_left. Qed.
Print Assumptions C88_add.

Theorem C88_multiply_64 : forall cc b n d, holds_number (digits_ b) (count_ b) n -> 0 <= d < 2 ^ 64 -> LIMIT <= n * d ->
  exists b' w, t_mul_word cc b d = Ok (b', Some w) /\ holds_full (digits_ b') (count_ b') ((n * d) mod LIMIT).
Proof. exact mul_left. Qed.
Print Assumptions C88_multiply_64.

Theorem C88_multiply_32 : forall b n d, holds_number (digits_ b) (count_ b) n -> 0 <= d < 2 ^ 32 -> LIMIT <= n * d ->
  exists b' w, t_mul_word32 b d = Ok (b', Some w) /\ holds_full (digits_ b') (count_ b') ((n * d) mod LIMIT).
Proof. exact mul32_left. Qed.
Print Assumptions C88_multiply_32.

(** Powers of five stop after the first factor that does not fit. *)
Theorem C88_power_of_five : forall cc b n e, holds_number (digits_ b) (count_ b) n -> 0 <= e -> LIMIT <= n * 5 ^ e ->
  exists a f b' w, pow5_factor e a f /\ n * 5 ^ a < LIMIT <= n * 5 ^ (a + f) /\ t_mulPow5 cc b e = Ok (b', Some w) /\
    holds_full (digits_ b') (count_ b') ((n * 5 ^ (a + f)) mod LIMIT).
Proof. exact t_mulPow5_left. Qed.
Print Assumptions C88_power_of_five.

(** So the object is not unchanged; it may be 416 zero words, which [isZero] does not take for zero. *)
Theorem C88_add_refuted : exists b n d b' w, holds_number (digits_ b) (count_ b) n /\ 0 <= d < 2 ^ 64 /\ t_add_word b d = Ok (b', Some w) /\ b' <> b /\
  (forall m, ~ holds_number (digits_ b') (count_ b') m) /\ big_isZero b' = Ok false /\ holds_full (digits_ b') (count_ b') 0.
Proof. exact add_damages. Qed.
Print Assumptions C88_add_refuted.

(** The largest number times 3, and 2^26623 times 5^40, of which the first 27 are multiplied. *)
Example C88_case :
  (let* (b, w) := t_mul_word Generic (Big (map Some (repeat (2 ^ 64 - 1) (Z.to_nat 416))) 416) 3 in
   Ok (firstn 2 (digits_ b), count_ b, match w with Some _ => true | None => false end)) =
  Ok ([Some (2 ^ 64 - 3); Some (2 ^ 64 - 1)], 416, true) /\
  (let* (b, w) := t_mulPow5 GNUC64 (Big (map Some (repeat 0 (Z.to_nat 415) ++ [1])) 416) 40 in
   Ok (last (digits_ b) None, count_ b, match w with Some _ => true | None => false end)) =
  Ok (Some ((5 ^ 40) mod 2 ^ 64), 416, true) /\
  (let* (b, w) := t_mulPow5 GNUC64 (Big (map Some (repeat 0 (Z.to_nat 415) ++ [8])) 416) 40 in
   Ok (last (digits_ b) None, count_ b, match w with Some _ => true | None => false end)) =
  Ok (Some ((8 * 5 ^ 27) mod 2 ^ 64), 416, true).
Proof. repeat (split; [vm_compute; reflexivity|]). vm_compute. reflexivity. Qed.

(** C89: programs on any number of objects, that catch the exceptions. *)
Theorem C89_programs : forall cc ops s vs, runs [] ops s vs ->
  exists st, execute_all cc [] ops = Ok (st, vs) /\
    Forall2 (fun v b => forall n, v = Some n -> holds_number (digits_ b) (count_ b) n) s st.
Proof. exact store_programs. Qed.
Print Assumptions C89_programs.

(** A program that makes five numbers, one of them from a text, copies, compares and subtracts
    them, sees five exceptions, and goes on with the object that one of them left. *)
Example C89_case : let n := (2 ^ 64 - 1) * 10 ^ 19 in
  example_program =
  [New 18446744073709551615; Do 0 (OMul 10000000000000000000); NewCopy 0; Do 1 (OAdd 7); Compare 0 1; New 0; Difference 0 1 2;
   NewText (str "12x"); NewText (str "184467440737095516150000000000000000000"); Equal 0 3; Difference 0 3 1; Shift 0 100; Shift 0 26630; Assign 2 0;
   Assign 2 2; Digit 2 2; Digit 2 4; IsZero 2; EqualWord 1 7; Do 2 (OPow5 20000); Do 2 (OAssign 5); New 9; Difference 2 4 4] /\
  runs [] example_program [Some (n * 2 ^ 100); Some (n + 7); Some 5; Some n; Some 4]
  [Nothing; Nothing; Nothing; Nothing; Number (-1); Nothing; Number 1; Refused; Nothing; Number 1; Refused; Nothing; Refused; Nothing;
   Nothing; Number ((n * 2 ^ 100 / 2 ^ 128) mod 2 ^ 64); Refused; Number 0; Number 0; Refused; Nothing; Nothing; Number 1].
Proof. split; [reflexivity|exact example_runs]. Qed.

Example C89_executed : (let* (st, vs) := execute_all GNUC64 [] (firstn 19 example_program) in Ok (map count_ st, skipn 15 vs)) =
  Ok ([4; 2; 4; 2], [Number 11421128617758674871; Refused; Number 0; Number 0]).
Proof. vm_compute. reflexivity. Qed.
