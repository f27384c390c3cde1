(** BigInteger again (src/detail/bigint.cpp), now with the object that an exception leaves
    behind.  The result of an operation is the object afterwards and the message if it threw. *)
From Verif Require Import Machine ModelDiyfp ModelBigint.

Definition attempt := outcome (BigInteger * option string).

(** An operation that returned. *)
Definition returned (m : outcome BigInteger) : attempt := let* x := m in Ok (x, None).

(** [m; k]: an exception leaves the function at once. *)
Definition then_ (m : attempt) (k : BigInteger -> attempt) : attempt :=
  let* (x, thrown) := m in
  match thrown with None => k x | Some w => Ok (x, Some w) end.

(** bigint.cpp:133-137: the check is before the write. *)
Definition t_push_back (x : BigInteger) (digit : Z) : attempt :=
  if count_ x <? capacity then
    let* d := word_write (digits_ x) (count_ x) digit in
    Ok (Big d (count_ x + 1), None)
  else Ok (x, Some """BigInteger::push_back(), count_ >= capacity."""%string).

(** bigint.cpp:245-256: the words have been written when the last carry is pushed. *)
Fixpoint t_add_loop (n : nat) (x : BigInteger) (i backup : Z) : attempt :=
  let* d := word_read (digits_ x) i in
  match n with
  | O => if d <? backup then t_push_back x 1 else Ok (x, None)
  | S n =>
      if backup <=? d then Ok (x, None)
      else
        let* backup := word_read (digits_ x) (i + 1) in
        let* ds := word_write (digits_ x) (i + 1) (u64 (backup + 1)) in
        t_add_loop n (Big ds (count_ x)) (i + 1) backup
  end.

(** bigint.cpp:241-259 *)
Definition t_add_word (x : BigInteger) (digit : Z) : attempt :=
  let* backup := word_read (digits_ x) 0 in
  let* d := word_write (digits_ x) 0 (u64 (backup + digit)) in
  t_add_loop (Z.to_nat (count_ x - 1)) (Big d (count_ x)) 0 backup.

(** bigint.cpp:264-286 and 291-318: all words have been multiplied when the carry is pushed. *)
Definition t_multiply (step : Z -> Z -> Z * Z) (x : BigInteger) (digit : Z) : attempt :=
  if digit =? 0 then returned (assign_word x 0)
  else if digit =? 1 then Ok (x, None)
  else
    let* one := equal_word x 1 in
    if one then returned (assign_word x digit)
    else
      let* (d, k) := mul_loop step (Z.to_nat (count_ x)) (digits_ x) 0 0 in
      if 0 <? k then t_push_back (Big d (count_ x)) k else Ok (Big d (count_ x), None).
Definition t_mul_word (cc : compiler) (x : BigInteger) (digit : Z) : attempt :=
  t_multiply (fun w k => mulAdd cc w digit k) x digit.
Definition t_mul_word32 (x : BigInteger) (digit : Z) : attempt := t_multiply (mul32_step digit) x digit.

(** bigint.cpp:323-352: the assertion is before any write. *)
Definition t_shift_left (x : BigInteger) (shift : Z) : attempt :=
  let* zero := big_isZero x in
  if zero || (shift =? 0) || (count_ x + shift / INT64_BYTE <=? capacity) then returned (shift_left x shift)
  else Ok (x, Some """BigInteger::operator<<= would exceeds bounds."""%string).

(** bigint.cpp:378-380 and 381-383; the exponent left is given with the object. *)
Fixpoint t_pow5_loop (mult : BigInteger -> attempt) (step : Z) (fuel : nat)
    (x : BigInteger) (exponent : Z) (k : BigInteger -> Z -> attempt) : attempt :=
  if step <=? exponent then
    match fuel with
    | O => NoFuel
    | S fuel => then_ (mult x) (fun x => t_pow5_loop mult step fuel x (exponent - step) k)
    end
  else k x exponent.

(** bigint.cpp:373-388 *)
Definition t_mulPow5 (cc : compiler) (x : BigInteger) (exponent : Z) : attempt :=
  if exponent =? 0 then Ok (x, None)
  else
    let fuel := Z.to_nat exponent in
    t_pow5_loop (fun x => t_mul_word cc x 0x6765C793FA10079D) 27 fuel x exponent (fun x exponent =>
    t_pow5_loop (fun x => t_mul_word32 x 1220703125) 13 fuel x exponent (fun x exponent =>
    if 0 <? exponent then
      (if in_range (exponent - 1) (Z.of_nat (length POWER5))
       then t_mul_word32 x (nth (Z.to_nat (exponent - 1)) POWER5 0)
       else UB "POWER5 read out of bounds")
    else Ok (x, None))).

(** bigint.cpp:393-423: the assertion is before any write; [before] is the object that [o]
    points at.  The bool is what is returned. *)
Definition t_difference (x other : BigInteger) (o : output) : outcome (BigInteger * (string + bool)) :=
  let before := match o with OutApart out => out | OutThis => x | OutOther => other end in
  let* cmp := compare x other in
  if cmp =? 0 then Ok (before, inl """Cannot calculate difference with identical integers."""%string)
  else let* (out, ret) := difference x other o in Ok (out, inr ret).
