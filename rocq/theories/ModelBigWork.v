(** The BigInteger of src/detail/bigint.cpp with every turn of a loop written down.

    The functions are those of ModelBigint.v; each loop also records one entry per execution of its
    body, and the record is kept when the function throws.  memmove, memset, memcpy and memcmp are
    calls of the C library and leave no entry. *)
From Verif Require Import Machine ModelDiyfp ModelBigint SpecBigWork.
Open Scope Z_scope.

(** A run with its record. *)
Definition logged (A : Type) : Type := (outcome A * list work)%type.

Definition still {A} (m : outcome A) : logged A := (m, []).
Definition next {A B} (m : logged A) (f : A -> logged B) : logged B :=
  match fst m with
  | Ok x => (fst (f x), snd m ++ snd (f x))
  | Throw e => (Throw e, snd m)
  | UB s => (UB s, snd m)
  | NoFuel => (NoFuel, snd m)
  end.
(** One turn of a loop. *)
Definition turn_in {A} (a : work) (m : logged A) : logged A := (fst m, a :: snd m).

(** bigint.cpp:142-151 *)
Fixpoint l_parse (r : Z) (p : bytes) : logged Z :=
  match p with
  | [] => still (Ok r)
  | c :: p =>
      turn_in Char
        (if (48 <=? code c) && (code c <=? 57) then l_parse (u64 (u64 (r * 10) + (code c - 48))) p
         else still (Throw """Character is not from 0-9."""))
  end.

(** bigint.cpp:245-256 *)
Fixpoint l_add_loop (n : nat) (x : BigInteger) (i backup : Z) : logged BigInteger :=
  match n with
  | O => still (let* d := word_read (digits_ x) i in if d <? backup then push_back x 1 else Ok x)
  | S n =>
      turn_in Word
        (next (still (word_read (digits_ x) i)) (fun d =>
         if backup <=? d then still (Ok x)
         else
           next (still (word_read (digits_ x) (i + 1))) (fun backup =>
           next (still (word_write (digits_ x) (i + 1) (u64 (backup + 1)))) (fun ds =>
           l_add_loop n (Big ds (count_ x)) (i + 1) backup))))
  end.

(** bigint.cpp:241-259 *)
Definition l_add_word (x : BigInteger) (digit : Z) : logged BigInteger :=
  next (still (word_read (digits_ x) 0)) (fun backup =>
  next (still (word_write (digits_ x) 0 (u64 (backup + digit)))) (fun d =>
  l_add_loop (Z.to_nat (count_ x - 1)) (Big d (count_ x)) 0 backup)).

(** bigint.cpp:275-279 and 302-311 *)
Fixpoint l_mul_loop (step : Z -> Z -> Z * Z) (n : nat) (d : words) (i k : Z) : logged (words * Z) :=
  match n with
  | O => still (Ok (d, k))
  | S n =>
      turn_in Word
        (next (still (word_read d i)) (fun w =>
         let (lo, hi) := step w k in
         next (still (word_write d i lo)) (fun d => l_mul_loop step n d (i + 1) hi)))
  end.

Definition l_multiply (step : Z -> Z -> Z * Z) (x : BigInteger) (digit : Z) : logged BigInteger :=
  if digit =? 0 then still (assign_word x 0)
  else if digit =? 1 then still (Ok x)
  else
    next (still (equal_word x 1)) (fun one =>
    if one : bool then still (assign_word x digit)
    else
      next (l_mul_loop step (Z.to_nat (count_ x)) (digits_ x) 0 0) (fun '(d, k) =>
      still (if 0 <? k then push_back (Big d (count_ x)) k else Ok (Big d (count_ x))))).

(** bigint.cpp:264-286 *)
Definition l_mul_word (cc : compiler) (x : BigInteger) (digit : Z) : logged BigInteger :=
  l_multiply (fun w k => mulAdd cc w digit k) x digit.
(** bigint.cpp:291-318 *)
Definition l_mul_word32 (x : BigInteger) (digit : Z) : logged BigInteger :=
  l_multiply (mul32_step digit) x digit.

(** bigint.cpp:339-341 *)
Fixpoint l_shift_loop (n : nat) (d : words) (offset interShift : Z) : logged words :=
  match n with
  | O => still (Ok d)
  | S m =>
      let i := Z.of_nat n in
      turn_in Word
        (next (still (
           let* a := word_read d i in
           let* b := word_read d (i - 1) in
           let* hi := shl64 a interShift in
           let* lo := shr64 b (INT64_BYTE - interShift) in
           word_write d (i + offset) (Z.lor hi lo))) (fun d =>
         l_shift_loop m d offset interShift))
  end.

(** bigint.cpp:323-352 *)
Definition l_shift_left (x : BigInteger) (shift : Z) : logged BigInteger :=
  next (still (big_isZero x)) (fun zero =>
  if zero || (shift =? 0) then still (Ok x)
  else
    let offset := shift / INT64_BYTE in
    let interShift := shift mod INT64_BYTE in
    if count_ x + offset <=? capacity then
      next
        (if interShift =? 0 then
           still (let* d := words_memmove (digits_ x) (count_ x - 1 + offset) (count_ x - 1) (count_ x) in
                  Ok (Big d (count_ x + offset)))
         else
           next (still (word_write (digits_ x) (count_ x) 0)) (fun d =>
           next (l_shift_loop (Z.to_nat (count_ x)) d offset interShift) (fun d =>
           still (
             let* low := word_read d 0 in
             let* low := shl64 low interShift in
             let* d := word_write d offset low in
             let c := count_ x + offset in
             let* top := word_read d c in
             Ok (Big d (if top =? 0 then c else c + 1))))))
        (fun y => still (let* d := words_clear (digits_ y) offset in Ok (Big d (count_ y))))
    else still (Throw """BigInteger::operator<<= would exceeds bounds.""")).

(** bigint.cpp:378-383 *)
Fixpoint l_pow5_loop (mult : BigInteger -> logged BigInteger) (step : Z) (fuel : nat)
    (x : BigInteger) (exponent : Z) : logged (BigInteger * Z) :=
  if step <=? exponent then
    match fuel with
    | O => still NoFuel
    | S fuel => turn_in Power (next (mult x) (fun x => l_pow5_loop mult step fuel x (exponent - step)))
    end
  else still (Ok (x, exponent)).

(** bigint.cpp:373-388 *)
Definition l_mulPow5 (cc : compiler) (x : BigInteger) (exponent : Z) : logged BigInteger :=
  if exponent =? 0 then still (Ok x)
  else
    let fuel := Z.to_nat exponent in
    next (l_pow5_loop (fun x => l_mul_word cc x 0x6765C793FA10079D) 27 fuel x exponent) (fun '(x, exponent) =>
    next (l_pow5_loop (fun x => l_mul_word32 x 1220703125) 13 fuel x exponent) (fun '(x, exponent) =>
    if 0 <? exponent then
      (if in_range (exponent - 1) (Z.of_nat (length POWER5))
       then l_mul_word32 x (nth (Z.to_nat (exponent - 1)) POWER5 0)
       else still (UB "POWER5 read out of bounds"))
    else still (Ok x))).

(** bigint.cpp:118-128 *)
Definition l_add (cc : compiler) (x : BigInteger) (p : bytes) : logged BigInteger :=
  next (l_parse 0 p) (fun digit =>
  next (still (big_isZero x)) (fun zero =>
  if zero : bool then still (assign_word x digit)
  else
    let exp := Z.of_nat (length p) in
    next (l_mulPow5 cc x exp) (fun x =>
    next (l_shift_left x exp) (fun x =>
    l_add_word x digit)))).

(** bigint.cpp:202-210 *)
Fixpoint l_decimals_loop (cc : compiler) (fuel : nat) (x : BigInteger) (s : bytes) : logged BigInteger :=
  if DIGITS_ITERATION <=? Z.of_nat (length s) then
    match fuel with
    | O => still NoFuel
    | S fuel =>
        turn_in Group
          (next (l_add cc x (firstn (Z.to_nat DIGITS_ITERATION) s)) (fun x =>
           l_decimals_loop cc fuel x (skipn (Z.to_nat DIGITS_ITERATION) s)))
    end
  else if 0 <? Z.of_nat (length s) then l_add cc x s
  else still (Ok x).

(** bigint.cpp:196-211 *)
Definition l_BigInteger_decimals (cc : compiler) (s : bytes) : logged BigInteger :=
  next (still (BigInteger_word 0)) (fun x => l_decimals_loop cc (length s) x s).

(** bigint.cpp:434-437 *)
Fixpoint l_compare_loop (n : nat) (d s : words) : logged Z :=
  match n with
  | O => still (Ok 0)
  | S n =>
      let i := Z.of_nat n in
      turn_in Word
        (next (still (word_read d i)) (fun a =>
         next (still (word_read s i)) (fun b =>
         if a =? b then l_compare_loop n d s
         else still (Ok (if a <? b then -1 else 1)))))
  end.

(** bigint.cpp:428-440 *)
Definition l_compare (x other : BigInteger) : logged Z :=
  if count_ x =? count_ other
  then l_compare_loop (Z.to_nat (count_ x)) (digits_ x) (digits_ other)
  else still (Ok (if count_ x <? count_ other then -1 else 1)).

(** bigint.cpp:409-420 *)
Fixpoint l_difference_loop (fuel : nat) (t : target) (a b out : BigInteger) (i borrow : Z)
  : logged BigInteger :=
  if i <? count_ a then
    match fuel with
    | O => still NoFuel
    | S fuel =>
        turn_in Word
          (next (still (word_read (digits_ a) i)) (fun ai =>
           let d := u64 (ai - borrow) in
           next (still (if i <? count_ b
                        then let* bi := word_read (digits_ b) i in Ok (u64 (d - bi))
                        else Ok d)) (fun d =>
           let borrow := if ai <? d then 1 else 0 in
           next (still (word_write (digits_ out) i d)) (fun ds =>
           let out := Big ds (if d =? 0 then count_ out else i + 1) in
           let a := match t with Larger => out | _ => a end in
           let b := match t with Smaller => out | _ => b end in
           l_difference_loop fuel t a b out (i + 1) borrow))))
    end
  else still (Ok out).

(** bigint.cpp:393-423 *)
Definition l_difference (x other : BigInteger) (o : output) : logged (BigInteger * bool) :=
  next (l_compare x other) (fun cmp =>
  if cmp =? 0 then still (Throw """Cannot calculate difference with identical integers.""")
  else
    let ret := cmp <? 0 in
    let a := if ret then other else x in
    let b := if ret then x else other in
    let (t, out) := match o with
                    | OutApart out => (Apart, out)
                    | OutThis => (if ret then Smaller else Larger, x)
                    | OutOther => (if ret then Larger else Smaller, other)
                    end in
    next (l_difference_loop (Z.to_nat capacity) t a b out 0 0) (fun out => still (Ok (out, ret)))).
