(** Model of include/lexi/detail/bigint.hpp and src/detail/bigint.cpp. *)
From Verif Require Import Machine ModelDiyfp.

(** ** Arrays of 64-bit words; [None] is an indeterminate word *)

Definition words := list (option Z).

(** [d[i]] *)
Definition word_read (d : words) (i : Z) : outcome Z :=
  if in_range i (Z.of_nat (length d)) then
    match nth (Z.to_nat i) d None with
    | Some w => Ok w
    | None => UB "read of an indeterminate word"
    end
  else UB "word read out of bounds".

(** [d[i] = w] *)
Definition word_write (d : words) (i : Z) (w : Z) : outcome words :=
  if in_range i (Z.of_nat (length d)) then Ok (set_nth d (Z.to_nat i) (Some w))
  else UB "word write out of bounds".

(** [memmove(&d[dst], &d[src], n * 8)]; indeterminate words may be copied. *)
Definition words_memmove (d : words) (dst src n : Z) : outcome words :=
  let len := Z.of_nat (length d) in
  if (0 <=? n) && (0 <=? dst) && (dst + n <=? len) && (0 <=? src) && (src + n <=? len) then
    let moved := firstn (Z.to_nat n) (skipn (Z.to_nat src) d) in
    Ok (firstn (Z.to_nat dst) d ++ moved ++ skipn (Z.to_nat (dst + n)) d)
  else UB "memmove out of bounds".

(** [memset(d, 0, n * 8)] *)
Definition words_clear (d : words) (n : Z) : outcome words :=
  if (0 <=? n) && (n <=? Z.of_nat (length d)) then
    Ok (repeat (Some 0) (Z.to_nat n) ++ skipn (Z.to_nat n) d)
  else UB "memset out of bounds".

(** [memcpy(d, s, n * 8)] *)
Definition words_copy (d s : words) (n : Z) : outcome words :=
  if (0 <=? n) && (n <=? Z.of_nat (length d)) && (n <=? Z.of_nat (length s)) then
    Ok (firstn (Z.to_nat n) s ++ skipn (Z.to_nat n) d)
  else UB "memcpy out of bounds".

(** [memcmp(d, s, n * 8) == 0]: equality of the first [n] words. *)
Fixpoint words_equal (d s : words) (i : Z) (n : nat) : outcome bool :=
  match n with
  | O => Ok true
  | S n => let* a := word_read d i in
           let* b := word_read s i in
           let* r := words_equal d s (i + 1) n in
           Ok ((a =? b) && r)
  end.

(** ** bigint.hpp:26-34 *)

(** The comment there says 54 words; the code makes 3328 / 8 = 416. *)
Definition capacity : Z := 3328 / 8.

Record BigInteger := Big { digits_ : words; count_ : Z }.

(** A new object: the digits are indeterminate. *)
Definition new_digits : words := repeat None (Z.to_nat capacity).

(** ** bigint.cpp:27-43 *)

Definition DIGITS_ITERATION : Z := 19.
Definition INT64_BYTE : Z := 8 * 8.
Definition POWER5 : list Z :=
  [5; 5 * 5; 5 * 5 * 5; 5 * 5 * 5 * 5; 5 * 5 * 5 * 5 * 5; 5 * 5 * 5 * 5 * 5 * 5;
   5 * 5 * 5 * 5 * 5 * 5 * 5; 5 * 5 * 5 * 5 * 5 * 5 * 5 * 5; 5 * 5 * 5 * 5 * 5 * 5 * 5 * 5 * 5;
   5 * 5 * 5 * 5 * 5 * 5 * 5 * 5 * 5 * 5; 5 * 5 * 5 * 5 * 5 * 5 * 5 * 5 * 5 * 5 * 5;
   5 * 5 * 5 * 5 * 5 * 5 * 5 * 5 * 5 * 5 * 5 * 5].

(** ** mulAdd: the result is the pair (returned word, *outHigh) *)

(** bigint.cpp:55-64 *)
Definition mulAdd_msvc (a b k : Z) : Z * Z :=
  let high := a * b / 2 ^ 64 in
  let low := u64 (u64 (a * b) + k) in
  (low, if low <? k then u64 (high + 1) else high).

(** bigint.cpp:70-80; [p] is an unsigned __int128. *)
Definition mulAdd_gnuc (a b k : Z) : Z * Z :=
  let p := (a * b) mod 2 ^ 128 in
  let p := (p + k) mod 2 ^ 128 in
  (u64 p, u64 (Z.shiftr p 64)).

(** bigint.cpp:86-107 *)
Definition mulAdd_generic (a b k : Z) : Z * Z :=
  let a0 := Z.land a 0xFFFFFFFF in
  let a1 := Z.shiftr a 32 in
  let b0 := Z.land b 0xFFFFFFFF in
  let b1 := Z.shiftr b 32 in
  let x0 := u64 (a0 * b0) in
  let x1 := u64 (a0 * b1) in
  let x2 := u64 (a1 * b0) in
  let x3 := u64 (a1 * b1) in
  let x1 := u64 (x1 + Z.shiftr x0 32) in
  let x1 := u64 (x1 + x2) in
  let x3 := if x1 <? x2 then u64 (x3 + Z.shiftl 1 32) else x3 in
  let lo := u64 (u64 (Z.shiftl x1 32) + Z.land x0 0xFFFFFFFF) in
  let hi := u64 (x3 + Z.shiftr x1 32) in
  let lo := u64 (lo + k) in
  let hi := if lo <? k then u64 (hi + 1) else hi in
  (lo, hi).

Definition mulAdd (cc : compiler) : Z -> Z -> Z -> Z * Z :=
  match cc with MSVC64 => mulAdd_msvc | GNUC64 => mulAdd_gnuc | Generic => mulAdd_generic end.

(** ** Members *)

(** bigint.cpp:133-137.  LEXI_ASSERT (define.hpp:19-22) throws the stringified message,
    quotes included. *)
Definition push_back (x : BigInteger) (digit : Z) : outcome BigInteger :=
  if count_ x <? capacity then
    let* d := word_write (digits_ x) (count_ x) digit in
    Ok (Big d (count_ x + 1))
  else Throw """BigInteger::push_back(), count_ >= capacity.""".

(** bigint.cpp:142-151.  The characters from [first] to [last] are the list; the comparison
    of characters with '0' and '9' does not depend on the signedness of char. *)
Fixpoint parse (r : Z) (p : bytes) : outcome Z :=
  match p with
  | [] => Ok r
  | c :: p =>
      if (48 <=? code c) && (code c <=? 57) then parse (u64 (u64 (r * 10) + (code c - 48))) p
      else Throw """Character is not from 0-9."""
  end.

(** bigint.cpp:156-160: copy constructor *)
Definition BigInteger_copy (other : BigInteger) : outcome BigInteger :=
  let* d := words_copy new_digits (digits_ other) (count_ other) in
  Ok (Big d (count_ other)).

(** bigint.cpp:165-172: copy assignment, from another object *)
Definition assign (x other : BigInteger) : outcome BigInteger :=
  let* d := words_copy (digits_ x) (digits_ other) (count_ other) in
  Ok (Big d (count_ other)).

(** bigint.cpp:177-181 *)
Definition BigInteger_word (digit : Z) : outcome BigInteger :=
  let* d := word_write new_digits 0 digit in Ok (Big d 1).

(** bigint.cpp:186-191 *)
Definition assign_word (x : BigInteger) (digit : Z) : outcome BigInteger :=
  let* d := word_write (digits_ x) 0 digit in Ok (Big d 1).

(** bigint.cpp:216-219 *)
Definition count (x : BigInteger) : Z := count_ x.

(** bigint.cpp:224-228 *)
Definition digit (x : BigInteger) (index : Z) : outcome Z :=
  if index <? count_ x then word_read (digits_ x) index
  else Throw """BigInteger::digit(), index is out of bounds.""".

(** bigint.cpp:233-236 *)
Definition big_isZero (x : BigInteger) : outcome bool :=
  if count_ x =? 1 then let* d := word_read (digits_ x) 0 in Ok (d =? 0) else Ok false.

(** bigint.cpp:245-256: the loop, [n] iterations left (up to count_ - 1), and the last
    carry. *)
Fixpoint add_loop (n : nat) (x : BigInteger) (i backup : Z) : outcome BigInteger :=
  let* d := word_read (digits_ x) i in
  match n with
  | O => if d <? backup then push_back x 1 else Ok x
  | S n =>
      if backup <=? d then Ok x
      else
        let* backup := word_read (digits_ x) (i + 1) in
        let* ds := word_write (digits_ x) (i + 1) (u64 (backup + 1)) in
        add_loop n (Big ds (count_ x)) (i + 1) backup
  end.

(** bigint.cpp:241-259 *)
Definition add_word (x : BigInteger) (digit : Z) : outcome BigInteger :=
  let* backup := word_read (digits_ x) 0 in
  let* d := word_write (digits_ x) 0 (u64 (backup + digit)) in
  add_loop (Z.to_nat (count_ x - 1)) (Big d (count_ x)) 0 backup.

(** bigint.cpp:365-368 *)
Definition equal_word (x : BigInteger) (other : Z) : outcome bool :=
  if count_ x =? 1 then let* d := word_read (digits_ x) 0 in Ok (d =? other) else Ok false.

(** The multiplication loops: [step] gives the new word and the carry. *)
Fixpoint mul_loop (step : Z -> Z -> Z * Z) (n : nat) (d : words) (i k : Z) : outcome (words * Z) :=
  match n with
  | O => Ok (d, k)
  | S n =>
      let* w := word_read d i in
      let (lo, hi) := step w k in
      let* d := word_write d i lo in
      mul_loop step n d (i + 1) hi
  end.

Definition multiply (step : Z -> Z -> Z * Z) (x : BigInteger) (digit : Z) : outcome BigInteger :=
  if digit =? 0 then assign_word x 0
  else if digit =? 1 then Ok x
  else
    let* one := equal_word x 1 in
    if one then assign_word x digit
    else
      let* (d, k) := mul_loop step (Z.to_nat (count_ x)) (digits_ x) 0 0 in
      if 0 <? k then push_back (Big d (count_ x)) k else Ok (Big d (count_ x)).

(** bigint.cpp:264-286 *)
Definition mul_word (cc : compiler) (x : BigInteger) (digit : Z) : outcome BigInteger :=
  multiply (fun w k => mulAdd cc w digit k) x digit.

(** bigint.cpp:303-310: one word of the 32-bit multiplication *)
Definition mul32_step (digit w k : Z) : Z * Z :=
  let c := Z.shiftr w 32 in
  let d := Z.land w 0xFFFFFFFF in
  let uc := u64 (digit * c) in
  let ud := u64 (digit * d) in
  let p0 := u64 (ud + k) in
  let p1 := u64 (uc + Z.shiftr p0 32) in
  (Z.lor (Z.land p0 0xFFFFFFFF) (u64 (Z.shiftl p1 32)), Z.shiftr p1 32).

(** bigint.cpp:291-318 *)
Definition mul_word32 (x : BigInteger) (digit : Z) : outcome BigInteger :=
  multiply (mul32_step digit) x digit.

(** bigint.cpp:339-341: i from [n] down to 1 *)
Fixpoint shift_loop (n : nat) (d : words) (offset interShift : Z) : outcome words :=
  match n with
  | O => Ok d
  | S m =>
      let i := Z.of_nat n in
      let* a := word_read d i in
      let* b := word_read d (i - 1) in
      let* hi := shl64 a interShift in
      let* lo := shr64 b (INT64_BYTE - interShift) in
      let* d := word_write d (i + offset) (Z.lor hi lo) in
      shift_loop m d offset interShift
  end.

(** bigint.cpp:323-352 *)
Definition shift_left (x : BigInteger) (shift : Z) : outcome BigInteger :=
  let* zero := big_isZero x in
  if zero || (shift =? 0) then Ok x
  else
    let offset := shift / INT64_BYTE in
    let interShift := shift mod INT64_BYTE in
    if count_ x + offset <=? capacity then
      let* y :=
        if interShift =? 0 then
          let* d := words_memmove (digits_ x) (count_ x - 1 + offset) (count_ x - 1) (count_ x) in
          Ok (Big d (count_ x + offset))
        else
          let* d := word_write (digits_ x) (count_ x) 0 in
          let* d := shift_loop (Z.to_nat (count_ x)) d offset interShift in
          let* low := word_read d 0 in
          let* low := shl64 low interShift in
          let* d := word_write d offset low in
          let c := count_ x + offset in
          let* top := word_read d c in
          Ok (Big d (if top =? 0 then c else c + 1)) in
      let* d := words_clear (digits_ y) offset in
      Ok (Big d (count_ y))
    else Throw """BigInteger::operator<<= would exceeds bounds.""".

(** bigint.cpp:357-360 *)
Definition equal (x other : BigInteger) : outcome bool :=
  if count_ x =? count_ other
  then words_equal (digits_ x) (digits_ other) 0 (Z.to_nat (count_ x))
  else Ok false.

(** bigint.cpp:378-380 and 381-383: multiply while the exponent is large enough; the fuel
    bounds the number of rounds. *)
Fixpoint pow5_loop (mult : BigInteger -> outcome BigInteger) (step : Z) (fuel : nat)
    (x : BigInteger) (exponent : Z) : outcome (BigInteger * Z) :=
  if step <=? exponent then
    match fuel with
    | O => NoFuel
    | S fuel => let* x := mult x in pow5_loop mult step fuel x (exponent - step)
    end
  else Ok (x, exponent).

(** bigint.cpp:373-388.  [exponent] is an unsigned int. *)
Definition mulPow5 (cc : compiler) (x : BigInteger) (exponent : Z) : outcome BigInteger :=
  if exponent =? 0 then Ok x
  else
    let fuel := Z.to_nat exponent in
    let* (x, exponent) := pow5_loop (fun x => mul_word cc x 0x6765C793FA10079D) 27 fuel x exponent in
    let* (x, exponent) := pow5_loop (fun x => mul_word32 x 1220703125) 13 fuel x exponent in
    if 0 <? exponent then
      (if in_range (exponent - 1) (Z.of_nat (length POWER5))
       then mul_word32 x (nth (Z.to_nat (exponent - 1)) POWER5 0)
       else UB "POWER5 read out of bounds")
    else Ok x.

(** bigint.cpp:118-128 *)
Definition add (cc : compiler) (x : BigInteger) (p : bytes) : outcome BigInteger :=
  let* digit := parse 0 p in
  let* zero := big_isZero x in
  if zero then assign_word x digit
  else
    let exp := Z.of_nat (length p) in
    let* x := mulPow5 cc x exp in
    let* x := shift_left x exp in
    add_word x digit.

(** bigint.cpp:202-210: the list holds the [length] characters left. *)
Fixpoint decimals_loop (cc : compiler) (fuel : nat) (x : BigInteger) (s : bytes) : outcome BigInteger :=
  if DIGITS_ITERATION <=? Z.of_nat (length s) then
    match fuel with
    | O => NoFuel
    | S fuel =>
        let* x := add cc x (firstn (Z.to_nat DIGITS_ITERATION) s) in
        decimals_loop cc fuel x (skipn (Z.to_nat DIGITS_ITERATION) s)
    end
  else if 0 <? Z.of_nat (length s) then add cc x s
  else Ok x.

(** bigint.cpp:196-211.  [decimals] points at (at least) [length] characters. *)
Definition BigInteger_decimals (cc : compiler) (s : bytes) : outcome BigInteger :=
  let* x := BigInteger_word 0 in
  decimals_loop cc (length s) x s.

(** bigint.cpp:434-437: [n] words left to compare *)
Fixpoint compare_loop (n : nat) (d s : words) : outcome Z :=
  match n with
  | O => Ok 0
  | S n =>
      let i := Z.of_nat n in
      let* a := word_read d i in
      let* b := word_read s i in
      if a =? b then compare_loop n d s
      else Ok (if a <? b then -1 else 1)
  end.

(** bigint.cpp:428-440 *)
Definition compare (x other : BigInteger) : outcome Z :=
  if count_ x =? count_ other
  then compare_loop (Z.to_nat (count_ x)) (digits_ x) (digits_ other)
  else Ok (if count_ x <? count_ other then -1 else 1).

(** Which operand the output object of [difference] is: another object, the larger or the
    smaller number. *)
Inductive target := Apart | Larger | Smaller.

(** bigint.cpp:409-420.  The objects [a] and [b] are shown by their current contents: when
    the output is one of them, every write to it changes that one. *)
Fixpoint difference_loop (fuel : nat) (t : target) (a b out : BigInteger) (i borrow : Z)
  : outcome BigInteger :=
  if i <? count_ a then
    match fuel with
    | O => NoFuel
    | S fuel =>
        let* ai := word_read (digits_ a) i in
        let d := u64 (ai - borrow) in
        let* d := if i <? count_ b
                  then let* bi := word_read (digits_ b) i in Ok (u64 (d - bi))
                  else Ok d in
        let borrow := if ai <? d then 1 else 0 in
        let* ds := word_write (digits_ out) i d in
        let out := Big ds (if d =? 0 then count_ out else i + 1) in
        let a := match t with Larger => out | _ => a end in
        let b := match t with Smaller => out | _ => b end in
        difference_loop fuel t a b out (i + 1) borrow
    end
  else Ok out.

(** Where [out] points: elsewhere, at [*this], or at [other]. *)
Inductive output := OutApart (out : BigInteger) | OutThis | OutOther.

(** bigint.cpp:393-423; the new contents of [*out] and the returned bool *)
Definition difference (x other : BigInteger) (o : output) : outcome (BigInteger * bool) :=
  let* cmp := compare x other in
  if cmp =? 0 then Throw """Cannot calculate difference with identical integers."""
  else
    let ret := cmp <? 0 in
    let a := if ret then other else x in
    let b := if ret then x else other in
    let (t, out) := match o with
                    | OutApart out => (Apart, out)
                    | OutThis => (if ret then Smaller else Larger, x)
                    | OutOther => (if ret then Larger else Smaller, other)
                    end in
    let* out := difference_loop (Z.to_nat capacity) t a b out 0 0 in
    Ok (out, ret).
