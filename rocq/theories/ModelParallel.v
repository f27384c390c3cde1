(** Values of all types formatted, extracted and escaped by several threads that share memory: the functions of the
    library with every access to an array as a step of its own, between which other threads run.  The text of the
    functions is that of ModelItoa.v, ModelInt.v, ModelText.v, ModelDtoa.v and ModelFloat.v. *)
From Coq Require Import Floats.SpecFloat.
From Verif Require Import Machine ModelItoa ModelInt ModelText ModelIeee ModelDiyfp ModelDtoa ModelFloat ModelLexi.

(** What a thread still has to do.  Local variables of arithmetic and pointer types are in registers; the arrays are in
    memory, where each object has a number.  A byte may be copied before it was written; it is then [None]. *)
Inductive action (A : Type) : Type :=
| Return (a : A)
| Stop (why : string)
| Load (object offset : Z) (k : option ascii -> action A)
| Store (object offset : Z) (x : option ascii) (k : action A).
Arguments Return {A} a. Arguments Stop {A} why. Arguments Load {A} object offset k. Arguments Store {A} object offset x k.

Fixpoint sequence {A B} (p : action A) (f : A -> action B) : action B :=
  match p with
  | Return a => f a
  | Stop why => Stop why
  | Load o i k => Load o i (fun c => sequence (k c) f)
  | Store o i c k => Store o i c (sequence k f)
  end.
Notation "'let?' x := m 'in' k" := (sequence m (fun x => k)) (at level 61, x pattern, m at next level, k at level 200, right associativity).

(** A computation without access to arrays of characters.  The tables of numbers POWER10 and CACHED_POWERS are
    constants, to which there is no [Store]. *)
Definition lift {A} (x : outcome A) : action A := match x with Ok a => Return a | _ => Stop "undefined" end.

(** The use of a byte that was never written is undefined. *)
Definition t_get (o i : Z) : action ascii := Load o i (fun x => match x with Some c => Return c | None => Stop "indeterminate" end).
Definition t_set (o i : Z) (c : ascii) : action unit := Store o i (Some c) (Return tt).

(** ** itoa.cpp *)

(** The objects with the two [DIGITS], itoa.cpp:19-31 and dtoa.cpp:21-33, and the literals of define.hpp. *)
Definition DIGITS_OBJECT : Z := 0.
Definition DTOA_DIGITS_OBJECT : Z := 1.
Definition NULL_OBJECT : Z := 2.
Definition TRUE_OBJECT : Z := 3.
Definition FALSE_OBJECT : Z := 4.
Definition NAN_OBJECT : Z := 5.
Definition INFINITY_OBJECT : Z := 6.
Definition NEGATIVE_INFINITY_OBJECT : Z := 7.
Definition FIRST_STRING : Z := 8.

(** A pointer into an array. *)
Definition place : Type := Z * Z.

(** [*buffer++ = c] *)
Definition t_put (buffer : place) (c : ascii) : action place :=
  let? _ := t_set (fst buffer) (snd buffer) c in Return (fst buffer, snd buffer + 1).

(** [*buffer++ = DIGITS_PTR[i]] *)
Definition t_put_digit (buffer : place) (i : Z) : action place :=
  let? c := t_get DIGITS_OBJECT i in t_put buffer c.

(** [if (b) *buffer++ = DIGITS_PTR[i]] *)
Definition t_put_digit_if (b : bool) (buffer : place) (i : Z) : action place :=
  if b then t_put_digit buffer i else Return buffer.

(** src/detail/itoa.cpp:49-126  [u32toa] *)
Definition t_u32toa (value : Z) (buffer : place) : action place :=
  if value <? 10000 then                                             (* 52 *)
    let d1 := shl1 (value / 100) in
    let d2 := shl1 (value mod 100) in
    let? buffer := t_put_digit_if (1000 <=? value) buffer d1 in         (* 56 *)
    let? buffer := t_put_digit_if (100 <=? value) buffer (d1 + 1) in
    let? buffer := t_put_digit_if (10 <=? value) buffer d2 in
    t_put_digit buffer (d2 + 1)                                         (* 65 *)
  else if value <? 100000000 then                                     (* 67 *)
    let b := value / 10000 in
    let c := value mod 10000 in
    let d1 := shl1 (b / 100) in
    let d2 := shl1 (b mod 100) in
    let d3 := shl1 (c / 100) in
    let d4 := shl1 (c mod 100) in
    let? buffer := t_put_digit_if (10000000 <=? value) buffer d1 in     (* 78 *)
    let? buffer := t_put_digit_if (1000000 <=? value) buffer (d1 + 1) in
    let? buffer := t_put_digit_if (100000 <=? value) buffer d2 in
    let? buffer := t_put_digit buffer (d2 + 1) in                       (* 87 *)
    let? buffer := t_put_digit buffer d3 in
    let? buffer := t_put_digit buffer (d3 + 1) in
    let? buffer := t_put_digit buffer d4 in
    t_put_digit buffer (d4 + 1)                                         (* 92 *)
  else                                                                (* 93 *)
    let a := value / 100000000 in
    let value := value mod 100000000 in
    let? buffer :=
      if 10 <=? a then                                                (* 99 *)
        let i := shl1 a in
        let? buffer := t_put_digit buffer i in
        t_put_digit buffer (i + 1)
      else t_put buffer (chr (48 + a)) in                               (* 104 *)
    let b := value / 10000 in
    let c := value mod 10000 in
    let d1 := shl1 (b / 100) in
    let d2 := shl1 (b mod 100) in
    let d3 := shl1 (c / 100) in
    let d4 := shl1 (c mod 100) in
    let? buffer := t_put_digit buffer d1 in                             (* 116 *)
    let? buffer := t_put_digit buffer (d1 + 1) in
    let? buffer := t_put_digit buffer d2 in
    let? buffer := t_put_digit buffer (d2 + 1) in
    let? buffer := t_put_digit buffer d3 in
    let? buffer := t_put_digit buffer (d3 + 1) in
    let? buffer := t_put_digit buffer d4 in
    t_put_digit buffer (d4 + 1).                                        (* 123 *)

(** src/detail/itoa.cpp:131-140  [i32toa].  [~u + 1] on uint32_t is [u32 (-u)];
    written as the code computes it. *)
Definition t_i32toa (value : Z) (buffer : place) : action place :=
  let u := u32 value in
  if value <? 0 then
    let? buffer := t_put buffer "-"%char in
    t_u32toa (u32 ((2 ^ 32 - 1 - u) + 1)) buffer
  else t_u32toa u buffer.

(** src/detail/itoa.cpp:145-298  [u64toa] *)
Definition t_u64toa (value : Z) (buffer : place) : action place :=
  if value <? TEN8 then                                               (* 148 *)
    let v := u32 value in
    if v <? 10000 then
      let d1 := shl1 (v / 100) in
      let d2 := shl1 (v mod 100) in
      let? buffer := t_put_digit_if (1000 <=? v) buffer d1 in           (* 154 *)
      let? buffer := t_put_digit_if (100 <=? v) buffer (d1 + 1) in
      let? buffer := t_put_digit_if (10 <=? v) buffer d2 in
      t_put_digit buffer (d2 + 1)
    else
      let b := v / 10000 in                                           (* 164 *)
      let c := v mod 10000 in
      let d1 := shl1 (b / 100) in
      let d2 := shl1 (b mod 100) in
      let d3 := shl1 (c / 100) in
      let d4 := shl1 (c mod 100) in
      let? buffer := t_put_digit_if (10000000 <=? value) buffer d1 in   (* 173 *)
      let? buffer := t_put_digit_if (1000000 <=? value) buffer (d1 + 1) in
      let? buffer := t_put_digit_if (100000 <=? value) buffer d2 in
      let? buffer := t_put_digit buffer (d2 + 1) in
      let? buffer := t_put_digit buffer d3 in
      let? buffer := t_put_digit buffer (d3 + 1) in
      let? buffer := t_put_digit buffer d4 in
      t_put_digit buffer (d4 + 1)
  else if value <? TEN16 then                                         (* 186 *)
    let v0 := u32 (value / TEN8) in
    let v1 := u32 (value mod TEN8) in
    let b0 := v0 / 10000 in
    let c0 := v0 mod 10000 in
    let d1 := shl1 (b0 / 100) in
    let d2 := shl1 (b0 mod 100) in
    let d3 := shl1 (c0 / 100) in
    let d4 := shl1 (c0 mod 100) in
    let b1 := v1 / 10000 in
    let c1 := v1 mod 10000 in
    let d5 := shl1 (b1 / 100) in
    let d6 := shl1 (b1 mod 100) in
    let d7 := shl1 (c1 / 100) in
    let d8 := shl1 (c1 mod 100) in
    let? buffer := t_put_digit_if (TEN15 <=? value) buffer d1 in        (* 208 *)
    let? buffer := t_put_digit_if (TEN14 <=? value) buffer (d1 + 1) in
    let? buffer := t_put_digit_if (TEN13 <=? value) buffer d2 in
    let? buffer := t_put_digit_if (TEN12 <=? value) buffer (d2 + 1) in
    let? buffer := t_put_digit_if (TEN11 <=? value) buffer d3 in
    let? buffer := t_put_digit_if (TEN10 <=? value) buffer (d3 + 1) in
    let? buffer := t_put_digit_if (TEN9 <=? value) buffer d4 in
    let? buffer := t_put_digit_if (TEN8 <=? value) buffer (d4 + 1) in
    let? buffer := t_put_digit buffer d5 in                             (* 225 *)
    let? buffer := t_put_digit buffer (d5 + 1) in
    let? buffer := t_put_digit buffer d6 in
    let? buffer := t_put_digit buffer (d6 + 1) in
    let? buffer := t_put_digit buffer d7 in
    let? buffer := t_put_digit buffer (d7 + 1) in
    let? buffer := t_put_digit buffer d8 in
    t_put_digit buffer (d8 + 1)
  else                                                                (* 233 *)
    let a := u32 (value / TEN16) in
    let value := value mod TEN16 in
    let? buffer :=
      if a <? 10 then t_put buffer (chr (48 + a))                       (* 238 *)
      else if a <? 100 then
        let i := shl1 a in
        let? buffer := t_put_digit buffer i in
        t_put_digit buffer (i + 1)
      else if a <? 1000 then
        let? buffer := t_put buffer (chr (48 + a / 100)) in             (* 244 *)
        let i := shl1 (a mod 100) in
        let? buffer := t_put_digit buffer i in
        t_put_digit buffer (i + 1)
      else
        let i := shl1 (a / 100) in                                    (* 250 *)
        let j := shl1 (a mod 100) in
        let? buffer := t_put_digit buffer i in
        let? buffer := t_put_digit buffer (i + 1) in
        let? buffer := t_put_digit buffer j in
        t_put_digit buffer (j + 1) in
    let v0 := u32 (value / TEN8) in                                   (* 258 *)
    let v1 := u32 (value mod TEN8) in
    let b0 := v0 / 10000 in
    let c0 := v0 mod 10000 in
    let d1 := shl1 (b0 / 100) in
    let d2 := shl1 (b0 mod 100) in
    let d3 := shl1 (c0 / 100) in
    let d4 := shl1 (c0 mod 100) in
    let b1 := v1 / 10000 in
    let c1 := v1 mod 10000 in
    let d5 := shl1 (b1 / 100) in
    let d6 := shl1 (b1 mod 100) in
    let d7 := shl1 (c1 / 100) in
    let d8 := shl1 (c1 mod 100) in
    let? buffer := t_put_digit buffer d1 in                             (* 279 *)
    let? buffer := t_put_digit buffer (d1 + 1) in
    let? buffer := t_put_digit buffer d2 in
    let? buffer := t_put_digit buffer (d2 + 1) in
    let? buffer := t_put_digit buffer d3 in
    let? buffer := t_put_digit buffer (d3 + 1) in
    let? buffer := t_put_digit buffer d4 in
    let? buffer := t_put_digit buffer (d4 + 1) in
    let? buffer := t_put_digit buffer d5 in
    let? buffer := t_put_digit buffer (d5 + 1) in
    let? buffer := t_put_digit buffer d6 in
    let? buffer := t_put_digit buffer (d6 + 1) in
    let? buffer := t_put_digit buffer d7 in
    let? buffer := t_put_digit buffer (d7 + 1) in
    let? buffer := t_put_digit buffer d8 in
    t_put_digit buffer (d8 + 1).                                        (* 294 *)

(** src/detail/itoa.cpp:303-313  [i64toa] *)
Definition t_i64toa (value : Z) (buffer : place) : action place :=
  let u := u64 value in
  if value <? 0 then
    let? buffer := t_put buffer "-"%char in
    t_u64toa (u64 ((2 ^ 64 - 1 - u) + 1)) buffer
  else t_u64toa u buffer.

(** ** int.cpp *)

(** src/int.cpp:19-110, as [FormatInt_body]: the object has its [buffer_] at [o]; the result is [last]. *)
Definition t_FormatInt_body (o : Z) (xtoa : Z -> place -> action place) (value : Z) : action Z :=
  let? last := xtoa value (o, 0) in
  let? _ := t_set (fst last) (snd last) NUL in Return (snd last).

(** src/int.cpp:19-110, as [FormatInt_new]. *)
Definition t_FormatInt_new (p : platform) (o : Z) (t : int_type) (value : Z) : action Z :=
  match t with
  | I8     => t_FormatInt_body o t_i32toa (swrap 32 value)
  | U8     => t_FormatInt_body o t_u32toa (uwrap 32 value)
  | Short  => t_FormatInt_body o t_i32toa (swrap 32 value)
  | UShort => t_FormatInt_body o t_u32toa (uwrap 32 value)
  | Int    => t_FormatInt_body o t_i32toa (swrap 32 value)
  | UInt   => t_FormatInt_body o t_u32toa (uwrap 32 value)
  | Long   => if sys64 p then t_FormatInt_body o t_i64toa (swrap 64 value)
              else t_FormatInt_body o t_i32toa (swrap 32 value)
  | ULong  => if sys64 p then t_FormatInt_body o t_u64toa (uwrap 64 value)
              else t_FormatInt_body o t_u32toa (uwrap 32 value)
  | LLong  => t_FormatInt_body o t_i64toa (swrap 64 value)
  | ULLong => t_FormatInt_body o t_u64toa (uwrap 64 value)
  end.

(** [n] bytes from offset [i], as [std::string(p, n)] reads them. *)
Fixpoint t_read_n (o i : Z) (n : nat) : action bytes :=
  match n with
  | O => Return []
  | S n => let? c := t_get o i in let? r := t_read_n o (i + 1) n in Return (c :: r)
  end.

(** ** bool.cpp, null.cpp, char.cpp *)

(** [strncpy(&o[i], lit, n)] of a literal of [n] bytes, with its NUL. *)
Fixpoint t_strncpy (o lit i : Z) (n : nat) : action unit :=
  match n with
  | O => Return tt
  | S n => let? c := t_get lit i in let? _ := t_set o i c in t_strncpy o lit (i + 1) n
  end.
Definition t_literal (o lit : Z) (s : bytes) : action unit := t_strncpy o lit 0 (S (length s)).

(** bool.cpp:26-35, null.cpp:25-33, char.cpp:19-30; the result is the size. *)
Definition t_FormatBool (lit : literals) (o : Z) (b : bool) : action Z :=
  if b then let? _ := t_literal o TRUE_OBJECT (lit_true lit) in Return 4
  else let? _ := t_literal o FALSE_OBJECT (lit_false lit) in Return 5.
Definition t_FormatNull (lit : literals) (o : Z) : action Z := let? _ := t_literal o NULL_OBJECT (lit_null lit) in Return 4.
Definition t_FormatChar (o : Z) (c : ascii) : action Z := let? _ := t_set o 0 c in let? _ := t_set o 1 NUL in Return 1.

(** ** dtoa.cpp *)

(** [buffer[i]--] on a char. *)
Definition t_decrement (o i : Z) : action unit := let? c := t_get o i in t_set o i (chr (code c - 1)).

(** dtoa.cpp:154-167 *)
Fixpoint t_grisuRound (fuel : nat) (o base len delta rest ten_kappa wp_w : Z) : action unit :=
  if grisuRound_continue delta rest ten_kappa wp_w then
    match fuel with
    | O => Stop "fuel"
    | S fuel =>
        let? _ := t_decrement o (base + (len - 1)) in
        t_grisuRound fuel o base len delta (u64 (rest + ten_kappa)) ten_kappa wp_w
    end
  else Return tt.

(** dtoa.cpp:243-245 and 260-262 *)
Definition t_push_digit (o base len d : Z) : action Z :=
  if negb (d =? 0) || negb (len =? 0) then
    let? _ := t_set o (base + len) (chr (48 + d)) in Return (len + 1)
  else Return len.

Inductive t_first_loop := TDone (len kappa : Z) | TContinue (len : Z).

(** dtoa.cpp:227-253 *)
Fixpoint t_generate_integral (pol : policy) (kappa : nat) (s p1 p2 delta wp_w : Z) (o base len : Z) : action t_first_loop :=
  match kappa with
  | O => Return (TContinue len)
  | S kappa' =>
      match switch_divisor (Z.of_nat kappa) with
      | None => Stop "LEXI_UNREACHABLE"
      | Some q =>
          let d := p1 / q in
          let p1 := p1 mod q in
          let? len := t_push_digit o base len d in
          let? hi := lift (shl64 p1 s) in
          let tmp := u64 (hi + p2) in
          if tmp <=? delta then
            let? p := lift (POWER10_at pol (Z.of_nat kappa')) in
            let? ten_kappa := lift (shl64 p s) in
            let? _ := t_grisuRound ROUND_FUEL o base len delta tmp ten_kappa wp_w in
            Return (TDone len (Z.of_nat kappa'))
          else t_generate_integral pol kappa' s p1 p2 delta wp_w o base len
      end
  end.

(** dtoa.cpp:256-270 *)
Fixpoint t_generate_fraction (pol : policy) (char_signed : bool) (fuel : nat)
    (s one p2 delta kappa wp_w : Z) (o base len : Z) : action (Z * Z) :=
  match fuel with
  | O => Stop "fuel"
  | S fuel =>
      let p2 := u64 (p2 * 10) in
      let delta := u64 (delta * 10) in
      let? d := lift (shr64 p2 s) in
      let d := char_value char_signed (chr d) in
      let? len := t_push_digit o base len d in
      let p2 := Z.land p2 (u64 (one - 1)) in
      let kappa := kappa - 1 in
      if p2 <? delta then
        let? p := lift (POWER10_at pol (- kappa)) in
        let? _ := t_grisuRound ROUND_FUEL o base len delta p2 one (u64 (wp_w * p)) in
        Return (len, kappa)
      else t_generate_fraction pol char_signed fuel s one p2 delta kappa wp_w o base len
  end.

(** dtoa.cpp:213-271; the length and [k]. *)
Definition t_generateDigits (pol : policy) (char_signed : bool) (W Mp : DiyFp) (delta : Z) (o base k : Z) : action (Z * Z) :=
  let s := - de Mp in
  let? one := lift (shl64 1 s) in
  let wp_w := DiyFp_sub Mp W in
  let? hi := lift (shr64 (df Mp) s) in
  let p1 := u32 hi in
  let p2 := Z.land (df Mp) (u64 (one - 1)) in
  let kappa := decimalCount p1 in
  let? r := t_generate_integral pol (Z.to_nat kappa) s p1 p2 delta (df wp_w) o base 0 in
  match r with
  | TDone len kappa => Return (len, k + kappa)
  | TContinue len =>
      let? lk := t_generate_fraction pol char_signed FRACTION_FUEL s one p2 delta 0 (df wp_w) o base len in
      Return (fst lk, k + snd lk)
  end.

(** dtoa.cpp:276-292 *)
Definition t_grisu2 (tc : toolchain) (value : Z) (o base : Z) : action (Z * Z) :=
  let v := DiyFp_of_double value in
  let? wb := lift (normalizedBoundaries (tc_norm_boundary tc) v) in
  let (w_m, w_p) := wb in
  let? ck := lift (getCachedPower (tc_eval tc) (de w_p)) in
  let (c_mk, k) := ck in
  let? vn := lift (normalize (tc_norm tc) v) in
  let W := mul (tc_mul tc) vn c_mk in
  let Wp := mul (tc_mul tc) w_p c_mk in
  let Wm := mul (tc_mul tc) w_m c_mk in
  let Wm := MkDiyFp (u64 (df Wm + 1)) (de Wm) in
  let Wp := MkDiyFp (u64 (df Wp - 1)) (de Wp) in
  t_generateDigits (tc_policy tc) (tc_char_signed tc) W Wp (u64 (df Wp - df Wm)) o base k.

(** dtoa.cpp:308-310, 312-314 *)
Definition t_put_pair (c : place) (k : Z) : action place :=
  let? d0 := t_get DTOA_DIGITS_OBJECT (k * 2) in
  let? d1 := t_get DTOA_DIGITS_OBJECT (k * 2 + 1) in
  let? c := t_put c d0 in t_put c d1.

(** dtoa.cpp:297-321 *)
Definition t_writeExponent (k : Z) (c : place) : action place :=
  let? ck := if k <? 0 then let? c := t_put c "-"%char in Return (c, - k) else Return (c, k) in
  let (c, k) := ck in
  let? c :=
    if k >=? 100 then
      let? c := t_put c (chr (48 + k / 100)) in t_put_pair c (k mod 100)
    else if k >=? 10 then t_put_pair c k
    else t_put c (chr (48 + k)) in
  let? _ := t_set (fst c) (snd c) NUL in Return c.

(** [for (int i = from; i < to; i++) buffer[i] = '0';] *)
Fixpoint t_fill_zeros (o i : Z) (n : nat) : action unit :=
  match n with
  | O => Return tt
  | S n => let? _ := t_set o i "0"%char in t_fill_zeros o (i + 1) n
  end.

(** [memmove]: as if through another array, C17 7.24.2.2. *)
Fixpoint t_fetch (o i : Z) (n : nat) : action buf :=
  match n with
  | O => Return []
  | S n => Load o i (fun x => let? r := t_fetch o (i + 1) n in Return (x :: r))
  end.
Fixpoint t_deposit (o i : Z) (l : buf) : action unit :=
  match l with
  | [] => Return tt
  | x :: l => Store o i x (t_deposit o (i + 1) l)
  end.
Definition t_memmove (o dst src n : Z) : action unit :=
  let? l := t_fetch o src (Z.to_nat n) in t_deposit o dst l.

(** dtoa.cpp:326-370; the end of the text. *)
Definition t_prettify (o base length k : Z) : action place :=
  let kk := length + k in
  if (length <=? kk) && (kk <=? 21) then
    let? _ := t_fill_zeros o (base + length) (Z.to_nat (kk - length)) in
    let? _ := t_set o (base + kk) "."%char in
    let? _ := t_set o (base + (kk + 1)) "0"%char in
    let? _ := t_set o (base + (kk + 2)) NUL in
    Return (o, base + (kk + 2))
  else if (0 <? kk) && (kk <=? 21) then
    let? _ := t_memmove o (base + (kk + 1)) (base + kk) (length - kk) in
    let? _ := t_set o (base + kk) "."%char in
    let? _ := t_set o (base + (length + 1)) NUL in
    Return (o, base + (length + 1))
  else if (-6 <? kk) && (kk <=? 0) then
    let offset := 2 - kk in
    let? _ := t_memmove o (base + offset) base length in
    let? _ := t_set o base "0"%char in
    let? _ := t_set o (base + 1) "."%char in
    let? _ := t_fill_zeros o (base + 2) (Z.to_nat (offset - 2)) in
    let? _ := t_set o (base + (length + offset)) NUL in
    Return (o, base + (length + offset))
  else if length =? 1 then
    let? _ := t_set o (base + 1) "e"%char in
    t_writeExponent (kk - 1) (o, base + 2)
  else
    let? _ := t_memmove o (base + 2) (base + 1) (length - 1) in
    let? _ := t_set o (base + 1) "."%char in
    let? _ := t_set o (base + (length + 1)) "e"%char in
    t_writeExponent (kk - 1) (o, base + (0 + length + 2)).

(** dtoa.cpp:375-394 *)
Definition t_dtoa (tc : toolchain) (value : Z) (c : place) : action place :=
  if double_is_zero value then
    let? c := t_put c "0"%char in
    let? c := t_put c "."%char in
    let? c := t_put c "0"%char in
    let? _ := t_set (fst c) (snd c) NUL in Return c
  else
    let? cv :=
      if double_is_negative value then
        let? c := t_put c "-"%char in Return (c, double_negate value)
      else Return (c, value) in
    let (c, value) := cv in
    let? lk := t_grisu2 tc value (fst c) (snd c) in
    t_prettify (fst c) (snd c) (fst lk) (snd lk).

(** ** float.cpp *)

(** float.cpp:36-47; the result is the size. *)
Definition t_special (o lit : Z) (s : bytes) : action Z :=
  let? _ := t_literal o lit s in Return (0 + Z.of_nat (length s)).

(** float.cpp:31-50 *)
Definition t_format_bits (env : float_env) (o : Z) (u : Z) : action Z :=
  if negb (isFinite u) then
    if isNan u then t_special o NAN_OBJECT (lit_nan (fe_lit env))
    else if isInfinity u then t_special o INFINITY_OBJECT (lit_infinity (fe_lit env))
    else t_special o NEGATIVE_INFINITY_OBJECT (lit_negative_infinity (fe_lit env))
  else
    let? c := t_dtoa (fe_tc env) u (o, 0) in Return (snd c).
Definition t_format (env : float_env) (o : Z) (value : spec_float) : action Z :=
  t_format_bits env o (bits_of_double (fe_nan env) (convert 53 1024 value)).

(** ** lexi.hpp *)

(** lexi.hpp:28-78: the formatter at [o]; the result is its size. *)
Definition t_Format (e : env) (o : Z) (v : value) : action Z :=
  match v with
  | VNull => t_FormatNull (e_lit e) o
  | VBool b => t_FormatBool (e_lit e) o b
  | VChar c => t_FormatChar o c
  | VInt t n => t_FormatInt_new (e_platform e) o t n
  | VFloat u => t_format (e_float e) o (convert (ld_prec (fe_ld (e_float e))) (ld_emax (fe_ld (e_float e))) (float_of_bits u))
  | VDouble u => t_format (e_float e) o (convert (ld_prec (fe_ld (e_float e))) (ld_emax (fe_ld (e_float e))) (double_of_bits u))
  | VLongDouble x => t_format (e_float e) o x
  | VEnum u n => t_FormatInt_new (e_platform e) o (promoted (e_platform e) u) n
  | VFpos off => t_FormatInt_new (e_platform e) o (streamoff_type (e_platform e)) off
  | VString _ | VCString _ => Stop "no overload"
  end.

(** The size of the array in the formatter. *)
Definition array_size (v : value) : nat :=
  match v with
  | VNull => 5
  | VBool _ => 6
  | VChar _ => 2
  | VInt _ _ | VEnum _ _ | VFpos _ => INTEGER_SIZE
  | VFloat _ | VDouble _ | VLongDouble _ => FLOAT_SIZE
  | VString _ | VCString _ => 0
  end.

(** ** Threads *)

(** What a thread is asked to do: [lexi(v)]; [lexi<T>(s)], [escape(s)] and [jsonify(s)] with the std::string at
    [object], of [size] bytes. *)
Inductive task :=
| DoFormat (v : value)
| DoExtract (T : extract_type) (object : Z) (size : nat)
| DoEscape (object : Z) (size : nat)
| DoJsonify (object : Z) (size : nat).

Inductive answer := Text (s : outcome bytes) | Value (x : outcome extracted).

(** [o]: where the thread has its formatter, a temporary on its stack.  The std::string that is returned is its own and
    is not modelled.  The C library is taken to read all of the string; it may stop before. *)
Definition t_run (e : env) (point : ascii) (o : Z) (w : task) : action answer :=
  match w with
  | DoFormat v =>
      let? n := t_Format e o v in
      let? s := t_read_n o 0 (Z.to_nat n) in Return (Text (Ok s))
  | DoExtract T object size => let? s := t_read_n object 0 size in Return (Value (extract e point T s))
  | DoEscape object size => let? s := t_read_n object 0 size in Return (Text (escape_of e (VString s)))
  | DoJsonify object size => let? s := t_read_n object 0 size in Return (Text (jsonify_of e (VString s)))
  end.

(** The memory: the bytes of each object. *)
Definition memory : Type := Z -> buf.
Definition set_object (m : memory) (o : Z) (b : buf) : memory := fun o' => if o' =? o then b else m o'.

(** The number of the object that is the [i]-th thread's array. *)
Definition own_array (i : nat) : Z := - Z.of_nat i - 1.
Definition task_array (w : task) : nat := match w with DoFormat v => array_size v | _ => 0 end.

(** The tables and literals. *)
Definition constants (e : env) (o : Z) : buf :=
  let literal s := map Some (s ++ [NUL]) in
  if o =? DIGITS_OBJECT then map Some DIGITS_TABLE
  else if o =? DTOA_DIGITS_OBJECT then map Some DTOA_DIGITS
  else if o =? NULL_OBJECT then literal (lit_null (e_lit e))
  else if o =? TRUE_OBJECT then literal (lit_true (e_lit e))
  else if o =? FALSE_OBJECT then literal (lit_false (e_lit e))
  else if o =? NAN_OBJECT then literal (lit_nan (e_lit e))
  else if o =? INFINITY_OBJECT then literal (lit_infinity (e_lit e))
  else literal (lit_negative_infinity (e_lit e)).

(** At the start: the constants, the strings the threads share, and the arrays of the formatters, of which nothing is
    written. *)
Definition start_memory (e : env) (strings : list bytes) (work : list task) : memory := fun o =>
  if o <? 0 then match nth_error work (Z.to_nat (- o - 1)) with Some w => new_buf (task_array w) | None => [] end
  else if o <? FIRST_STRING then constants e o
  else match nth_error strings (Z.to_nat (o - FIRST_STRING)) with
       | Some s => map Some (s ++ [NUL])
       | None => []
       end.

Fixpoint start_threads (e : env) (point : ascii) (i : nat) (work : list task) : list (action answer) :=
  match work with
  | [] => []
  | w :: work => t_run e point (own_array i) w :: start_threads e point (S i) work
  end.

(** The next access of a thread; outside of an array it is undefined. *)
Definition advance {A} (m : memory) (p : action A) : memory * action A :=
  match p with
  | Return _ | Stop _ => (m, p)
  | Load o i k => if in_range i (Z.of_nat (length (m o))) then (m, k (nth (Z.to_nat i) (m o) None)) else (m, Stop "load")
  | Store o i x k =>
      if in_range i (Z.of_nat (length (m o))) then (set_object m o (set_nth (m o) (Z.to_nat i) x), k) else (m, Stop "store")
  end.

(** The threads, after the [i]-th has made its next access. *)
Definition schedule (i : nat) (state : memory * list (action answer)) : memory * list (action answer) :=
  let '(m, ps) := state in
  match nth_error ps i with
  | None => state
  | Some p => let '(m, p) := advance m p in (m, set_nth ps i p)
  end.

(** The accesses in the order in which the threads are named. *)
Definition execute (order : list nat) (state : memory * list (action answer)) : memory * list (action answer) :=
  fold_left (fun state i => schedule i state) order state.
