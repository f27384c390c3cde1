(** Model of src/detail/itoa.cpp (integer to decimal text). *)
From Verif Require Import Machine.

(** src/detail/itoa.cpp:19-31  [DIGITS], [DIGITS_PTR]: the 200-entry table, row by row. *)
Definition DIGITS_TABLE : bytes := str
  ("00010203040506070809" ++ "10111213141516171819" ++ "20212223242526272829" ++
   "30313233343536373839" ++ "40414243444546474849" ++ "50515253545556575859" ++
   "60616263646566676869" ++ "70717273747576777879" ++ "80818283848586878889" ++
   "90919293949596979899")%string.

(** [DIGITS_PTR[i]]: an out-of-bounds index is undefined behaviour. *)
Definition digits_at (i : Z) : outcome ascii :=
  if in_range i (Z.of_nat (length DIGITS_TABLE)) then
    match nth_error DIGITS_TABLE (Z.to_nat i) with
    | Some c => Ok c
    | None => UB "DIGITS out of bounds"
    end
  else UB "DIGITS out of bounds".

(** [*buffer++ = DIGITS_PTR[i]] *)
Definition put_digit (k : cursor) (i : Z) : outcome cursor :=
  let* c := digits_at i in put k c.

(** [if (b) *buffer++ = DIGITS_PTR[i]] *)
Definition put_digit_if (b : bool) (k : cursor) (i : Z) : outcome cursor :=
  if b then put_digit k i else Ok k.

(** src/detail/itoa.cpp:33-41 *)
Definition TEN8 : Z := 100000000.
Definition TEN9 : Z := u64 (TEN8 * 10).
Definition TEN10 : Z := u64 (TEN8 * 100).
Definition TEN11 : Z := u64 (TEN8 * 1000).
Definition TEN12 : Z := u64 (TEN8 * 10000).
Definition TEN13 : Z := u64 (TEN8 * 100000).
Definition TEN14 : Z := u64 (TEN8 * 1000000).
Definition TEN15 : Z := u64 (TEN8 * 10000000).
Definition TEN16 : Z := u64 (TEN8 * TEN8).

(** [x << 1] on uint32_t *)
Definition shl1 (x : Z) : Z := u32 (x * 2).

(** src/detail/itoa.cpp:49-126  [u32toa] *)
Definition u32toa (value : Z) (buffer : cursor) : outcome cursor :=
  if value <? 10000 then                                             (* 52 *)
    let d1 := shl1 (value / 100) in
    let d2 := shl1 (value mod 100) in
    let* buffer := put_digit_if (1000 <=? value) buffer d1 in         (* 56 *)
    let* buffer := put_digit_if (100 <=? value) buffer (d1 + 1) in
    let* buffer := put_digit_if (10 <=? value) buffer d2 in
    put_digit buffer (d2 + 1)                                         (* 65 *)
  else if value <? 100000000 then                                     (* 67 *)
    let b := value / 10000 in
    let c := value mod 10000 in
    let d1 := shl1 (b / 100) in
    let d2 := shl1 (b mod 100) in
    let d3 := shl1 (c / 100) in
    let d4 := shl1 (c mod 100) in
    let* buffer := put_digit_if (10000000 <=? value) buffer d1 in     (* 78 *)
    let* buffer := put_digit_if (1000000 <=? value) buffer (d1 + 1) in
    let* buffer := put_digit_if (100000 <=? value) buffer d2 in
    let* buffer := put_digit buffer (d2 + 1) in                       (* 87 *)
    let* buffer := put_digit buffer d3 in
    let* buffer := put_digit buffer (d3 + 1) in
    let* buffer := put_digit buffer d4 in
    put_digit buffer (d4 + 1)                                         (* 92 *)
  else                                                                (* 93 *)
    let a := value / 100000000 in
    let value := value mod 100000000 in
    let* buffer :=
      if 10 <=? a then                                                (* 99 *)
        let i := shl1 a in
        let* buffer := put_digit buffer i in
        put_digit buffer (i + 1)
      else put buffer (chr (48 + a)) in                               (* 104 *)
    let b := value / 10000 in
    let c := value mod 10000 in
    let d1 := shl1 (b / 100) in
    let d2 := shl1 (b mod 100) in
    let d3 := shl1 (c / 100) in
    let d4 := shl1 (c mod 100) in
    let* buffer := put_digit buffer d1 in                             (* 116 *)
    let* buffer := put_digit buffer (d1 + 1) in
    let* buffer := put_digit buffer d2 in
    let* buffer := put_digit buffer (d2 + 1) in
    let* buffer := put_digit buffer d3 in
    let* buffer := put_digit buffer (d3 + 1) in
    let* buffer := put_digit buffer d4 in
    put_digit buffer (d4 + 1).                                        (* 123 *)

(** src/detail/itoa.cpp:131-140  [i32toa].  [~u + 1] on uint32_t is [u32 (-u)];
    written as the code computes it. *)
Definition i32toa (value : Z) (buffer : cursor) : outcome cursor :=
  let u := u32 value in
  if value <? 0 then
    let* buffer := put buffer "-"%char in
    u32toa (u32 ((2 ^ 32 - 1 - u) + 1)) buffer
  else u32toa u buffer.

(** src/detail/itoa.cpp:145-298  [u64toa] *)
Definition u64toa (value : Z) (buffer : cursor) : outcome cursor :=
  if value <? TEN8 then                                               (* 148 *)
    let v := u32 value in
    if v <? 10000 then
      let d1 := shl1 (v / 100) in
      let d2 := shl1 (v mod 100) in
      let* buffer := put_digit_if (1000 <=? v) buffer d1 in           (* 154 *)
      let* buffer := put_digit_if (100 <=? v) buffer (d1 + 1) in
      let* buffer := put_digit_if (10 <=? v) buffer d2 in
      put_digit buffer (d2 + 1)
    else
      let b := v / 10000 in                                           (* 164 *)
      let c := v mod 10000 in
      let d1 := shl1 (b / 100) in
      let d2 := shl1 (b mod 100) in
      let d3 := shl1 (c / 100) in
      let d4 := shl1 (c mod 100) in
      let* buffer := put_digit_if (10000000 <=? value) buffer d1 in   (* 173 *)
      let* buffer := put_digit_if (1000000 <=? value) buffer (d1 + 1) in
      let* buffer := put_digit_if (100000 <=? value) buffer d2 in
      let* buffer := put_digit buffer (d2 + 1) in
      let* buffer := put_digit buffer d3 in
      let* buffer := put_digit buffer (d3 + 1) in
      let* buffer := put_digit buffer d4 in
      put_digit buffer (d4 + 1)
  else if value <? TEN16 then                                         (* 186 *)
    let v0 := u32 (value / TEN8) in
    let v1 := u32 (value mod TEN8) in
    let b0 := v0 / 10000 in
    let c0 := v0 mod 10000 in
    let d1 := shl1 (b0 / 100) in
    let d2 := shl1 (b0 mod 100) in
    let d3 := shl1 (c0 / 100) in
    let d4 := shl1 (c0 mod 100) in
    let b1 := v1 / 10000 in
    let c1 := v1 mod 10000 in
    let d5 := shl1 (b1 / 100) in
    let d6 := shl1 (b1 mod 100) in
    let d7 := shl1 (c1 / 100) in
    let d8 := shl1 (c1 mod 100) in
    let* buffer := put_digit_if (TEN15 <=? value) buffer d1 in        (* 208 *)
    let* buffer := put_digit_if (TEN14 <=? value) buffer (d1 + 1) in
    let* buffer := put_digit_if (TEN13 <=? value) buffer d2 in
    let* buffer := put_digit_if (TEN12 <=? value) buffer (d2 + 1) in
    let* buffer := put_digit_if (TEN11 <=? value) buffer d3 in
    let* buffer := put_digit_if (TEN10 <=? value) buffer (d3 + 1) in
    let* buffer := put_digit_if (TEN9 <=? value) buffer d4 in
    let* buffer := put_digit_if (TEN8 <=? value) buffer (d4 + 1) in
    let* buffer := put_digit buffer d5 in                             (* 225 *)
    let* buffer := put_digit buffer (d5 + 1) in
    let* buffer := put_digit buffer d6 in
    let* buffer := put_digit buffer (d6 + 1) in
    let* buffer := put_digit buffer d7 in
    let* buffer := put_digit buffer (d7 + 1) in
    let* buffer := put_digit buffer d8 in
    put_digit buffer (d8 + 1)
  else                                                                (* 233 *)
    let a := u32 (value / TEN16) in
    let value := value mod TEN16 in
    let* buffer :=
      if a <? 10 then put buffer (chr (48 + a))                       (* 238 *)
      else if a <? 100 then
        let i := shl1 a in
        let* buffer := put_digit buffer i in
        put_digit buffer (i + 1)
      else if a <? 1000 then
        let* buffer := put buffer (chr (48 + a / 100)) in             (* 244 *)
        let i := shl1 (a mod 100) in
        let* buffer := put_digit buffer i in
        put_digit buffer (i + 1)
      else
        let i := shl1 (a / 100) in                                    (* 250 *)
        let j := shl1 (a mod 100) in
        let* buffer := put_digit buffer i in
        let* buffer := put_digit buffer (i + 1) in
        let* buffer := put_digit buffer j in
        put_digit buffer (j + 1) in
    let v0 := u32 (value / TEN8) in                                   (* 258 *)
    let v1 := u32 (value mod TEN8) in
    let b0 := v0 / 10000 in
    let c0 := v0 mod 10000 in
    let d1 := shl1 (b0 / 100) in
    let d2 := shl1 (b0 mod 100) in
    let d3 := shl1 (c0 / 100) in
    let d4 := shl1 (c0 mod 100) in
    let b1 := v1 / 10000 in
    let c1 := v1 mod 10000 in
    let d5 := shl1 (b1 / 100) in
    let d6 := shl1 (b1 mod 100) in
    let d7 := shl1 (c1 / 100) in
    let d8 := shl1 (c1 mod 100) in
    let* buffer := put_digit buffer d1 in                             (* 279 *)
    let* buffer := put_digit buffer (d1 + 1) in
    let* buffer := put_digit buffer d2 in
    let* buffer := put_digit buffer (d2 + 1) in
    let* buffer := put_digit buffer d3 in
    let* buffer := put_digit buffer (d3 + 1) in
    let* buffer := put_digit buffer d4 in
    let* buffer := put_digit buffer (d4 + 1) in
    let* buffer := put_digit buffer d5 in
    let* buffer := put_digit buffer (d5 + 1) in
    let* buffer := put_digit buffer d6 in
    let* buffer := put_digit buffer (d6 + 1) in
    let* buffer := put_digit buffer d7 in
    let* buffer := put_digit buffer (d7 + 1) in
    let* buffer := put_digit buffer d8 in
    put_digit buffer (d8 + 1).                                        (* 294 *)

(** src/detail/itoa.cpp:303-313  [i64toa] *)
Definition i64toa (value : Z) (buffer : cursor) : outcome cursor :=
  let u := u64 value in
  if value <? 0 then
    let* buffer := put buffer "-"%char in
    u64toa (u64 ((2 ^ 64 - 1 - u) + 1)) buffer
  else u64toa u buffer.
