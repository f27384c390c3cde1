(** Model of include/lexi/detail/diyfp.hpp and src/detail/diyfp.cpp. *)
From Verif Require Import Machine ModelIeee.

(** diyfp.hpp:22-36.  [f] is a uint64_t, [e] an int (its range stays tiny; int overflow is
    not modelled). *)
Record DiyFp := MkDiyFp { df : Z; de : Z }.

(** Checked shifts: shifting by a negative amount or by the width or more is undefined. *)
Definition shl64 (x n : Z) : outcome Z :=
  if in_range n 64 then Ok (u64 (Z.shiftl x n)) else UB "shift out of range".
Definition shr64 (x n : Z) : outcome Z :=
  if in_range n 64 then Ok (Z.shiftr x n) else UB "shift out of range".

(** diyfp.cpp:26-30 *)
Definition DIY_SIGNIFICAND_SIZE : Z := 64.
Definition DP_SIGNIFICAND_SIZE : Z := 52.
Definition DP_EXPONENT_BIAS : Z := 0x3FF + DP_SIGNIFICAND_SIZE.
Definition DP_MIN_EXPONENT : Z := - DP_EXPONENT_BIAS.
Definition HIDDEN_BIT : Z := 0x0010000000000000.

(** The three compiler branches of diyfp.cpp:37,52,68 / 93,104,113 / 133,144. *)
Inductive compiler := MSVC64 | GNUC64 | Generic.

(** diyfp.cpp:41-50; [_umul128] returns the low half and stores the high half. *)
Definition mul_msvc (l r : DiyFp) : DiyFp :=
  let h := df l * df r / 2 ^ 64 in
  let lo := u64 (df l * df r) in
  let h := if Z.land lo (Z.shiftl 1 63) =? 0 then h else u64 (h + 1) in
  MkDiyFp h (de l + de r + 64).

(** diyfp.cpp:56-66; [p] is an unsigned __int128. *)
Definition mul_gnuc (l r : DiyFp) : DiyFp :=
  let p := (df l * df r) mod 2 ^ 128 in
  let h := u64 (Z.shiftr p 64) in
  let lo := u64 p in
  let h := if Z.land lo (Z.shiftl 1 63) =? 0 then h else u64 (h + 1) in
  MkDiyFp h (de l + de r + 64).

(** diyfp.cpp:72-87; every operation is on uint64_t. *)
Definition mul_generic (l r : DiyFp) : DiyFp :=
  let M32 := 0xFFFFFFFF in
  let a := Z.shiftr (df l) 32 in
  let b := Z.land (df l) M32 in
  let c := Z.shiftr (df r) 32 in
  let d := Z.land (df r) M32 in
  let ac := u64 (a * c) in
  let bc := u64 (b * c) in
  let ad := u64 (a * d) in
  let bd := u64 (b * d) in
  let tmp := u64 (u64 (Z.shiftr bd 32 + Z.land ad M32) + Z.land bc M32) in
  let tmp := u64 (tmp + Z.shiftl 1 31) in
  MkDiyFp (u64 (u64 (u64 (ac + Z.shiftr ad 32) + Z.shiftr bc 32) + Z.shiftr tmp 32))
          (de l + de r + 64).

Definition mul (cc : compiler) : DiyFp -> DiyFp -> DiyFp :=
  match cc with MSVC64 => mul_msvc | GNUC64 => mul_gnuc | Generic => mul_generic end.

(** Position of the highest set bit, as [_BitScanReverse64] and [63 - __builtin_clzll]
    compute it; both are undefined for 0. *)
Definition bit_scan_reverse (x : Z) : outcome Z :=
  if x =? 0 then UB "bit scan of zero" else Ok (Z.log2 x).

(** diyfp.cpp:97-102 and 137-142 *)
Definition normalize_msvc (x : DiyFp) : outcome DiyFp :=
  let* index := bit_scan_reverse (df x) in
  let* f := shl64 (df x) (63 - index) in
  Ok (MkDiyFp f (de x - (63 - index))).

(** diyfp.cpp:108-112 *)
Definition normalize_gnuc (x : DiyFp) : outcome DiyFp :=
  let* index := bit_scan_reverse (df x) in
  let s := 63 - index in
  let* f := shl64 (df x) s in
  Ok (MkDiyFp f (de x - s)).

(** The loops diyfp.cpp:120-123 and 151-154: shift left until a bit of [mask] is set.  A
    zero significand never terminates (NoFuel). *)
Fixpoint shift_until (fuel : nat) (mask : Z) (x : DiyFp) : outcome DiyFp :=
  if Z.land (df x) mask =? 0 then
    match fuel with
    | O => NoFuel
    | S fuel => shift_until fuel mask (MkDiyFp (u64 (Z.shiftl (df x) 1)) (de x - 1))
    end
  else Ok x.

(** diyfp.cpp:117-127 *)
Definition normalize_generic (x : DiyFp) : outcome DiyFp :=
  let* res := shift_until 64 HIDDEN_BIT x in
  let n := DIY_SIGNIFICAND_SIZE - DP_SIGNIFICAND_SIZE - 1 in
  let* f := shl64 (df res) n in
  Ok (MkDiyFp f (de res - n)).

Definition normalize (cc : compiler) : DiyFp -> outcome DiyFp :=
  match cc with
  | MSVC64 => normalize_msvc | GNUC64 => normalize_gnuc | Generic => normalize_generic
  end.

(** diyfp.cpp:148-158 *)
Definition normalizeBoundary_generic (x : DiyFp) : outcome DiyFp :=
  let* res := shift_until 64 (Z.shiftl HIDDEN_BIT 1) x in
  let n := DIY_SIGNIFICAND_SIZE - DP_SIGNIFICAND_SIZE - 2 in
  let* f := shl64 (df res) n in
  Ok (MkDiyFp f (de res - n)).

(** diyfp.cpp:133,144: only MSVC has its own version. *)
Definition normalizeBoundary (cc : compiler) : DiyFp -> outcome DiyFp :=
  match cc with
  | MSVC64 => normalize_msvc | GNUC64 | Generic => normalizeBoundary_generic
  end.

(** diyfp.cpp:182-196 *)
Definition DiyFp_of_double (u : Z) : DiyFp :=
  let biased_e := Z.shiftr (Z.land u EXPONENT_MASK) DP_SIGNIFICAND_SIZE in
  let significand := Z.land u SIGNIFICAND_MASK in
  if negb (biased_e =? 0) then
    MkDiyFp (u64 (significand + HIDDEN_BIT)) (biased_e - DP_EXPONENT_BIAS)
  else
    MkDiyFp significand (DP_MIN_EXPONENT + 1).

(** diyfp.cpp:201-204 *)
Definition DiyFp_sub (x y : DiyFp) : DiyFp := MkDiyFp (u64 (df x - df y)) (de x).

(** diyfp.cpp:225-233; returns (minus, plus). *)
Definition normalizedBoundaries (cc : compiler) (x : DiyFp) : outcome (DiyFp * DiyFp) :=
  let* pl := normalizeBoundary cc (MkDiyFp (u64 (u64 (Z.shiftl (df x) 1) + 1)) (de x - 1)) in
  let mi := if df x =? HIDDEN_BIT
            then MkDiyFp (u64 (u64 (Z.shiftl (df x) 2) - 1)) (de x - 2)
            else MkDiyFp (u64 (u64 (Z.shiftl (df x) 1) - 1)) (de x - 1) in
  let* f := shl64 (df mi) (de mi - de pl) in
  Ok (MkDiyFp f (de pl), pl).
