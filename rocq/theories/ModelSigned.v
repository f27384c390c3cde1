(** The [int] arithmetic of src/detail/diyfp.cpp, src/detail/dtoa.cpp and
    src/detail/strtod.cpp, with every result checked: a result that does not fit in an [int]
    (32 bits, as on every platform modelled) is undefined behaviour.  The functions repeat those
    of ModelDiyfp, ModelDtoa and ModelStrtod, where such results are exact integers; the
    significands (unsigned) are computed by the definitions there. *)
From Coq Require Import Floats.SpecFloat.
From Verif Require Import Machine ModelIeee ModelDiyfp ModelDtoa ModelBigint ModelStrtod.

(** The result of an operator on int operands. *)
Definition int_op (x : Z) : outcome Z :=
  if (- 2 ^ 31 <=? x) && (x <? 2 ^ 31) then Ok x else UB "signed overflow".

(** ** diyfp.cpp *)

(** diyfp.cpp:49, 65, 86: [left.e + right.e + 64] *)
Definition s_mul (cc : compiler) (l r : DiyFp) : outcome DiyFp :=
  let* x := int_op (de l + de r) in
  let* x := int_op (x + 64) in
  Ok (MkDiyFp (df (mul cc l r)) x).

(** diyfp.cpp:97-102 and 137-142; [index] is an unsigned long of 32 bits, so that the
    subtractions are on unsigned numbers and the result is converted to int. *)
Definition s_normalize_msvc (x : DiyFp) : outcome DiyFp :=
  let* index := bit_scan_reverse (df x) in
  let* f := shl64 (df x) (u32 (63 - index)) in
  Ok (MkDiyFp f (swrap 32 (u32 (u32 (de x) - u32 (63 - index))))).

(** diyfp.cpp:108-112 *)
Definition s_normalize_gnuc (x : DiyFp) : outcome DiyFp :=
  let* index := bit_scan_reverse (df x) in
  let* s := int_op (63 - index) in
  let* f := shl64 (df x) s in
  let* e := int_op (de x - s) in
  Ok (MkDiyFp f e).

(** diyfp.cpp:120-123 and 151-154: [res.e--] *)
Fixpoint s_shift_until (fuel : nat) (mask : Z) (x : DiyFp) : outcome DiyFp :=
  if Z.land (df x) mask =? 0 then
    match fuel with
    | O => NoFuel
    | S fuel =>
        let* e := int_op (de x - 1) in
        s_shift_until fuel mask (MkDiyFp (u64 (Z.shiftl (df x) 1)) e)
    end
  else Ok x.

(** diyfp.cpp:117-127 *)
Definition s_normalize_generic (x : DiyFp) : outcome DiyFp :=
  let* res := s_shift_until 64 HIDDEN_BIT x in
  let* n := int_op (DIY_SIGNIFICAND_SIZE - DP_SIGNIFICAND_SIZE) in
  let* n := int_op (n - 1) in
  let* f := shl64 (df res) n in
  let* e := int_op (de res - n) in
  Ok (MkDiyFp f e).

Definition s_normalize (cc : compiler) : DiyFp -> outcome DiyFp :=
  match cc with
  | MSVC64 => s_normalize_msvc | GNUC64 => s_normalize_gnuc | Generic => s_normalize_generic
  end.

(** diyfp.cpp:148-158 *)
Definition s_normalizeBoundary_generic (x : DiyFp) : outcome DiyFp :=
  let* res := s_shift_until 64 (Z.shiftl HIDDEN_BIT 1) x in
  let* n := int_op (DIY_SIGNIFICAND_SIZE - DP_SIGNIFICAND_SIZE) in
  let* n := int_op (n - 2) in
  let* f := shl64 (df res) n in
  let* e := int_op (de res - n) in
  Ok (MkDiyFp f e).

(** diyfp.cpp:133,144 *)
Definition s_normalizeBoundary (cc : compiler) : DiyFp -> outcome DiyFp :=
  match cc with
  | MSVC64 => s_normalize_msvc | GNUC64 | Generic => s_normalizeBoundary_generic
  end.

(** diyfp.cpp:182-196; the conversion of the unsigned biased exponent to int is checked too. *)
Definition s_DiyFp_of_double (u : Z) : outcome DiyFp :=
  let* biased_e := int_op (Z.shiftr (Z.land u EXPONENT_MASK) DP_SIGNIFICAND_SIZE) in
  let significand := Z.land u SIGNIFICAND_MASK in
  if negb (biased_e =? 0) then
    let* e := int_op (biased_e - DP_EXPONENT_BIAS) in
    Ok (MkDiyFp (u64 (significand + HIDDEN_BIT)) e)
  else
    let* e := int_op (DP_MIN_EXPONENT + 1) in
    Ok (MkDiyFp significand e).

(** diyfp.cpp:225-233 *)
Definition s_normalizedBoundaries (cc : compiler) (x : DiyFp) : outcome (DiyFp * DiyFp) :=
  let* e1 := int_op (de x - 1) in
  let* pl := s_normalizeBoundary cc (MkDiyFp (u64 (u64 (Z.shiftl (df x) 1) + 1)) e1) in
  let* mi :=
    if df x =? HIDDEN_BIT then
      let* e2 := int_op (de x - 2) in Ok (MkDiyFp (u64 (u64 (Z.shiftl (df x) 2) - 1)) e2)
    else
      let* e1 := int_op (de x - 1) in Ok (MkDiyFp (u64 (u64 (Z.shiftl (df x) 1) - 1)) e1) in
  let* n := int_op (de mi - de pl) in
  let* f := shl64 (df mi) n in
  Ok (MkDiyFp f (de pl), pl).

(** ** dtoa.cpp *)

(** dtoa.cpp:154-167: [len - 1] *)
Fixpoint s_grisuRound (fuel : nat) (b : buf) (base len delta rest ten_kappa wp_w : Z) : outcome buf :=
  if grisuRound_continue delta rest ten_kappa wp_w then
    match fuel with
    | O => NoFuel
    | S fuel =>
        let* i := int_op (len - 1) in
        let* b := buf_decrement b (base + i) in
        s_grisuRound fuel b base len delta (u64 (rest + ten_kappa)) ten_kappa wp_w
    end
  else Ok b.

(** dtoa.cpp:192-208: [-61 - e], [kk++], [(kk >> 3) + 1], [-348 + ...] and the negation *)
Definition s_getCachedPower (ev : fp_eval) (e : Z) : outcome (DiyFp * Z) :=
  let* _ := int_op (-61 - e) in
  let dk := cached_dk ev e in
  let* kk := int_of_double dk in
  let* kk := if int_neq_double kk dk then int_op (kk + 1) else Ok kk in
  let* i := int_op (Z.shiftr kk 3 + 1) in
  let index := u32 i in
  let* n := int_op (-348 + swrap 32 (u32 (Z.shiftl index 3))) in
  let* k := int_op (- n) in
  let* f := table_at CACHED_POWERS_F index in
  let* x := table_at CACHED_POWERS_E index in
  Ok (MkDiyFp f x, k).

(** dtoa.cpp:243-245 and 260-262: the increment of the length *)
Definition s_push_digit (b : buf) (base len d : Z) : outcome (buf * Z) :=
  if negb (d =? 0) || negb (len =? 0) then
    let* b := buf_write b (base + len) (chr (48 + d)) in
    let* len := int_op (len + 1) in
    Ok (b, len)
  else Ok (b, len).

(** What the first loop leaves: finished with the length and the new k, or on to the second
    loop. *)
Inductive s_first_loop := SDone (b : buf) (len k : Z) | SContinue (b : buf) (len : Z).

(** dtoa.cpp:227-253: [kappa--], [-one.e] twice, the addition to k *)
Fixpoint s_generate_integral (pol : policy) (kappa : nat) (one_e p1 p2 delta wp_w : Z)
    (b : buf) (base len k : Z) : outcome s_first_loop :=
  match kappa with
  | O => Ok (SContinue b len)
  | S more =>
      match switch_divisor (Z.of_nat kappa) with
      | None => UB "LEXI_UNREACHABLE"
      | Some q =>
          let d := p1 / q in
          let p1 := p1 mod q in
          let* (b, len) := s_push_digit b base len d in
          let* kappa' := int_op (Z.of_nat kappa - 1) in
          let* s := int_op (- one_e) in
          let* hi := shl64 p1 s in
          let tmp := u64 (hi + p2) in
          if tmp <=? delta then
            let* k := int_op (k + kappa') in
            let* p := POWER10_at pol kappa' in
            let* s := int_op (- one_e) in
            let* ten_kappa := shl64 p s in
            let* b := s_grisuRound ROUND_FUEL b base len delta tmp ten_kappa wp_w in
            Ok (SDone b len k)
          else s_generate_integral pol more one_e p1 p2 delta wp_w b base len k
      end
  end.

(** dtoa.cpp:256-270: [-one.e], [kappa--], the addition to k, [-kappa] *)
Fixpoint s_generate_fraction (pol : policy) (char_signed : bool) (fuel : nat)
    (one_e one p2 delta kappa wp_w : Z) (b : buf) (base len k : Z) : outcome (buf * Z * Z) :=
  match fuel with
  | O => NoFuel
  | S fuel =>
      let p2 := u64 (p2 * 10) in
      let delta := u64 (delta * 10) in
      let* s := int_op (- one_e) in
      let* d := shr64 p2 s in
      let d := char_value char_signed (chr d) in
      let* (b, len) := s_push_digit b base len d in
      let p2 := Z.land p2 (u64 (one - 1)) in
      let* kappa := int_op (kappa - 1) in
      if p2 <? delta then
        let* k := int_op (k + kappa) in
        let* i := int_op (- kappa) in
        let* p := POWER10_at pol i in
        let* b := s_grisuRound ROUND_FUEL b base len delta p2 one (u64 (wp_w * p)) in
        Ok (b, len, k)
      else s_generate_fraction pol char_signed fuel one_e one p2 delta kappa wp_w b base len k
  end.

(** dtoa.cpp:213-271 *)
Definition s_generateDigits (pol : policy) (char_signed : bool) (W Mp : DiyFp) (delta : Z)
    (b : buf) (base k : Z) : outcome (buf * Z * Z) :=
  let* s := int_op (- de Mp) in
  let* one := shl64 1 s in
  let wp_w := DiyFp_sub Mp W in
  let* s := int_op (- de Mp) in
  let* hi := shr64 (df Mp) s in
  let p1 := u32 hi in
  let p2 := Z.land (df Mp) (u64 (one - 1)) in
  let* kappa := int_op (decimalCount p1) in
  let* r := s_generate_integral pol (Z.to_nat kappa) (de Mp) p1 p2 delta (df wp_w) b base 0 k in
  match r with
  | SDone b len k => Ok (b, len, k)
  | SContinue b len =>
      s_generate_fraction pol char_signed FRACTION_FUEL (de Mp) one p2 delta 0 (df wp_w) b base len k
  end.

(** dtoa.cpp:276-292 *)
Definition s_grisu2 (tc : toolchain) (value : Z) (b : buf) (base : Z) : outcome (buf * Z * Z) :=
  let* v := s_DiyFp_of_double value in
  let* (w_m, w_p) := s_normalizedBoundaries (tc_norm_boundary tc) v in
  let* (c_mk, k) := s_getCachedPower (tc_eval tc) (de w_p) in
  let* vn := s_normalize (tc_norm tc) v in
  let* W := s_mul (tc_mul tc) vn c_mk in
  let* Wp := s_mul (tc_mul tc) w_p c_mk in
  let* Wm := s_mul (tc_mul tc) w_m c_mk in
  let Wm := MkDiyFp (u64 (df Wm + 1)) (de Wm) in
  let Wp := MkDiyFp (u64 (df Wp - 1)) (de Wp) in
  s_generateDigits (tc_policy tc) (tc_char_signed tc) W Wp (u64 (df Wp - df Wm)) b base k.

(** dtoa.cpp:308, 312: [k * 2] *)
Definition s_put_pair (c : cursor) (k : Z) : outcome cursor :=
  let* i := int_op (k * 2) in
  let* d0 := dtoa_digits_at i in
  let* d1 := dtoa_digits_at (i + 1) in
  let* c := put c d0 in put c d1.

(** dtoa.cpp:297-321: [-k], and the characters ['0' + digit] *)
Definition s_writeExponent (k : Z) (c : cursor) : outcome cursor :=
  let* (c, k) :=
    if k <? 0 then let* c := put c "-"%char in let* k := int_op (- k) in Ok (c, k) else Ok (c, k) in
  let* c :=
    if k >=? 100 then
      let* d := int_op (48 + k / 100) in
      let* c := put c (chr d) in s_put_pair c (k mod 100)
    else if k >=? 10 then s_put_pair c k
    else let* d := int_op (48 + k) in put c (chr d) in
  let* b := buf_write (cbuf c) (cpos c) NUL in
  Ok (Cursor b (cpos c)).

(** dtoa.cpp:333, 355: [for (int i = from; i < to; i++) buffer[i] = '0';] *)
Fixpoint s_fill_zeros (b : buf) (base i : Z) (n : nat) : outcome buf :=
  match n with
  | O => Ok b
  | S n =>
      let* b := buf_write b (base + i) "0"%char in
      let* i := int_op (i + 1) in
      s_fill_zeros b base i n
  end.

(** dtoa.cpp:326-370 *)
Definition s_prettify (b : buf) (base length k : Z) : outcome cursor :=
  let* kk := int_op (length + k) in
  if (length <=? kk) && (kk <=? 21) then
    let* b := s_fill_zeros b base length (Z.to_nat (kk - length)) in
    let* b := buf_write b (base + kk) "."%char in
    let* i := int_op (kk + 1) in
    let* b := buf_write b (base + i) "0"%char in
    let* i := int_op (kk + 2) in
    let* b := buf_write b (base + i) NUL in
    let* i := int_op (kk + 2) in
    Ok (Cursor b (base + i))
  else if (0 <? kk) && (kk <=? 21) then
    let* i := int_op (kk + 1) in
    let* n := int_op (length - kk) in
    let* b := buf_memmove b (base + i) (base + kk) n in
    let* b := buf_write b (base + kk) "."%char in
    let* i := int_op (length + 1) in
    let* b := buf_write b (base + i) NUL in
    let* i := int_op (length + 1) in
    Ok (Cursor b (base + i))
  else if (-6 <? kk) && (kk <=? 0) then
    let* offset := int_op (2 - kk) in
    let* b := buf_memmove b (base + offset) base length in
    let* b := buf_write b base "0"%char in
    let* b := buf_write b (base + 1) "."%char in
    let* b := s_fill_zeros b base 2 (Z.to_nat (offset - 2)) in
    let* i := int_op (length + offset) in
    let* b := buf_write b (base + i) NUL in
    let* i := int_op (length + offset) in
    Ok (Cursor b (base + i))
  else if length =? 1 then
    let* b := buf_write b (base + 1) "e"%char in
    let* x := int_op (kk - 1) in
    s_writeExponent x (Cursor b (base + 2))
  else
    let* n := int_op (length - 1) in
    let* b := buf_memmove b (base + 2) (base + 1) n in
    let* b := buf_write b (base + 1) "."%char in
    let* i := int_op (length + 1) in
    let* b := buf_write b (base + i) "e"%char in
    let* x := int_op (kk - 1) in
    let* i := int_op (0 + length) in
    let* i := int_op (i + 2) in
    s_writeExponent x (Cursor b (base + i)).

(** dtoa.cpp:375-394 *)
Definition s_dtoa (tc : toolchain) (value : Z) (c : cursor) : outcome cursor :=
  if double_is_zero value then
    let* c := put c "0"%char in
    let* c := put c "."%char in
    let* c := put c "0"%char in
    let* b := buf_write (cbuf c) (cpos c) NUL in
    Ok (Cursor b (cpos c))
  else
    let* (c, value) :=
      if double_is_negative value then
        let* c := put c "-"%char in Ok (c, double_negate value)
      else Ok (c, value) in
    let* (b, length, k) := s_grisu2 tc value (cbuf c) (cpos c) in
    s_prettify b (cpos c) length k.

(** ** strtod.cpp *)

(** strtod.cpp:26-36: [-exp] *)
Definition s_fastPath (significand : spec_float) (exp : Z) : outcome spec_float :=
  if exp <? -308 then Ok (S754_zero false)
  else if 0 <=? exp then let* q := pow10 exp in Ok (dmul significand q)
  else let* n := int_op (- exp) in let* q := pow10 n in Ok (ddiv significand q).

(** strtod.cpp:41-52: [p + 308] *)
Definition s_StrtodNormalPrecision (d : spec_float) (p : Z) : outcome spec_float :=
  if p <? -308 then
    let* d := s_fastPath d (-308) in
    let* p := int_op (p + 308) in
    s_fastPath d p
  else s_fastPath d p.

(** strtod.cpp:138-152: [p - 22] *)
Definition s_fast (d : spec_float) (p : Z) : outcome (option spec_float) :=
  let* (d, p) :=
    if (22 <? p) && (p <? 22 + 16) then
      let* n := int_op (p - 22) in let* q := pow10 n in Ok (dmul d q, 22)
    else Ok (d, p) in
  if (-22 <=? p) && (p <=? 22) && dle d max_significand then
    let* r := s_fastPath d p in Ok (Some r)
  else Ok None.
