(** The float formatter with every turn of a loop written down.

    The functions are those of ModelDiyfp.v, ModelDtoa.v and ModelFloat.v; each loop also
    records one entry per execution of its body.  Calls of the C library (memmove, strncpy)
    are not loops of the code and leave no entry; the integer formatter (itoa.cpp) has no
    loops. *)
From Verif Require Import Machine ModelText ModelIeee ModelDiyfp ModelDtoa ModelFloat SpecWork.
Open Scope Z_scope.

(** A run with its record. *)
Definition run (A : Type) : Type := outcome (A * list turn).

Definition quiet {A} (m : outcome A) : run A := let* x := m in Ok (x, []).
Definition chain {A B} (m : run A) (f : A -> run B) : run B :=
  match m with
  | Ok (x, t) => match f x with Ok (y, t') => Ok (y, t ++ t') | Throw e => Throw e | UB s => UB s | NoFuel => NoFuel end
  | Throw e => Throw e
  | UB s => UB s
  | NoFuel => NoFuel
  end.
(** One turn of a loop. *)
Definition turn_of {A} (a : turn) (m : run A) : run A :=
  match m with Ok (x, t) => Ok (x, a :: t) | Throw e => Throw e | UB s => UB s | NoFuel => NoFuel end.

(** What the run gives, without its record. *)
Definition result {A} (m : run A) : outcome A :=
  match m with Ok (x, _) => Ok x | Throw e => Throw e | UB s => UB s | NoFuel => NoFuel end.

(** ** diyfp.cpp *)

(** diyfp.cpp:120-123 and 151-154 *)
Fixpoint w_shift_until (fuel : nat) (mask : Z) (x : DiyFp) : run DiyFp :=
  if Z.land (df x) mask =? 0 then
    match fuel with
    | O => NoFuel
    | S fuel => turn_of Shift (w_shift_until fuel mask (MkDiyFp (u64 (Z.shiftl (df x) 1)) (de x - 1)))
    end
  else quiet (Ok x).

(** diyfp.cpp:117-127 *)
Definition w_normalize_generic (x : DiyFp) : run DiyFp :=
  chain (w_shift_until 64 HIDDEN_BIT x) (fun res =>
  let n := DIY_SIGNIFICAND_SIZE - DP_SIGNIFICAND_SIZE - 1 in
  quiet (let* f := shl64 (df res) n in Ok (MkDiyFp f (de res - n)))).

(** diyfp.cpp:92-129: two of the three versions have no loop. *)
Definition w_normalize (cc : compiler) (x : DiyFp) : run DiyFp :=
  match cc with
  | MSVC64 => quiet (normalize_msvc x)
  | GNUC64 => quiet (normalize_gnuc x)
  | Generic => w_normalize_generic x
  end.

(** diyfp.cpp:148-158 *)
Definition w_normalizeBoundary_generic (x : DiyFp) : run DiyFp :=
  chain (w_shift_until 64 (Z.shiftl HIDDEN_BIT 1) x) (fun res =>
  let n := DIY_SIGNIFICAND_SIZE - DP_SIGNIFICAND_SIZE - 2 in
  quiet (let* f := shl64 (df res) n in Ok (MkDiyFp f (de res - n)))).

(** diyfp.cpp:131-160 *)
Definition w_normalizeBoundary (cc : compiler) (x : DiyFp) : run DiyFp :=
  match cc with
  | MSVC64 => quiet (normalize_msvc x)
  | GNUC64 | Generic => w_normalizeBoundary_generic x
  end.

(** diyfp.cpp:225-233 *)
Definition w_normalizedBoundaries (cc : compiler) (x : DiyFp) : run (DiyFp * DiyFp) :=
  chain (w_normalizeBoundary cc (MkDiyFp (u64 (u64 (Z.shiftl (df x) 1) + 1)) (de x - 1))) (fun pl =>
  let mi := if df x =? HIDDEN_BIT
            then MkDiyFp (u64 (u64 (Z.shiftl (df x) 2) - 1)) (de x - 2)
            else MkDiyFp (u64 (u64 (Z.shiftl (df x) 1) - 1)) (de x - 1) in
  quiet (let* f := shl64 (df mi) (de mi - de pl) in Ok (MkDiyFp f (de pl), pl))).

(** ** dtoa.cpp *)

(** dtoa.cpp:154-167 *)
Fixpoint w_grisuRound (fuel : nat) (b : buf) (base len delta rest ten_kappa wp_w : Z) : run buf :=
  if grisuRound_continue delta rest ten_kappa wp_w then
    match fuel with
    | O => NoFuel
    | S fuel =>
        turn_of Round (chain (quiet (buf_decrement b (base + (len - 1)))) (fun b =>
        w_grisuRound fuel b base len delta (u64 (rest + ten_kappa)) ten_kappa wp_w))
    end
  else quiet (Ok b).

(** dtoa.cpp:227-253 *)
Fixpoint w_generate_integral (pol : policy) (kappa : nat) (s p1 p2 delta wp_w : Z)
    (b : buf) (base len : Z) : run first_loop :=
  match kappa with
  | O => quiet (Ok (Continue b len))
  | S kappa' =>
      match switch_divisor (Z.of_nat kappa) with
      | None => UB "LEXI_UNREACHABLE"
      | Some q =>
          let d := p1 / q in
          let p1 := p1 mod q in
          turn_of Digit (chain (quiet (push_digit b base len d)) (fun '(b, len) =>
          chain (quiet (shl64 p1 s)) (fun hi =>
          let tmp := u64 (hi + p2) in
          if tmp <=? delta then
            chain (quiet (POWER10_at pol (Z.of_nat kappa'))) (fun p =>
            chain (quiet (shl64 p s)) (fun ten_kappa =>
            chain (w_grisuRound ROUND_FUEL b base len delta tmp ten_kappa wp_w) (fun b =>
            quiet (Ok (Done b len (Z.of_nat kappa'))))))
          else w_generate_integral pol kappa' s p1 p2 delta wp_w b base len)))
      end
  end.

(** dtoa.cpp:256-270 *)
Fixpoint w_generate_fraction (pol : policy) (char_signed : bool) (fuel : nat)
    (s one p2 delta kappa wp_w : Z) (b : buf) (base len : Z) : run (buf * Z * Z) :=
  match fuel with
  | O => NoFuel
  | S fuel =>
      let p2 := u64 (p2 * 10) in
      let delta := u64 (delta * 10) in
      turn_of Digit (chain (quiet (shr64 p2 s)) (fun d =>
      let d := char_value char_signed (chr d) in
      chain (quiet (push_digit b base len d)) (fun '(b, len) =>
      let p2 := Z.land p2 (u64 (one - 1)) in
      let kappa := kappa - 1 in
      if p2 <? delta then
        chain (quiet (POWER10_at pol (- kappa))) (fun p =>
        chain (w_grisuRound ROUND_FUEL b base len delta p2 one (u64 (wp_w * p))) (fun b =>
        quiet (Ok (b, len, kappa))))
      else w_generate_fraction pol char_signed fuel s one p2 delta kappa wp_w b base len)))
  end.

(** dtoa.cpp:213-271 *)
Definition w_generateDigits (pol : policy) (char_signed : bool) (W Mp : DiyFp) (delta : Z)
    (b : buf) (base k : Z) : run (buf * Z * Z) :=
  let s := - de Mp in
  chain (quiet (shl64 1 s)) (fun one =>
  let wp_w := DiyFp_sub Mp W in
  chain (quiet (shr64 (df Mp) s)) (fun hi =>
  let p1 := u32 hi in
  let p2 := Z.land (df Mp) (u64 (one - 1)) in
  let kappa := decimalCount p1 in
  chain (w_generate_integral pol (Z.to_nat kappa) s p1 p2 delta (df wp_w) b base 0) (fun r =>
  match r with
  | Done b len kappa => quiet (Ok (b, len, k + kappa))
  | Continue b len =>
      chain (w_generate_fraction pol char_signed FRACTION_FUEL s one p2 delta 0 (df wp_w) b base len)
        (fun '(b, len, kappa) => quiet (Ok (b, len, k + kappa)))
  end))).

(** dtoa.cpp:276-292 *)
Definition w_grisu2 (tc : toolchain) (value : Z) (b : buf) (base : Z) : run (buf * Z * Z) :=
  let v := DiyFp_of_double value in
  chain (w_normalizedBoundaries (tc_norm_boundary tc) v) (fun '(w_m, w_p) =>
  chain (quiet (getCachedPower (tc_eval tc) (de w_p))) (fun '(c_mk, k) =>
  chain (w_normalize (tc_norm tc) v) (fun vn =>
  let W := mul (tc_mul tc) vn c_mk in
  let Wp := mul (tc_mul tc) w_p c_mk in
  let Wm := mul (tc_mul tc) w_m c_mk in
  let Wm := MkDiyFp (u64 (df Wm + 1)) (de Wm) in
  let Wp := MkDiyFp (u64 (df Wp - 1)) (de Wp) in
  w_generateDigits (tc_policy tc) (tc_char_signed tc) W Wp (u64 (df Wp - df Wm)) b base k))).

(** dtoa.cpp:334-336 and 354-356 *)
Fixpoint w_fill_zeros (b : buf) (i : Z) (n : nat) : run buf :=
  match n with
  | O => quiet (Ok b)
  | S n => turn_of Zero (chain (quiet (buf_write b i "0"%char)) (fun b => w_fill_zeros b (i + 1) n))
  end.

(** dtoa.cpp:326-370 *)
Definition w_prettify (b : buf) (base length k : Z) : run cursor :=
  let kk := length + k in
  if (length <=? kk) && (kk <=? 21) then
    chain (w_fill_zeros b (base + length) (Z.to_nat (kk - length))) (fun b =>
    quiet (
      let* b := buf_write b (base + kk) "."%char in
      let* b := buf_write b (base + (kk + 1)) "0"%char in
      let* b := buf_write b (base + (kk + 2)) NUL in
      Ok (Cursor b (base + (kk + 2)))))
  else if (0 <? kk) && (kk <=? 21) then
    quiet (
      let* b := buf_memmove b (base + (kk + 1)) (base + kk) (length - kk) in
      let* b := buf_write b (base + kk) "."%char in
      let* b := buf_write b (base + (length + 1)) NUL in
      Ok (Cursor b (base + (length + 1))))
  else if (-6 <? kk) && (kk <=? 0) then
    let offset := 2 - kk in
    chain (quiet (
      let* b := buf_memmove b (base + offset) base length in
      let* b := buf_write b base "0"%char in
      buf_write b (base + 1) "."%char)) (fun b =>
    chain (w_fill_zeros b (base + 2) (Z.to_nat (offset - 2))) (fun b =>
    quiet (
      let* b := buf_write b (base + (length + offset)) NUL in
      Ok (Cursor b (base + (length + offset))))))
  else if length =? 1 then
    quiet (
      let* b := buf_write b (base + 1) "e"%char in
      writeExponent (kk - 1) (Cursor b (base + 2)))
  else
    quiet (
      let* b := buf_memmove b (base + 2) (base + 1) (length - 1) in
      let* b := buf_write b (base + 1) "."%char in
      let* b := buf_write b (base + (length + 1)) "e"%char in
      writeExponent (kk - 1) (Cursor b (base + (0 + length + 2)))).

(** dtoa.cpp:375-394 *)
Definition w_dtoa (tc : toolchain) (value : Z) (c : cursor) : run cursor :=
  if double_is_zero value then
    quiet (
      let* c := put c "0"%char in
      let* c := put c "."%char in
      let* c := put c "0"%char in
      let* b := buf_write (cbuf c) (cpos c) NUL in
      Ok (Cursor b (cpos c)))
  else
    chain (quiet (
      if double_is_negative value then
        let* c := put c "-"%char in Ok (c, double_negate value)
      else Ok (c, value))) (fun '(c, value) =>
    chain (w_grisu2 tc value (cbuf c) (cpos c)) (fun '(b, length, k) =>
    w_prettify b (cpos c) length k)).

(** ** float.cpp *)

(** float.cpp:31-50 *)
Definition w_format_bits (env : float_env) (u : Z) : run FormatFloat :=
  if negb (isFinite u) then
    quiet (
      if isNan u then special (lit_nan (fe_lit env))
      else if isInfinity u then special (lit_infinity (fe_lit env))
      else special (lit_negative_infinity (fe_lit env)))
  else
    chain (w_dtoa (fe_tc env) u (Cursor (new_buf FLOAT_SIZE) 0)) (fun c =>
    quiet (Ok (MkFormatFloat (cbuf c) 0 (cpos c)))).

(** The loops of diyfp.cpp that a build has: the one of normalize, and the one of
    normalizeBoundary. *)
Definition shifting_loops (tc : toolchain) : Z :=
  (match tc_norm tc with Generic => 1 | _ => 0 end) +
  (match tc_norm_boundary tc with MSVC64 => 0 | _ => 1 end).
