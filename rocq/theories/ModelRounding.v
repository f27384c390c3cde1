(** dtoa.cpp with the floating point expression of getCachedPower (dtoa.cpp:196) left open: [dk]
    gives its value for each exponent, as the processor happens to compute it.  ModelDtoa is the
    same with three particular ways to evaluate it. *)
From Coq Require Import Floats.SpecFloat.
From Verif Require Import Machine ModelIeee ModelDiyfp ModelDtoa.

(** dtoa.cpp:197-208, for the value [dk] of the expression *)
Definition r_getCachedPower (dk : spec_float) : outcome (DiyFp * Z) :=
  let* kk := int_of_double dk in
  let kk := if int_neq_double kk dk then kk + 1 else kk in
  let index := u32 (Z.shiftr kk 3 + 1) in
  let k := - (-348 + swrap 32 (u32 (Z.shiftl index 3))) in
  let* f := table_at CACHED_POWERS_F index in
  let* x := table_at CACHED_POWERS_E index in
  Ok (MkDiyFp f x, k).

(** dtoa.cpp:276-292 *)
Definition r_grisu2 (tc : toolchain) (dk : Z -> spec_float) (value : Z) (b : buf) (base : Z) : outcome (buf * Z * Z) :=
  let v := DiyFp_of_double value in
  let* (w_m, w_p) := normalizedBoundaries (tc_norm_boundary tc) v in
  let* (c_mk, k) := r_getCachedPower (dk (de w_p)) in
  let* vn := normalize (tc_norm tc) v in
  let W := mul (tc_mul tc) vn c_mk in
  let Wp := mul (tc_mul tc) w_p c_mk in
  let Wm := mul (tc_mul tc) w_m c_mk in
  let Wm := MkDiyFp (u64 (df Wm + 1)) (de Wm) in
  let Wp := MkDiyFp (u64 (df Wp - 1)) (de Wp) in
  generateDigits (tc_policy tc) (tc_char_signed tc) W Wp (u64 (df Wp - df Wm)) b base k.

(** dtoa.cpp:375-394 *)
Definition r_dtoa (tc : toolchain) (dk : Z -> spec_float) (value : Z) (c : cursor) : outcome cursor :=
  if double_is_zero value then
    let* c := put c "0"%char in
    let* c := put c "."%char in
    let* c := put c "0"%char in
    let* b := buf_write (cbuf c) (cpos c) NUL in
    Ok (Cursor b (cpos c))
  else
    let* (c, value) :=
      if double_is_negative value then
        let* c := put c "-"%char in Ok (c, double_negate value)
      else Ok (c, value) in
    let* (b, length, k) := r_grisu2 tc dk value (cbuf c) (cpos c) in
    prettify b (cpos c) length k.
