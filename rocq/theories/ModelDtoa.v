(** Model of src/detail/dtoa.cpp: the Grisu2 conversion of a double to text. *)
From Coq Require Export SpecFloat.
From Verif Require Import Machine ModelIeee ModelDiyfp.

(** ** Policies and evaluation modes *)

(** What an out-of-bounds read of the table POWER10 does (see DESIGN.md): undefined
    behaviour, or a 32-bit word supplied by an arbitrary oracle (the memory after the
    table as the compiled program lays it out). *)
Inductive policy := Strict | Lenient (oracle : Z -> Z).

(** How the compiler evaluates the floating point expression of getCachedPower: in double
    (FLT_EVAL_METHOD 0), with a fused multiply-add (contraction), or in x87 extended
    precision (FLT_EVAL_METHOD 2). *)
Inductive fp_eval := EvalDouble | EvalFused | EvalExtended.

(** ** Tables *)

(** dtoa.cpp:34 *)
Definition POWER10 : list Z :=
  [1; 10; 100; 1000; 10000; 100000; 1000000; 10000000; 100000000; 1000000000].

Definition POWER10_at (pol : policy) (i : Z) : outcome Z :=
  if in_range i (Z.of_nat (length POWER10)) then Ok (nth (Z.to_nat i) POWER10 0)
  else match pol with
       | Strict => UB "POWER10 read out of bounds"
       | Lenient oracle => Ok (u32 (oracle i))
       end.

(** dtoa.cpp:35-123 *)
Definition CACHED_POWERS_F : list Z :=
  [
   0xFA8FD5A0081C0288; 0xBAAEE17FA23EBF76; 0x8B16FB203055AC76; 0xCF42894A5DCE35EA;
   0x9A6BB0AA55653B2D; 0xE61ACF033D1A45DF; 0xAB70FE17C79AC6CA; 0xFF77B1FCBEBCDC4F;
   0xBE5691EF416BD60C; 0x8DD01FAD907FFC3C; 0xD3515C2831559A83; 0x9D71AC8FADA6C9B5;
   0xEA9C227723EE8BCB; 0xAECC49914078536D; 0x823C12795DB6CE57; 0xC21094364DFB5637;
   0x9096EA6F3848984F; 0xD77485CB25823AC7; 0xA086CFCD97BF97F4; 0xEF340A98172AACE5;
   0xB23867FB2A35B28E; 0x84C8D4DFD2C63F3B; 0xC5DD44271AD3CDBA; 0x936B9FCEBB25C996;
   0xDBAC6C247D62A584; 0xA3AB66580D5FDAF6; 0xF3E2F893DEC3F126; 0xB5B5ADA8AAFF80B8;
   0x87625F056C7C4A8B; 0xC9BCFF6034C13053; 0x964E858C91BA2655; 0xDFF9772470297EBD;
   0xA6DFBD9FB8E5B88F; 0xF8A95FCF88747D94; 0xB94470938FA89BCF; 0x8A08F0F8BF0F156B;
   0xCDB02555653131B6; 0x993FE2C6D07B7FAC; 0xE45C10C42A2B3B06; 0xAA242499697392D3;
   0xFD87B5F28300CA0E; 0xBCE5086492111AEB; 0x8CBCCC096F5088CC; 0xD1B71758E219652C;
   0x9C40000000000000; 0xE8D4A51000000000; 0xAD78EBC5AC620000; 0x813F3978F8940984;
   0xC097CE7BC90715B3; 0x8F7E32CE7BEA5C70; 0xD5D238A4ABE98068; 0x9F4F2726179A2245;
   0xED63A231D4C4FB27; 0xB0DE65388CC8ADA8; 0x83C7088E1AAB65DB; 0xC45D1DF942711D9A;
   0x924D692CA61BE758; 0xDA01EE641A708DEA; 0xA26DA3999AEF774A; 0xF209787BB47D6B85;
   0xB454E4A179DD1877; 0x865B86925B9BC5C2; 0xC83553C5C8965D3D; 0x952AB45CFA97A0B3;
   0xDE469FBD99A05FE3; 0xA59BC234DB398C25; 0xF6C69A72A3989F5C; 0xB7DCBF5354E9BECE;
   0x88FCF317F22241E2; 0xCC20CE9BD35C78A5; 0x98165AF37B2153DF; 0xE2A0B5DC971F303A;
   0xA8D9D1535CE3B396; 0xFB9B7CD9A4A7443C; 0xBB764C4CA7A44410; 0x8BAB8EEFB6409C1A;
   0xD01FEF10A657842C; 0x9B10A4E5E9913129; 0xE7109BFBA19C0C9D; 0xAC2820D9623BF429;
   0x80444B5E7AA7CF85; 0xBF21E44003ACDD2D; 0x8E679C2F5E44FF8F; 0xD433179D9C8CB841;
   0x9E19DB92B4E31BA9; 0xEB96BF6EBADF77D9; 0xAF87023B9BF0EE6B].

(** dtoa.cpp:125-135 *)
Definition CACHED_POWERS_E : list Z :=
  [
   -1220; -1193; -1166; -1140; -1113; -1087; -1060; -1034; -1007; -980;
   -954; -927; -901; -874; -847; -821; -794; -768; -741; -715;
   -688; -661; -635; -608; -582; -555; -529; -502; -475; -449;
   -422; -396; -369; -343; -316; -289; -263; -236; -210; -183;
   -157; -130; -103; -77; -50; -24; 3; 30; 56; 83;
   109; 136; 162; 189; 216; 242; 269; 295; 322; 348;
   375; 402; 428; 455; 481; 508; 534; 561; 588; 614;
   641; 667; 694; 720; 747; 774; 800; 827; 853; 880;
   907; 933; 960; 986; 1013; 1039; 1066].

Definition table_at (t : list Z) (i : Z) : outcome Z :=
  if in_range i (Z.of_nat (length t)) then Ok (nth (Z.to_nat i) t 0)
  else UB "table read out of bounds".

(** ** Rounding the generated digits *)

(** dtoa.cpp:161-163: the condition of the loop (all operands uint64_t). *)
Definition grisuRound_continue (delta rest ten_kappa wp_w : Z) : bool :=
  (rest <? wp_w) && (u64 (delta - rest) >=? ten_kappa) &&
  ((u64 (rest + ten_kappa) <? wp_w) ||
   (u64 (wp_w - rest) >? u64 (u64 (rest + ten_kappa) - wp_w))).

(** [buffer[i]--] on a char. *)
Definition buf_decrement (b : buf) (i : Z) : outcome buf :=
  let* c := buf_read b i in buf_write b i (chr (code c - 1)).

(** dtoa.cpp:154-167.  [buffer] points to offset [base] of the array [b]. *)
Fixpoint grisuRound (fuel : nat) (b : buf) (base len delta rest ten_kappa wp_w : Z) : outcome buf :=
  if grisuRound_continue delta rest ten_kappa wp_w then
    match fuel with
    | O => NoFuel
    | S fuel =>
        let* b := buf_decrement b (base + (len - 1)) in
        grisuRound fuel b base len delta (u64 (rest + ten_kappa)) ten_kappa wp_w
    end
  else Ok b.

Definition ROUND_FUEL : nat := 256.

(** dtoa.cpp:175-187 *)
Definition decimalCount (n : Z) : Z :=
  if n <? 10 then 1
  else if n <? 100 then 2
  else if n <? 1000 then 3
  else if n <? 10000 then 4
  else if n <? 100000 then 5
  else if n <? 1000000 then 6
  else if n <? 10000000 then 7
  else if n <? 100000000 then 8
  else if n <? 1000000000 then 9
  else 10.

(** ** The cached power *)

(** The double literal 0.30102999566398114 (bits 0x3FD34413509F79FE). *)
Definition LOG10_2 : spec_float := S754_finite false 5422874305198590 (-54).
(** The same literal as an x87 extended constant (FLT_EVAL_METHOD 2 may keep literals in
    the wider format): 0.30102999566398114 rounded to 64 bits. *)
Definition LOG10_2_EXT : spec_float :=
  match SFdiv_core_binary 64 16384 30102999566398114 0 100000000000000000 0 with
  | (m, e, l) => binary_round_aux 64 16384 false m e l
  end.

(** dtoa.cpp:196 [double dk = (-61 - e) * 0.30102999566398114 + 347] *)
Definition cached_dk (ev : fp_eval) (e : Z) : spec_float :=
  match ev with
  | EvalDouble =>
      SFadd 53 1024 (SFmul 53 1024 (binary_normalize 53 1024 (-61 - e) 0 false) LOG10_2)
                    (binary_normalize 53 1024 347 0 false)
  | EvalFused => (* exact product and sum, one rounding *)
      binary_normalize 53 1024 ((-61 - e) * 5422874305198590 + 347 * 2 ^ 54) (-54) false
  | EvalExtended => (* 64-bit operations, then the conversion to double *)
      match SFadd 64 16384 (SFmul 64 16384 (binary_normalize 64 16384 (-61 - e) 0 false) LOG10_2_EXT)
                           (binary_normalize 64 16384 347 0 false) with
      | S754_finite s m x => binary_normalize 53 1024 (if s then Zneg m else Zpos m) x s
      | r => r
      end
  end.

(** [static_cast<int>(dk)]: truncation; undefined when out of the range of int. *)
Definition int_of_double (x : spec_float) : outcome Z :=
  match x with
  | S754_zero _ => Ok 0
  | S754_finite s m e =>
      let t := if 0 <=? e then Zpos m * 2 ^ e else Zpos m / 2 ^ (- e) in
      let t := if s then - t else t in
      if (- 2 ^ 31 <=? t) && (t <? 2 ^ 31) then Ok t else UB "double to int out of range"
  | _ => UB "double to int out of range"
  end.

(** [kk != dk], with [kk] converted to double. *)
Definition int_neq_double (n : Z) (x : spec_float) : bool :=
  negb (SFeqb (binary_normalize 53 1024 n 0 false) x).

(** dtoa.cpp:192-208; returns the cached power and [*k]. *)
Definition getCachedPower (ev : fp_eval) (e : Z) : outcome (DiyFp * Z) :=
  let dk := cached_dk ev e in
  let* kk := int_of_double dk in
  let kk := if int_neq_double kk dk then kk + 1 else kk in
  let index := u32 (Z.shiftr kk 3 + 1) in
  let k := - (-348 + swrap 32 (u32 (Z.shiftl index 3))) in
  let* f := table_at CACHED_POWERS_F index in
  let* x := table_at CACHED_POWERS_E index in
  Ok (MkDiyFp f x, k).

(** ** Digit generation *)

(** dtoa.cpp:229-242: the switch; [kappa] outside 1..10 is unreachable code. *)
Definition switch_divisor (kappa : Z) : option Z :=
  match kappa with
  | 10 => Some 1000000000
  | 9 => Some 100000000
  | 8 => Some 10000000
  | 7 => Some 1000000
  | 6 => Some 100000
  | 5 => Some 10000
  | 4 => Some 1000
  | 3 => Some 100
  | 2 => Some 10
  | 1 => Some 1
  | _ => None
  end.

(** dtoa.cpp:243-245 and 260-262: append '0' + d when d or the length is non-zero. *)
Definition push_digit (b : buf) (base len d : Z) : outcome (buf * Z) :=
  if negb (d =? 0) || negb (len =? 0) then
    let* b := buf_write b (base + len) (chr (48 + d)) in Ok (b, len + 1)
  else Ok (b, len).

(** State after the first loop: finished (buffer, length, kappa), or falls through to the
    second loop with kappa = 0. *)
Inductive first_loop := Done (b : buf) (len kappa : Z) | Continue (b : buf) (len : Z).

(** dtoa.cpp:227-253.  [s] is [-one.e]; [kappa] counts down. *)
Fixpoint generate_integral (pol : policy) (kappa : nat) (s p1 p2 delta wp_w : Z)
    (b : buf) (base len : Z) : outcome first_loop :=
  match kappa with
  | O => Ok (Continue b len)
  | S kappa' =>
      match switch_divisor (Z.of_nat kappa) with
      | None => UB "LEXI_UNREACHABLE"
      | Some q =>
          let d := p1 / q in
          let p1 := p1 mod q in
          let* (b, len) := push_digit b base len d in
          let* hi := shl64 p1 s in
          let tmp := u64 (hi + p2) in
          if tmp <=? delta then
            let* p := POWER10_at pol (Z.of_nat kappa') in
            let* ten_kappa := shl64 p s in
            let* b := grisuRound ROUND_FUEL b base len delta tmp ten_kappa wp_w in
            Ok (Done b len (Z.of_nat kappa'))
          else generate_integral pol kappa' s p1 p2 delta wp_w b base len
      end
  end.

(** dtoa.cpp:256-270.  [one] is [one.f].  [char d = static_cast<char>(p2 >> -one.e)] is
    always a small number; the conversion to char is the wrap to 8 bits (signed or not). *)
Fixpoint generate_fraction (pol : policy) (char_signed : bool) (fuel : nat)
    (s one p2 delta kappa wp_w : Z) (b : buf) (base len : Z) : outcome (buf * Z * Z) :=
  match fuel with
  | O => NoFuel
  | S fuel =>
      let p2 := u64 (p2 * 10) in
      let delta := u64 (delta * 10) in
      let* d := shr64 p2 s in
      let d := char_value char_signed (chr d) in
      let* (b, len) := push_digit b base len d in
      let p2 := Z.land p2 (u64 (one - 1)) in
      let kappa := kappa - 1 in
      if p2 <? delta then
        let* p := POWER10_at pol (- kappa) in
        let* b := grisuRound ROUND_FUEL b base len delta p2 one (u64 (wp_w * p)) in
        Ok (b, len, kappa)
      else generate_fraction pol char_signed fuel s one p2 delta kappa wp_w b base len
  end.

Definition FRACTION_FUEL : nat := 64.

(** dtoa.cpp:213-271; returns (buffer, length, k). *)
Definition generateDigits (pol : policy) (char_signed : bool) (W Mp : DiyFp) (delta : Z)
    (b : buf) (base k : Z) : outcome (buf * Z * Z) :=
  let s := - de Mp in
  let* one := shl64 1 s in
  let wp_w := DiyFp_sub Mp W in
  let* hi := shr64 (df Mp) s in
  let p1 := u32 hi in
  let p2 := Z.land (df Mp) (u64 (one - 1)) in
  let kappa := decimalCount p1 in
  let* r := generate_integral pol (Z.to_nat kappa) s p1 p2 delta (df wp_w) b base 0 in
  match r with
  | Done b len kappa => Ok (b, len, k + kappa)
  | Continue b len =>
      let* (b, len, kappa) :=
        generate_fraction pol char_signed FRACTION_FUEL s one p2 delta 0 (df wp_w) b base len in
      Ok (b, len, k + kappa)
  end.

(** How the library was compiled, as far as dtoa.cpp can tell. *)
Record toolchain := Toolchain {
  tc_mul : compiler; tc_norm : compiler; tc_norm_boundary : compiler;
  tc_eval : fp_eval; tc_char_signed : bool; tc_policy : policy
}.

(** dtoa.cpp:276-292 *)
Definition grisu2 (tc : toolchain) (value : Z) (b : buf) (base : Z) : outcome (buf * Z * Z) :=
  let v := DiyFp_of_double value in
  let* (w_m, w_p) := normalizedBoundaries (tc_norm_boundary tc) v in
  let* (c_mk, k) := getCachedPower (tc_eval tc) (de w_p) in
  let* vn := normalize (tc_norm tc) v in
  let W := mul (tc_mul tc) vn c_mk in
  let Wp := mul (tc_mul tc) w_p c_mk in
  let Wm := mul (tc_mul tc) w_m c_mk in
  let Wm := MkDiyFp (u64 (df Wm + 1)) (de Wm) in
  let Wp := MkDiyFp (u64 (df Wp - 1)) (de Wp) in
  generateDigits (tc_policy tc) (tc_char_signed tc) W Wp (u64 (df Wp - df Wm)) b base k.

(** ** Layout *)

(** dtoa.cpp:21-33 *)
Definition DTOA_DIGITS : bytes := str (
  "00010203040506070809" ++
  "10111213141516171819" ++
  "20212223242526272829" ++
  "30313233343536373839" ++
  "40414243444546474849" ++
  "50515253545556575859" ++
  "60616263646566676869" ++
  "70717273747576777879" ++
  "80818283848586878889" ++
  "90919293949596979899")%string.
Definition dtoa_digits_at (i : Z) : outcome ascii :=
  if in_range i 200 then Ok (nth (Z.to_nat i) DTOA_DIGITS NUL)
  else UB "DIGITS read out of bounds".

(** dtoa.cpp:308-310, 312-314: the two characters at [DIGITS_PTR + k * 2]. *)
Definition put_pair (c : cursor) (k : Z) : outcome cursor :=
  let* d0 := dtoa_digits_at (k * 2) in
  let* d1 := dtoa_digits_at (k * 2 + 1) in
  let* c := put c d0 in put c d1.

(** dtoa.cpp:297-321 *)
Definition writeExponent (k : Z) (c : cursor) : outcome cursor :=
  let* (c, k) := if k <? 0 then let* c := put c "-"%char in Ok (c, - k) else Ok (c, k) in
  let* c :=
    if k >=? 100 then
      let* c := put c (chr (48 + k / 100)) in put_pair c (k mod 100)
    else if k >=? 10 then put_pair c k
    else put c (chr (48 + k)) in
  let* b := buf_write (cbuf c) (cpos c) NUL in
  Ok (Cursor b (cpos c)).

(** [for (int i = from; i < to; i++) buffer[i] = '0';] *)
Fixpoint fill_zeros (b : buf) (i : Z) (n : nat) : outcome buf :=
  match n with
  | O => Ok b
  | S n => let* b := buf_write b i "0"%char in fill_zeros b (i + 1) n
  end.

(** dtoa.cpp:326-370; returns the buffer and the position of the end. *)
Definition prettify (b : buf) (base length k : Z) : outcome cursor :=
  let kk := length + k in
  if (length <=? kk) && (kk <=? 21) then
    let* b := fill_zeros b (base + length) (Z.to_nat (kk - length)) in
    let* b := buf_write b (base + kk) "."%char in
    let* b := buf_write b (base + (kk + 1)) "0"%char in
    let* b := buf_write b (base + (kk + 2)) NUL in
    Ok (Cursor b (base + (kk + 2)))
  else if (0 <? kk) && (kk <=? 21) then
    let* b := buf_memmove b (base + (kk + 1)) (base + kk) (length - kk) in
    let* b := buf_write b (base + kk) "."%char in
    let* b := buf_write b (base + (length + 1)) NUL in
    Ok (Cursor b (base + (length + 1)))
  else if (-6 <? kk) && (kk <=? 0) then
    let offset := 2 - kk in
    let* b := buf_memmove b (base + offset) base length in
    let* b := buf_write b base "0"%char in
    let* b := buf_write b (base + 1) "."%char in
    let* b := fill_zeros b (base + 2) (Z.to_nat (offset - 2)) in
    let* b := buf_write b (base + (length + offset)) NUL in
    Ok (Cursor b (base + (length + offset)))
  else if length =? 1 then
    let* b := buf_write b (base + 1) "e"%char in
    writeExponent (kk - 1) (Cursor b (base + 2))
  else
    let* b := buf_memmove b (base + 2) (base + 1) (length - 1) in
    let* b := buf_write b (base + 1) "."%char in
    let* b := buf_write b (base + (length + 1)) "e"%char in
    writeExponent (kk - 1) (Cursor b (base + (0 + length + 2))).

(** [value == 0] and [value < 0] on a finite double; negation flips the sign bit. *)
Definition double_is_zero (u : Z) : bool := u mod 2 ^ 63 =? 0.
Definition double_is_negative (u : Z) : bool := (2 ^ 63 <=? u) && negb (double_is_zero u).
Definition double_negate (u : Z) : Z := Z.lxor u SIGN_MASK.

(** dtoa.cpp:375-394, for a finite [value]; the buffer starts at the cursor. *)
Definition dtoa (tc : toolchain) (value : Z) (c : cursor) : outcome cursor :=
  if double_is_zero value then
    let* c := put c "0"%char in
    let* c := put c "."%char in
    let* c := put c "0"%char in
    let* b := buf_write (cbuf c) (cpos c) NUL in
    Ok (Cursor b (cpos c))
  else
    let* (c, value) :=
      if double_is_negative value then
        let* c := put c "-"%char in Ok (c, double_negate value)
      else Ok (c, value) in
    let* (b, length, k) := grisu2 tc value (cbuf c) (cpos c) in
    prettify b (cpos c) length k.
