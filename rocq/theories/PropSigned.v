(** Property C76: formatting a floating point value and the start of its reading have no signed
    overflow. *)
From Coq Require Import Floats.SpecFloat.
From Verif Require Import Machine SpecIeee ModelIeee ModelDiyfp ModelDtoa ModelBigint ModelStrtod ModelSigned ModelPlatforms
  ProofSigned.
Open Scope Z_scope.

(** C76: no operation on int in dtoa.cpp and diyfp.cpp overflows, on any compiler, for any
    finite double, any memory behind the table POWER10 and any buffer (the formatting is then
    that of the model with exact integers), ... *)
Theorem C76_format : forall tc u c, bits64 u -> double_finite u ->
  s_dtoa tc u c = dtoa tc u c /\ s_dtoa tc u c <> UB "signed overflow".
Proof. exact dtoa_signed. Qed.
Print Assumptions C76_format.

(** ... nor any in strtod.cpp, for any double and any exponent that is an int. *)
Theorem C76_read : forall d p, - 2 ^ 31 <= p < 2 ^ 31 ->
  s_StrtodNormalPrecision d p = StrtodNormalPrecision d p /\ s_StrtodNormalPrecision d p <> UB "signed overflow" /\
  s_fast d p = fast d p /\ s_fast d p <> UB "signed overflow".
Proof. exact strtod_signed. Qed.
Print Assumptions C76_read.

(** The check is that of a 32-bit int. *)
Theorem C76_check : forall x, (int_op x = Ok x <-> - 2147483648 <= x <= 2147483647) /\
  (int_op x = UB "signed overflow" <-> ~ - 2147483648 <= x <= 2147483647).
Proof. exact int_op_range. Qed.
Print Assumptions C76_check.

(** The largest and the smallest double; and exponents that no double has overflow. *)
Example C76_case :
  (let* c := s_dtoa (Toolchain GNUC64 GNUC64 Generic EvalDouble true zero_memory) 0x7FEFFFFFFFFFFFFF
               (Cursor (repeat None 30) 0) in buf_read_n (cbuf c) 0 (Z.to_nat (cpos c))) = Ok (str "1.7976931348623157e308") /\
  (let* c := s_dtoa (Toolchain MSVC64 MSVC64 MSVC64 EvalDouble true zero_memory) 0x8000000000000001
               (Cursor (repeat None 30) 0) in buf_read_n (cbuf c) 0 (Z.to_nat (cpos c))) = Ok (str "-5e-324") /\
  s_writeExponent (- 2 ^ 31) (Cursor (repeat None 30) 0) = UB "signed overflow" /\
  s_prettify (repeat None 30) 0 1 (2 ^ 31 - 1) = UB "signed overflow" /\
  s_mul Generic (MkDiyFp 1 (2 ^ 31 - 60)) (MkDiyFp 1 0) = UB "signed overflow".
Proof. vm_compute. auto. Qed.
