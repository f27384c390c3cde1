(** The library's own tests (/repo/test), run on the model as a check of its faithfulness:
    every expectation of test/*.cpp, on three platforms.  The instantiations that only differ
    in const and volatile are listed once. *)
From Coq Require Import Floats.SpecFloat.
From Verif Require Import Machine ModelItoa ModelInt ModelString ModelText ModelIeee ModelDiyfp
  ModelDtoa ModelFloat ModelLexi ModelPlatforms.
Open Scope Z_scope.

Definition platforms : list env := [linux_x86_64 zero_memory; windows_x64 zero_memory; linux_aarch64 zero_memory].

(** [EXPECT_EQ(f(value), expected)] for all pairs on all platforms. *)
Definition expect (f : env -> value -> outcome bytes) (l : list (value * bytes)) : Prop :=
  Forall (fun e => Forall (fun t => f e (fst t) = Ok (snd t)) l) platforms.
Definition expect_read (l : list (extract_type * bytes * extracted)) : Prop :=
  Forall (fun e => Forall (fun t => extract_cstr e "."%char (fst (fst t)) (snd (fst t)) = Ok (snd t)) l) platforms.
Definition expect_throw (l : list (extract_type * bytes)) : Prop :=
  Forall (fun e => Forall (fun t => exists w, extract_cstr e "."%char (fst t) (snd t) = Throw w) l) platforms.

Ltac run := repeat apply Forall_cons; try apply Forall_nil; vm_compute; try eexists; reflexivity.

(** test/bool.cpp:16-48 *)
Example test_bool : expect lexi [(VBool true, str "true"); (VBool false, str "false")] /\
  expect escape_of [(VBool false, str "false")].
Proof. split; run. Qed.

(** test/null.cpp:15-34 *)
Example test_null : expect lexi [(VNull, str "null")] /\ expect jsonify_of [(VNull, str "null")].
Proof. split; run. Qed.

(** test/char.cpp:15-43 *)
Example test_char :
  expect lexi [(VChar NUL, [NUL]); (VChar (chr 8), [chr 8]); (VChar (chr 12), [chr 12]); (VChar "a"%char, str "a")] /\
  expect escape_of [(VChar NUL, str "\" ++ [NUL]); (VChar (chr 8), str "\" ++ [chr 8]); (VChar (chr 12), str "\" ++ [chr 12]); (VChar "a"%char, str "a")] /\
  expect jsonify_of [(VChar NUL, str """\u0000"""); (VChar (chr 8), str """\b"""); (VChar (chr 12), str """\f"""); (VChar "a"%char, str """a""")].
Proof. split; [|split]; run. Qed.

(** test/enum.cpp:22-30 *)
Example test_enum : expect lexi [(VEnum (EInt UInt) 0, str "0")].
Proof. run. Qed.

(** test/int.cpp:15-43 *)
Example test_int :
  expect escape_of [(VInt UShort 1, str "1"); (VInt UInt 1, str "1"); (VInt ULong 1, str "1"); (VInt ULLong 1, str "1")] /\
  expect jsonify_of [(VInt ULLong 1, str "1")].
Proof. split; run. Qed.

(** test/float.cpp:19-62 *)
Example test_float :
  expect lexi [(VFloat 0, str "0.0"); (VDouble 0, str "0.0"); (VLongDouble (S754_zero false), str "0.0");
   (VDouble 0x3FF0000000000000, str "1.0");
   (VDouble 0xBFF0000000000000, str "-1.0");
   (VDouble 0x3FF3C083126E978D, str "1.2345");
   (VDouble 0x3FF3C0CA2A5B1D5D, str "1.2345678");
   (VDouble 0x3FBF9ADD37469512, str "0.123456789012");
   (VDouble 0x4132D687CCCCCCCD, str "1234567.8");
   (VDouble 0xC053D97477742D51, str "-79.39773355813419");
   (VDouble 0x3EB0C6F7A0B5ED8D, str "0.000001");
   (VDouble 0x3E7AD7F29ABCAF48, str "1e-7");
   (VDouble 0x46293E5939A08CEA, str "1e30");
   (VDouble 0x462F2A353F474508, str "1.234567890123456e30");
   (VDouble 0x0000000000000001, str "5e-324");
   (VDouble 0x000FFFFFFFFFFFFF, str "2.225073858507201e-308");
   (VDouble 0x0010000000000000, str "2.2250738585072014e-308");
   (VDouble 0x7FEFFFFFFFFFFFFF, str "1.7976931348623157e308");
   (VDouble 0x7FF8000000000000, str "NaN"); (VDouble 0x7FF0000000000000, str "Infinity"); (VDouble 0xFFF0000000000000, str "-Infinity")] /\
  expect escape_of [(VLongDouble (S754_zero false), str "0.0")] /\ expect jsonify_of [(VLongDouble (S754_zero false), str "0.0")].
Proof. split; [|split]; run. Qed.

(** Two of these expectations (test/float.cpp:49,53) already read outside of POWER10, see C23. *)
Example test_float_outside : exists w,
  lexi (linux_x86_64 Strict) (VDouble 0xC053D97477742D51) = UB w /\ lexi (linux_x86_64 Strict) (VDouble 0x462F2A353F474508) = UB w.
Proof. eexists. split; vm_compute; reflexivity. Qed.

(** test/lexi.cpp:38-56 *)
Example test_format :
  expect lexi [(VNull, str "null"); (VEnum (EInt UInt) 0, str "0"); (VBool true, str "true"); (VBool false, str "false");
     (VChar "A"%char, str "A"); (VChar NUL, [NUL]); (VInt Int 1, str "1"); (VDouble 0x3FF0000000000000, str "1.0");
     (VCString (str "1.0"), str "1.0"); (VString (str "1.0"), str "1.0")] /\
  expect escape_of [(VChar NUL, str "\" ++ [NUL])] /\
  expect jsonify_of [(VChar NUL, str """\u0000"""); (VChar (chr 8), str """\b"""); (VCString [chr 8], str """\b""")].
Proof. split; [|split]; run. Qed.

(** test/lexi.cpp:59-81 *)
Example test_extract :
  expect_read [(TNull, str "null", XNull); (TBool, str "true", XBool true); (TBool, str "false", XBool false);
     (TChar, str "f", XChar (chr 102)); (TInt U8, str "102", XInt 102); (TInt U8, [], XInt 0);
     (TInt Short, str "-1", XInt (-1)); (TInt Int, str "-1", XInt (-1)); (TInt Long, str "-1", XInt (-1)); (TInt LLong, str "-1", XInt (-1));
     (TInt UShort, str "5", XInt 5); (TInt UInt, str "5", XInt 5); (TInt ULong, str "5", XInt 5); (TInt ULLong, str "5", XInt 5);
     (TEnum (EInt UInt), str "0", XEnum 0)] /\
  expect_throw [(TBool, str "null"); (TChar, [])].
Proof. split; run. Qed.
