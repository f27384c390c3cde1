(** Model of include/lexi/detail/ieee754.hpp and src/detail/ieee754.cpp.

    A double is represented by its 64-bit pattern [u] (0 <= u < 2^64), which is what the
    union BitwiseDouble (ieee754.hpp:28-32) exposes. *)
From Verif Require Import Machine.

(** ieee754.hpp:21-23 *)
Definition EXPONENT_MASK : Z := 0x7FF0000000000000.
Definition SIGNIFICAND_MASK : Z := 0x000FFFFFFFFFFFFF.
Definition SIGN_MASK : Z := 0x8000000000000000.

(** ieee754.cpp:19-20 *)
Definition INFINITY : Z := 0x7FF0000000000000.
Definition NEGATIVE_INFINITY : Z := 0xFFF0000000000000.

(** ieee754.cpp:64-68 *)
Definition isFinite (u : Z) : bool := negb (Z.land u EXPONENT_MASK =? EXPONENT_MASK).
(** ieee754.cpp:28-32 *)
Definition isNan (u : Z) : bool := negb (isFinite u) && negb (Z.land u SIGNIFICAND_MASK =? 0).
(** ieee754.cpp:37-41 *)
Definition isInf (u : Z) : bool := negb (isFinite u) && (Z.land u SIGNIFICAND_MASK =? 0).
(** ieee754.cpp:46-50 *)
Definition isNegativeInfinity (u : Z) : bool := u =? NEGATIVE_INFINITY.
(** ieee754.cpp:55-59 *)
Definition isInfinity (u : Z) : bool := u =? INFINITY.
(** ieee754.cpp:73-77 *)
Definition isZero (u : Z) : bool := Z.land u (Z.lor EXPONENT_MASK SIGNIFICAND_MASK) =? 0.
(** ieee754.cpp:82-86 *)
Definition isPositive (u : Z) : bool := Z.land u SIGN_MASK =? 0.
