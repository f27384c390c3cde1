(** More vocabulary: arguments that have a JSON text, sizes of texts, the order of floating
    point values, and the double of a bit pattern. *)
From Coq Require Import Reals Floats.SpecFloat.
From Flocq Require Import Core IEEE754.BinarySingleNaN.
From Verif Require Import Machine SpecInt SpecIeee SpecString SpecRead SpecApi ModelItoa ModelInt ModelText ModelIeee ModelDiyfp
  ModelDtoa ModelFloat ModelLexi.
Open Scope Z_scope.

(** An argument of any type is a value of its type. *)
Definition argument_ok (e : env) (v : value) : Prop :=
  match v with VString _ | VCString _ => True | _ => value_ok e v end.

(** The arguments for which there is a JSON text (RFC 8259: numbers are finite, texts are
    UTF-8).  A long double is printed as the nearest double. *)
Definition has_json (v : value) : Prop :=
  match v with
  | VNull | VBool _ | VInt _ _ | VEnum _ _ | VFpos _ => True
  | VChar c => is_ascii c
  | VFloat u => float_finite u
  | VDouble u => double_finite u
  | VLongDouble x => is_finite_SF x = true /\ (Rabs (nearest 53 1024 (SF2R radix2 x)) < bpow radix2 1024)%R
  | VString s => utf8 s
  | VCString s => forall t r, s = t ++ r -> Forall (fun c => c <> NUL) t -> (r = [] \/ exists r', r = NUL :: r') -> utf8 t
  end.

(** The longest text of an integer type of the given width. *)
Definition integer_limit (bits : Z) (signed : bool) : nat :=
  match bits, signed with
  | 8, false => 3 | 8, true => 4
  | 16, false => 5 | 16, true => 6
  | 32, false => 10 | 32, true => 11
  | _, _ => 20
  end.

(** The number of bits of an underlying type other than bool. *)
Definition underlying_bits (p : platform) (u : enum_underlying) : Z :=
  match u with
  | EInt t => int_bits p t
  | EBool => 1 | EChar => 8 | EWchar => wchar_bits p | EChar16 => 16 | EChar32 => 32
  end.

(** [r] is what C++ makes of the integer [x] in the underlying type: for bool, whether it is
    zero; otherwise the same modulo the width. *)
Definition converted (p : platform) (u : enum_underlying) (r x : Z) : Prop :=
  underlying_has p u r /\
  match u with EBool => r = 0 <-> x = 0 | _ => congruent (underlying_bits p u) r x end.

(** [a] is at most [b]; infinities are beyond all numbers and NaN is not comparable. *)
Definition at_most (a b : spec_float) : Prop :=
  match a, b with
  | S754_nan, _ | _, S754_nan => False
  | S754_infinity true, _ | _, S754_infinity false => True
  | S754_infinity false, _ | _, S754_infinity true => False
  | _, _ => (SF2R radix2 a <= SF2R radix2 b)%R
  end.

(** The number that a text denotes, when it is one. *)
Definition denotes (v : denoted) (x : R) : Prop :=
  match v with
  | DDecimal neg D K => x = signed neg (IZR D * bpow SpecNumber.radix10 K)
  | DHex neg M E => x = signed neg (IZR M * bpow radix2 E)
  | _ => False
  end.

(** The pattern [w] is one of the value [z]. *)
Definition double_is (z : spec_float) (w : Z) : Prop :=
  match z with
  | S754_nan => double_nan w
  | S754_infinity s => double_infinity w s
  | _ => double_finite w /\ same_double z w
  end.
Definition float_is (z : spec_float) (w : Z) : Prop :=
  match z with
  | S754_nan => float_nan w
  | S754_infinity s => float_infinity w s
  | _ => float_finite w /\ same_float z w
  end.

(** The format of the floating point type [T]: precision and the exponent bound. *)
Definition target_format (e : env) (T : extract_type) : option (Z * Z) :=
  match T with
  | TFloat => Some (24, 128)
  | TDouble => Some (53, 1024)
  | TLongDouble => Some (ld_prec (fe_ld (e_float e)), ld_emax (fe_ld (e_float e)))
  | _ => None
  end.

(** [y] is, up to its sign, in the middle between two neighbours of the format. *)
Definition halfway (p q : Z) (y : R) : Prop :=
  exists a, generic_format radix2 (binary_format p q) a /\ (0 <= a)%R /\
    Rabs y = ((a + succ radix2 (binary_format p q) a) / 2)%R.
