(** What the arguments of the public functions mean, apart from their C++ types. *)
From Coq Require Import Reals Floats.SpecFloat.
From Flocq Require Import Core IEEE754.BinarySingleNaN.
From Verif Require Import Machine SpecDecimal SpecInt SpecIeee SpecRead ModelItoa ModelInt ModelText ModelIeee ModelDiyfp ModelDtoa ModelFloat ModelLexi.
Open Scope Z_scope.

(** Integers and floating point numbers are told apart; zero has no sign. *)
Inductive meaning :=
| MNull | MBool (b : bool) | MText (s : bytes) | MInteger (n : Z)
| MNumber (x : R) | MInfinity (negative : bool) | MNaN.

(** A long double means the nearest double, which may be infinite. *)
Definition means (v : value) (m : meaning) : Prop :=
  match v with
  | VNull => m = MNull
  | VBool b => m = MBool b
  | VChar c => m = MText [c]
  | VInt _ n | VEnum _ n | VFpos n => m = MInteger n
  | VFloat u =>
      (float_nan u /\ m = MNaN) \/ (exists s, float_infinity u s /\ m = MInfinity s) \/
      (float_finite u /\ m = MNumber (float_value u))
  | VDouble u =>
      (double_nan u /\ m = MNaN) \/ (exists s, double_infinity u s /\ m = MInfinity s) \/
      (double_finite u /\ m = MNumber (double_value u))
  | VLongDouble x =>
      match x with
      | S754_nan => m = MNaN
      | S754_infinity s => m = MInfinity s
      | _ => let y := nearest 53 1024 (SF2R radix2 x) in
             ((Rabs y < bpow radix2 1024)%R /\ m = MNumber y) \/
             ((bpow radix2 1024 <= Rabs y)%R /\ m = MInfinity (sign_SF x))
      end
  | VString s => m = MText s
  | VCString s => exists t r, s = t ++ r /\ Forall (fun c => c <> NUL) t /\ (r = [] \/ exists r', r = NUL :: r') /\ m = MText t
  end.

(** The texts from which a value of the type [T] can be read. *)
Definition readable (T : extract_type) (s : bytes) : Prop :=
  match T with
  | TNull => s = str "null"
  | TBool => s = str "true" \/ s = str "false"
  | TChar => s <> []
  | _ => True
  end.

(** [r] is a value of the type [T]. *)
Definition of_type (e : env) (T : extract_type) (r : extracted) : Prop :=
  match T, r with
  | TNull, XNull | TBool, XBool _ | TChar, XChar _ => True
  | TInt t, XInt n => has_int_type (e_platform e) t n
  | TEnum u, XEnum n => underlying_has (e_platform e) u n
  | TFpos, XFpos n => - 2 ^ 63 <= n < 2 ^ 63
  | TFloat, XFloating z => valid_binary 24 128 z = true
  | TDouble, XFloating z => valid_binary 53 1024 z = true
  | TLongDouble, XFloating z => valid_binary (ld_prec (fe_ld (e_float e))) (ld_emax (fe_ld (e_float e))) z = true
  | _, _ => False
  end.

(** Numbers: arguments and types that are neither null, boolean, character nor string. *)
Definition is_number (v : value) : Prop :=
  match v with VInt _ _ | VEnum _ _ | VFpos _ | VFloat _ | VDouble _ | VLongDouble _ => True | _ => False end.
Definition number_type (T : extract_type) : Prop :=
  match T with TNull | TBool | TChar => False | _ => True end.

(** The text [rest] does not go on with a number before it. *)
Definition ends_number (point : ascii) (rest : bytes) : Prop :=
  ~ starts_with (fun c => is_digit c \/ c = point \/ letter "e" c \/ letter "x" c) rest.
