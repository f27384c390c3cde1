(** What C17 says about [errno] after reading a number, and what a caller would expect of it. *)
From Coq Require Import Reals Floats.SpecFloat.
From Flocq Require Import Core IEEE754.BinarySingleNaN.
From Verif Require Import Machine SpecDecimal SpecInt SpecIeee SpecRead SpecMore ModelItoa ModelInt ModelFloat ModelLexi ModelErrno.
Open Scope Z_scope.

(** The types read with strtoull. *)
Definition integer_target (T : extract_type) : Prop :=
  match T with TInt _ | TEnum _ | TFpos => True | _ => False end.

(** [errno'] is [errno] after strtoull read the digits [ds]. *)
Definition after_integer (cl : c_library) (ds : bytes) (errno errno' : Z) : Prop :=
  (2 ^ 64 <= numeral_value ds -> errno' = ERANGE) /\
  (ds <> [] -> numeral_value ds < 2 ^ 64 -> errno' = errno) /\
  (ds = [] -> errno' = if cl_einval cl then EINVAL else errno).

(** [errno'] is [errno] after strtold read the number [x] in a format: ERANGE when it is rounded to
    an infinity, and possibly when it is not zero and rounded to the smallest normalized number or
    a smaller one. *)
Definition overflows (prec emax : Z) (x : R) : Prop := (bpow radix2 emax <= Rabs (nearest prec emax x))%R.
Definition underflows (prec emax : Z) (x : R) : Prop :=
  x <> 0%R /\ (Rabs (nearest prec emax x) <= bpow radix2 (2 - emax))%R.
Definition after_number (prec emax : Z) (x : R) (errno errno' : Z) : Prop :=
  (overflows prec emax x -> errno' = ERANGE) /\
  (underflows prec emax x -> errno' = errno \/ errno' = ERANGE) /\
  (~ overflows prec emax x -> ~ underflows prec emax x -> errno' = errno).
Definition after_floating (cl : c_library) (prec emax : Z) (v : denoted) (errno errno' : Z) : Prop :=
  match v with
  | DInfinity _ | DNan => errno' = errno
  | DNothing => errno' = if cl_einval cl then EINVAL else errno
  | _ => forall x, denotes v x -> after_number prec emax x errno errno'
  end.
