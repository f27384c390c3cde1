(** Independent specification of decimal number texts (RFC 8259 numbers) and of their
    values as real numbers. *)
From Coq Require Import Reals.
From Flocq Require Import Core.
From Verif Require Import Machine SpecDecimal.
Open Scope Z_scope.

Definition radix10 : radix := Build_radix 10 eq_refl.

(** The parts of a number: sign, integer digits, fraction digits, and exponent (its sign
    characters and its digits). *)
Record number := Number {
  n_negative : bool;
  n_integer : bytes;
  n_fraction : option bytes;
  n_exponent : option (bytes * bytes)
}.

Definition optional {A} (f : A -> bytes) (o : option A) : bytes :=
  match o with Some a => f a | None => [] end.

(** [s] is written [-]integer[.fraction][e[sign]exponent]. *)
Definition spells (s : bytes) (n : number) : Prop :=
  exists e, (e = "e"%char \/ e = "E"%char) /\
  s = (if n_negative n then ["-"%char] else []) ++ n_integer n
      ++ optional (fun f => "."%char :: f) (n_fraction n)
      ++ optional (fun x => e :: fst x ++ snd x) (n_exponent n).

(** RFC 8259, section 6. *)
Definition json_number (s : bytes) (n : number) : Prop :=
  spells s n /\
  n_integer n <> [] /\ Forall is_digit (n_integer n) /\
  (forall r, n_integer n = "0"%char :: r -> r = []) /\
  (forall f, n_fraction n = Some f -> f <> [] /\ Forall is_digit f) /\
  (forall sg e, n_exponent n = Some (sg, e) ->
     (sg = [] \/ sg = ["+"%char] \/ sg = ["-"%char]) /\ e <> [] /\ Forall is_digit e).

(** All digits before the exponent, and the power of ten of the last one. *)
Definition n_digits (n : number) : bytes := n_integer n ++ optional (fun f => f) (n_fraction n).
Definition n_exponent_value (n : number) : Z :=
  match n_exponent n with
  | None => 0
  | Some (sg, e) => if list_eq_dec ascii_dec sg ["-"%char] then - numeral_value e else numeral_value e
  end.
Definition n_scale (n : number) : Z :=
  n_exponent_value n - Z.of_nat (length (optional (fun f => f) (n_fraction n))).

(** The number denoted. *)
Definition n_magnitude (n : number) : R :=
  (IZR (numeral_value (n_digits n)) * bpow radix10 (n_scale n))%R.
Definition n_value (n : number) : R :=
  if n_negative n then (- n_magnitude n)%R else n_magnitude n.

(** Significant digits: without leading and trailing zeros. *)
Fixpoint strip_zeros (l : bytes) : bytes :=
  match l with "0"%char :: r => strip_zeros r | _ => l end.
Definition significant (l : bytes) : bytes := rev (strip_zeros (rev (strip_zeros l))).
