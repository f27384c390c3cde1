(** Independent specification of reading a decimal integer from a text (what the C standard
    says about strtoull, phrased without an algorithm). *)
From Verif Require Import Machine SpecDecimal.

Definition is_space (c : ascii) : Prop := 9 <= code c <= 13 \/ code c = 32.
Definition is_sign (c : ascii) : Prop := c = "+"%char \/ c = "-"%char.

Definition starts_with (P : ascii -> Prop) (s : bytes) : Prop :=
  match s with c :: _ => P c | [] => False end.

(** The text [s] consists of white space, a sign ([neg] iff it is a minus), the digits [ds],
    and something else; each of the first three parts is as long as possible.  An embedded
    NUL is neither space, sign nor digit, so it ends the number like any other byte. *)
Definition integer_prefix (s : bytes) (neg : bool) (ds : bytes) : Prop :=
  exists ws sg rest,
    s = ws ++ sg ++ ds ++ rest /\
    Forall is_space ws /\ ~ starts_with is_space (sg ++ ds ++ rest) /\
    ((neg = true /\ sg = ["-"%char]) \/ (neg = false /\ sg = ["+"%char]) \/
     (neg = false /\ sg = [] /\ ~ starts_with is_sign (ds ++ rest))) /\
    Forall is_digit ds /\ ~ starts_with is_digit rest.

(** [r] and [x] denote the same residue modulo [2^bits]. *)
Definition congruent (bits r x : Z) : Prop := exists q, r = x + q * 2 ^ bits.
