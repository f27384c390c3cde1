(** Independent specification of reading a floating point number from a text (what C17
    7.22.1.3 says about strtold, phrased without an algorithm), and of the rounding of the
    number read. *)
From Coq Require Import Reals Floats.SpecFloat.
From Flocq Require Import Core IEEE754.BinarySingleNaN.
From Verif Require Import Machine SpecDecimal SpecInt SpecNumber SpecIeee.
Open Scope Z_scope.

(** ** Texts *)

(** What a text denotes: [(-1)^neg * D * 10^K], [(-1)^neg * M * 2^E], an infinity, a NaN, or
    nothing. *)
Inductive denoted :=
| DDecimal (neg : bool) (D K : Z) | DHex (neg : bool) (M E : Z)
| DInfinity (neg : bool) | DNan | DNothing.

Definition is_hex_digit (c : ascii) : Prop :=
  is_digit c \/ 65 <= code c <= 70 \/ 97 <= code c <= 102.
Definition hex_digit_value (c : ascii) : Z :=
  if code c <=? 57 then code c - 48 else if code c <=? 70 then code c - 55 else code c - 87.
Definition hex_value (l : bytes) : Z := fold_left (fun a c => 16 * a + hex_digit_value c) l 0.

(** [c] is the lower case letter [l] or its capital. *)
Definition letter (l c : ascii) : Prop := c = l \/ code c + 32 = code l.
(** [r] begins with the word [w] (lower case letters), ignoring case. *)
Definition begins_word (w r : bytes) : Prop :=
  exists a b, r = a ++ b /\ Forall2 letter w a.

(** A digit, possibly after a decimal point, begins [r]. *)
Definition begins_mantissa (P : ascii -> Prop) (point : ascii) (r : bytes) : Prop :=
  starts_with P r \/ exists q, r = point :: q /\ starts_with P q.
(** [r] is the digits [ip], possibly a decimal point and the digits [fp], and [rest]; as many
    characters as possible are taken. *)
Definition mantissa (P : ascii -> Prop) (point : ascii) (r ip fp rest : bytes) : Prop :=
  Forall P ip /\ Forall P fp /\ ~ starts_with P rest /\
  ((r = ip ++ rest /\ fp = [] /\ ~ starts_with (fun c => c = point) rest) \/
   r = ip ++ point :: fp ++ rest).
(** [r] begins with an exponent of value [x], or with none and [x = 0]. *)
Definition a_sign (sg : bytes) : Prop := sg = [] \/ sg = ["+"%char] \/ sg = ["-"%char].
Definition exponent_part (mark : ascii) (r : bytes) (x : Z) : Prop :=
  (exists m sg ds rest, r = m :: sg ++ ds ++ rest /\ letter mark m /\ a_sign sg /\
     ds <> [] /\ Forall is_digit ds /\ ~ starts_with is_digit rest /\
     x = if list_eq_dec ascii_dec sg ["-"%char] then - numeral_value ds else numeral_value ds) \/
  (x = 0 /\ ~ exists m sg q, r = m :: sg ++ q /\ letter mark m /\ a_sign sg /\ starts_with is_digit q).

(** [r] is a hexadecimal number: 0x and a hexadecimal digit. *)
Definition begins_hex (point : ascii) (r : bytes) : Prop :=
  exists c q, r = "0"%char :: c :: q /\ letter "x" c /\ begins_mantissa is_hex_digit point q.

(** What the text [r] after the sign denotes. *)
Definition subject (point : ascii) (neg : bool) (r : bytes) (v : denoted) : Prop :=
  match v with
  | DInfinity s => s = neg /\ begins_word (str "inf") r
  | DNan => begins_word (str "nan") r
  | DHex s M E => s = neg /\ exists c q ip fp rest x, r = "0"%char :: c :: q /\ letter "x" c /\
      begins_mantissa is_hex_digit point q /\ mantissa is_hex_digit point q ip fp rest /\
      M = hex_value (ip ++ fp) /\ exponent_part "p" rest x /\ E = x - 4 * Z.of_nat (length fp)
  | DDecimal s D K => s = neg /\ ~ begins_hex point r /\ begins_mantissa is_digit point r /\
      exists ip fp rest x, mantissa is_digit point r ip fp rest /\
      D = numeral_value (ip ++ fp) /\ exponent_part "e" rest x /\ K = x - Z.of_nat (length fp)
  | DNothing => ~ begins_word (str "inf") r /\ ~ begins_word (str "nan") r /\ ~ begins_mantissa is_digit point r
  end.

(** The characters of [s] before its first NUL are white space, possibly a sign, and a
    subject denoting [v]. *)
Definition reads (point : ascii) (s : bytes) (v : denoted) : Prop :=
  exists t u ws sg r, s = t ++ u /\ Forall (fun c => c <> NUL) t /\ (u = [] \/ starts_with (fun c => c = NUL) u) /\
    t = ws ++ sg ++ r /\ Forall is_space ws /\ ~ starts_with is_space (sg ++ r) /\
    a_sign sg /\ (sg = [] -> ~ starts_with is_sign r) /\
    subject point (if list_eq_dec ascii_dec sg ["-"%char] then true else false) r v.

(** The decimal point of a locale. *)
Definition point_ok (point : ascii) : Prop :=
  32 < code point /\ ~ is_hex_digit point /\ ~ is_sign point /\
  ~ letter "i" point /\ ~ letter "n" point.

(** ** Rounding *)

(** [z] is [x] rounded to nearest even in the format, with the sign [neg]: an infinity when
    the rounding with unbounded exponent is out of range. *)
Definition rounded (prec emax : Z) (z : spec_float) (neg : bool) (x : R) : Prop :=
  SpecFloat.valid_binary prec emax z = true /\
  if Rlt_bool (Rabs (nearest prec emax x)) (bpow radix2 emax)
  then SF2R radix2 z = nearest prec emax x /\ is_finite_SF z = true /\ sign_SF z = neg
  else z = S754_infinity neg.

Definition signed (neg : bool) (x : R) : R := if neg then (- x)%R else x.

(** The value of what was read, in a format. *)
Definition read_as (prec emax : Z) (v : denoted) (z : spec_float) : Prop :=
  match v with
  | DDecimal neg D K => rounded prec emax z neg (signed neg (IZR D * bpow radix10 K))
  | DHex neg M E => rounded prec emax z neg (signed neg (IZR M * bpow radix2 E))
  | DInfinity neg => z = S754_infinity neg
  | DNan => z = S754_nan
  | DNothing => z = S754_zero false
  end.

(** A float converted to another format. *)
Definition narrowed (prec emax : Z) (y z : spec_float) : Prop :=
  match y with
  | S754_finite neg _ _ => rounded prec emax z neg (SF2R radix2 y)
  | _ => z = y
  end.

(** [z] is the finite double of the bit pattern [u]; the finite float of the pattern [u]. *)
Definition same_double (z : spec_float) (u : Z) : Prop :=
  SpecFloat.valid_binary 53 1024 z = true /\ is_finite_SF z = true /\
  SF2R radix2 z = double_value u /\ sign_SF z = double_sign u.
Definition same_float (z : spec_float) (u : Z) : Prop :=
  SpecFloat.valid_binary 24 128 z = true /\ is_finite_SF z = true /\
  SF2R radix2 z = float_value u /\ sign_SF z = float_sign u.
