(** Which decimal is printed for a positive number of binary64, stated with real arithmetic. *)
From Coq Require Import Reals.
From Flocq Require Import Core.
From Verif Require Import Machine SpecDecimal SpecNumber SpecIeee SpecLayout SpecOverrun.
Open Scope Z_scope.

Definition half_up (y : R) : Z := Zfloor (y + / 2).

(** The midpoints around [x] and [x] itself are written over one power of two with a 64-bit
    numerator for the upper midpoint, and multiplied by the 64-bit number [F * 2^E] that is
    nearest to ten to the [g].  The high halves of the products, rounded, are [mid] and, moved
    inwards by one, [lo] and [hi]; [unit] is what they count. *)
Definition window (x : R) (g lo mid hi : Z) (unit : R) : Prop :=
  decimal_scale x g /\
  exists F E p v m t,
    2 ^ 63 <= F < 2 ^ 64 /\ (Rabs (IZR F * bpow radix2 E - bpow radix10 g) <= bpow radix2 E / 2)%R /\
    2 ^ 63 <= p < 2 ^ 64 /\ upper_end x = (IZR p * bpow radix2 t)%R /\
    x = (IZR v * bpow radix2 t)%R /\ lower_end x = (IZR m * bpow radix2 t)%R /\
    lo = half_up (IZR m * IZR F / bpow radix2 64) + 1 /\
    mid = half_up (IZR v * IZR F / bpow radix2 64) /\
    hi = half_up (IZR p * IZR F / bpow radix2 64) - 1 /\
    unit = (bpow radix10 (- g) * bpow radix2 (t + E + 64))%R.

Definition within (lo hi : Z) (unit y : R) : Prop := (IZR lo * unit <= y <= IZR hi * unit)%R.

(** [D] times ten to the [P] ends the search; below the place - [g] the lower end does not. *)
Definition candidate (g lo hi : Z) (unit : R) (P D : Z) : Prop :=
  within lo hi unit (IZR D * bpow radix10 P) /\ (P < - g -> (IZR lo * unit < IZR D * bpow radix10 P)%R).

(** The highest place of a candidate. *)
Definition place (g lo hi : Z) (unit : R) (P : Z) : Prop :=
  (exists D, candidate g lo hi unit P D) /\ forall P' D, P < P' -> ~ candidate g lo hi unit P' D.

Definition last_place (x : R) (P : Z) : Prop :=
  exists g lo mid hi unit, window x g lo mid hi unit /\ place g lo hi unit P.

(** At that place the decimal closest to [mid], the larger one of two. *)
Definition printed_decimal (x : R) (N P : Z) : Prop :=
  exists g lo mid hi unit, window x g lo mid hi unit /\ place g lo hi unit P /\
    within lo hi unit (IZR N * bpow radix10 P) /\
    forall D, within lo hi unit (IZR D * bpow radix10 P) ->
      let away y := Rabs (y - IZR mid * unit) in
      (away (IZR N * bpow radix10 P) <= away (IZR D * bpow radix10 P))%R /\
      ((away (IZR N * bpow radix10 P) = away (IZR D * bpow radix10 P))%R -> D <= N).

(** The text of the double [u]: the sign, and that decimal as C27 writes it.  Its last place is
    no lower than - [g] - 9, the range of the table POWER10. *)
Definition shown (u : Z) (s : bytes) : Prop :=
  exists g N P D t, decimal_scale (Rabs (double_value u)) g /\ - g - 9 <= P /\
    printed_decimal (Rabs (double_value u)) N P /\
    canonical_natural D N /\ written D (P + Z.of_nat (length D)) t /\
    s = (if double_sign u then ["-"%char] else []) ++ t.
