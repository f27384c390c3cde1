(** Which decimal is printed where the table POWER10 is followed by other words. *)
From Coq Require Import Reals.
From Flocq Require Import Core.
From Verif Require Import Machine SpecDecimal SpecNumber SpecIeee SpecLayout SpecOverrun SpecGrisu.
Open Scope Z_scope.

(** What is read for ten to the [i]: the table ends with ten to the 9, [w 10], [w 11] .. follow. *)
Definition factor (w : Z -> Z) (i : Z) : Z := if i <=? 9 then 10 ^ i else w i mod 2 ^ 32.

(** What the last digit aims at, counted in the unit of the window.  The distance from [hi] to
    [mid] is multiplied by that factor modulo 2^64 and divided by the power of ten. *)
Definition aim (w : Z -> Z) (g mid hi P : Z) : R :=
  let i := - g - P in
  if i <=? 0 then IZR mid else (IZR hi - IZR (((hi - mid) * factor w i) mod 2 ^ 64) / bpow radix10 i)%R.

(** At the last place the decimal closest to that, the larger one of two. *)
Definition printed_behind (w : Z -> Z) (x : R) (N P : Z) : Prop :=
  exists g lo mid hi unit, window x g lo mid hi unit /\ place g lo hi unit P /\
    within lo hi unit (IZR N * bpow radix10 P) /\
    forall D, within lo hi unit (IZR D * bpow radix10 P) ->
      let away y := Rabs (y - aim w g mid hi P * unit) in
      (away (IZR N * bpow radix10 P) <= away (IZR D * bpow radix10 P))%R /\
      ((away (IZR N * bpow radix10 P) = away (IZR D * bpow radix10 P))%R -> D <= N).

(** The text of the double [u]. *)
Definition shown_behind (w : Z -> Z) (u : Z) (s : bytes) : Prop :=
  exists N P D t, printed_behind w (Rabs (double_value u)) N P /\
    canonical_natural D N /\ written D (P + Z.of_nat (length D)) t /\
    s = (if double_sign u then ["-"%char] else []) ++ t.
