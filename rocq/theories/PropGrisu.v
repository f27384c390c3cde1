(** Exactly which decimal is printed for a double (C90), and what follows for C23, C29 and C48. *)
From Coq Require Import Reals.
From Flocq Require Import Core.
From Verif Require Import Machine SpecApi SpecDecimal SpecNumber SpecIeee SpecOverrun SpecGrisu ModelDtoa ModelFloat ModelLexi ModelPlatforms
  ProofFloat ProofWindow ProofShown.
Open Scope Z_scope.

(** C90: under the strict reading of the table POWER10, exactly the text of the specification. *)
Theorem C90_exactly : forall u, bits64 u -> double_finite u -> double_value u <> 0%R -> forall e s,
  tc_policy (fe_tc (e_float e)) = Strict -> (lexi e (VDouble u) = Ok s <-> shown u s).
Proof. exact shown_exactly. Qed.
Print Assumptions C90_exactly.

(** The text of the specification is also returned whatever lies behind the table. *)
Theorem C90_shown : forall u, bits64 u -> double_finite u -> double_value u <> 0%R -> forall e s,
  shown u s -> lexi e (VDouble u) = Ok s.
Proof. exact text_shown. Qed.
Print Assumptions C90_shown.

Theorem C90_shown_unique : forall u, bits64 u -> double_finite u -> double_value u <> 0%R -> forall s s',
  shown u s -> shown u s' -> s = s'.
Proof. exact shown_unique. Qed.
Print Assumptions C90_shown_unique.

Example C90_shown_case : shown 0xC09348CCCCCCCCCD (str "-1234.2").
Proof. exact shown_case. Qed.

(** Any text that is returned is a decimal of the window at its last place, and if that is no
    lower than - g - 9 the one closest to the middle. *)
Theorem C90_printed : forall u, bits64 u -> double_finite u -> double_value u <> 0%R -> forall e s n,
  lexi e (VDouble u) = Ok s -> json_number s n ->
  exists N P, n_magnitude n = (IZR N * bpow radix10 P)%R /\
    (exists g lo mid hi unit, window (Rabs (double_value u)) g lo mid hi unit /\ place g lo hi unit P /\
      within lo hi unit (n_magnitude n)) /\
    (tc_policy (fe_tc (e_float e)) = Strict \/ (exists g, decimal_scale (Rabs (double_value u)) g /\ - g - 9 <= P) ->
     printed_decimal (Rabs (double_value u)) N P).
Proof. exact place_printed. Qed.
Print Assumptions C90_printed.

(** The specification names one decimal. *)
Theorem C90_unique : forall u, bits64 u -> double_finite u -> double_value u <> 0%R -> forall N P N' P',
  printed_decimal (Rabs (double_value u)) N P -> printed_decimal (Rabs (double_value u)) N' P' -> N = N' /\ P = P'.
Proof. exact printed_unique. Qed.
Print Assumptions C90_unique.

Theorem C90_window_exists : forall u, bits64 u -> double_finite u -> double_value u <> 0%R ->
  exists g lo mid hi unit, window (Rabs (double_value u)) g lo mid hi unit.
Proof. exact window_exists. Qed.
Print Assumptions C90_window_exists.

Theorem C90_window_unique : forall u, bits64 u -> double_finite u -> double_value u <> 0%R ->
  forall g lo mid hi unit g' lo' mid' hi' unit',
  window (Rabs (double_value u)) g lo mid hi unit -> window (Rabs (double_value u)) g' lo' mid' hi' unit' ->
  g = g' /\ lo = lo' /\ mid = mid' /\ hi = hi' /\ unit = unit'.
Proof. exact window_same. Qed.
Print Assumptions C90_window_unique.

(** The double that 1e23 is read as: 1e23 is one unit beyond the window, so that
    9.999999999999999e22 is printed. *)
Example C90_case : let x := Rabs (double_value 0x44B52D02C7E14AF6) in
  let unit := (bpow radix10 20 * bpow radix2 (-53))%R in
  window x (-20) 9007199254740990490 9007199254740991245 9007199254740991999 unit /\
  (IZR 1 * bpow radix10 23 = IZR (9007199254740991999 + 1) * unit)%R /\
  ~ within 9007199254740990490 9007199254740991999 unit (IZR 1 * bpow radix10 23) /\
  within 9007199254740990490 9007199254740991999 unit (IZR 9999999999999999 * bpow radix10 7).
Proof. exact window_case. Qed.

Example C90_text : lexi (linux_x86_64 zero_memory) (VDouble 0x44B52D02C7E14AF6) = Ok (str "9.999999999999999e22").
Proof. vm_compute. reflexivity. Qed.

(** C23: every double has a last place, and it decides whether the table is left. *)
Theorem C23_last_place : forall u, bits64 u -> double_finite u -> double_value u <> 0%R ->
  exists P, last_place (Rabs (double_value u)) P.
Proof. exact last_place_exists. Qed.
Print Assumptions C23_last_place.

Theorem C23_last_place_unique : forall u, bits64 u -> double_finite u -> double_value u <> 0%R -> forall P P',
  last_place (Rabs (double_value u)) P -> last_place (Rabs (double_value u)) P' -> P = P'.
Proof. exact last_place_unique. Qed.
Print Assumptions C23_last_place_unique.

Theorem C23_decided : forall u, bits64 u -> double_finite u -> double_value u <> 0%R -> forall e g P,
  tc_policy (fe_tc (e_float e)) = Strict -> decimal_scale (Rabs (double_value u)) g -> last_place (Rabs (double_value u)) P ->
  (P < - g - 9 -> lexi e (VDouble u) = overrun) /\ (- g - 9 <= P -> exists s, lexi e (VDouble u) = Ok s).
Proof. exact overrun_decided. Qed.
Print Assumptions C23_decided.

(** C29: no decimal of the window has fewer digits. *)
Theorem C29_exactly : forall u, bits64 u -> double_finite u -> double_value u <> 0%R -> forall e s n g lo mid hi unit D P,
  lexi e (VDouble u) = Ok s -> json_number s n -> window (Rabs (double_value u)) g lo mid hi unit -> candidate g lo hi unit P D ->
  10 ^ (Z.of_nat (length (significant (n_digits n))) - 1) <= D.
Proof. exact shortest_in_window. Qed.
Print Assumptions C29_exactly.

(** C48: which short decimals are printed for the double. *)
Theorem C48_exactly : forall u, bits64 u -> double_finite u -> double_value u <> 0%R -> forall e s n g lo mid hi unit D P,
  lexi e (VDouble u) = Ok s -> json_number s n ->
  (bpow radix2 (-1022) <= Rabs (double_value u))%R -> 0 < D < 10 ^ 15 -> window (Rabs (double_value u)) g lo mid hi unit ->
  (candidate g lo hi unit P D -> n_magnitude n = (IZR D * bpow radix10 P)%R) /\
  (n_magnitude n = (IZR D * bpow radix10 P)%R -> within lo hi unit (IZR D * bpow radix10 P)).
Proof. exact short_decimal_exactly. Qed.
Print Assumptions C48_exactly.
