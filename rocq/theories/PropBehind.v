(** What the memory behind the table POWER10 does to the text of a double (C91). *)
From Coq Require Import Reals.
From Flocq Require Import Core.
From Verif Require Import Machine SpecApi SpecDecimal SpecNumber SpecIeee SpecOverrun SpecGrisu SpecBehind ModelDtoa ModelFloat ModelLexi ModelPlatforms
  ProofFloat ProofAim.
Open Scope Z_scope.

(** C91 as stated is false: with zeros behind the table 0x40769D4FC660619E prints as
    361.83197629593806, with all bits set as 361.83197629593805. *)
Theorem C91_same_text_refuted : exists e e' u, bits64 u /\ double_finite u /\ double_value u <> 0%R /\
  lenient (fe_tc (e_float e)) /\ lenient (fe_tc (e_float e')) /\ lexi e (VDouble u) <> lexi e' (VDouble u).
Proof. exact behind_refuted. Qed.
Print Assumptions C91_same_text_refuted.

(** Exactly the text of the specification for the words that lie there. *)
Theorem C91_exactly : forall u, bits64 u -> double_finite u -> double_value u <> 0%R -> forall e w s,
  tc_policy (fe_tc (e_float e)) = Lenient w -> (lexi e (VDouble u) = Ok s <-> shown_behind w u s).
Proof. exact behind_exactly. Qed.
Print Assumptions C91_exactly.

(** There always is one. *)
Theorem C91_text : forall u, bits64 u -> double_finite u -> double_value u <> 0%R -> forall e w,
  tc_policy (fe_tc (e_float e)) = Lenient w -> exists s, lexi e (VDouble u) = Ok s /\ shown_behind w u s.
Proof. exact behind_text. Qed.
Print Assumptions C91_text.

Theorem C91_unique : forall u, bits64 u -> double_finite u -> double_value u <> 0%R -> forall w s s',
  shown_behind w u s -> shown_behind w u s' -> s = s'.
Proof. exact shown_behind_unique. Qed.
Print Assumptions C91_unique.

Example C91_case : shown_behind (fun _ => 0) 0x40769D4FC660619E (str "361.83197629593806") /\
  shown_behind (fun _ => 2 ^ 32 - 1) 0x40769D4FC660619E (str "361.83197629593805").
Proof. exact behind_case. Qed.

(** Where the strict reading gives a text (C90), it is this one. *)
Theorem C91_strict : forall u, bits64 u -> double_finite u -> double_value u <> 0%R -> forall w s,
  shown u s -> shown_behind w u s.
Proof. exact shown_anyway. Qed.
Print Assumptions C91_strict.

(** Only the first word behind the table has an influence. *)
Theorem C91_first_word : forall u, bits64 u -> double_finite u -> double_value u <> 0%R -> forall e e' w w',
  tc_policy (fe_tc (e_float e)) = Lenient w -> tc_policy (fe_tc (e_float e')) = Lenient w' ->
  w 10 mod 2 ^ 32 = w' 10 mod 2 ^ 32 -> lexi e (VDouble u) = lexi e' (VDouble u).
Proof. exact words_only. Qed.
Print Assumptions C91_first_word.

(** And only on doubles whose last place is ten below their scale. *)
Theorem C91_one_place : forall u, bits64 u -> double_finite u -> double_value u <> 0%R -> forall e e' g P,
  lenient (fe_tc (e_float e)) -> lenient (fe_tc (e_float e')) ->
  decimal_scale (Rabs (double_value u)) g -> last_place (Rabs (double_value u)) P -> P <> - g - 10 ->
  lexi e (VDouble u) = lexi e' (VDouble u).
Proof. exact places_only. Qed.
Print Assumptions C91_one_place.

(** Below that the last digit is not rounded: the largest decimal of the window. *)
Theorem C91_largest : forall u, bits64 u -> double_finite u -> double_value u <> 0%R -> forall w N P g lo mid hi unit D,
  printed_behind w (Rabs (double_value u)) N P -> window (Rabs (double_value u)) g lo mid hi unit -> P < - g - 10 ->
  within lo hi unit (IZR D * bpow radix10 P) -> D <= N.
Proof. exact behind_largest. Qed.
Print Assumptions C91_largest.

Example C91_largest_case : forall w, lexi (linux_x86_64 (Lenient w)) (VDouble 0x3FF0000000000001) = Ok (str "1.0000000000000003").
Proof. exact largest_case. Qed.

(** C65: so whatever lies behind the table, the last digit is not always the closest. *)
Theorem C65_every_memory_refuted : forall w, exists e u s n N K D, tc_policy (fe_tc (e_float e)) = Lenient w /\
  bits64 u /\ double_finite u /\ double_value u <> 0%R /\
  lexi e (VDouble u) = Ok s /\ json_number s n /\ n_magnitude n = (IZR N * bpow radix10 K)%R /\ N mod 10 <> 0 /\
  let x := Rabs (double_value u) in let margin := (ulp radix2 (binary_format 53 1024) x / 500)%R in
  (lower_end x + margin <= IZR D * bpow radix10 K <= upper_end x - margin)%R /\
  ~ (Rabs (n_magnitude n - x) <= Rabs (IZR D * bpow radix10 K - x) + margin)%R.
Proof. exact every_memory. Qed.
Print Assumptions C65_every_memory_refuted.
