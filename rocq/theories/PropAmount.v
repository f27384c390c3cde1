(** Amounts: decimals with few places go through double unchanged (C79). *)
From Coq Require Import Reals Floats.SpecFloat.
From Flocq Require Import Core.
From Flocq Require Import IEEE754.BinarySingleNaN.
From Verif Require Import Machine SpecApi SpecDecimal SpecInt SpecNumber SpecIeee SpecRead SpecMore SpecAmount ModelInt ModelText ModelIeee ModelDtoa ModelFloat ModelLexi ModelPlatforms
  ProofAmount.
Open Scope Z_scope.

(** C79. A JSON number that is an amount is read as the nearest double, on every platform... *)
Theorem C79_read : forall e s n, json_number s n -> amount (n_value n) ->
  exists z, extract e "."%char TDouble s = Ok (XFloating z) /\ rounded 53 1024 z (n_negative n) (n_value n).
Proof. exact amount_read. Qed.
Print Assumptions C79_read.

(** ... the nearest double of an amount is printed as the amount... *)
Theorem C79_printed : forall e u s n x, bits64 u -> double_finite u -> lexi e (VDouble u) = Ok s -> json_number s n ->
  amount x -> double_value u = nearest 53 1024 x -> n_value n = x.
Proof. exact amount_printed. Qed.
Print Assumptions C79_printed.

(** ... so that reading an amount and printing it gives the same number... *)
Theorem C79_same_number : forall e s n z u s', json_number s n -> amount (n_value n) -> extract e "."%char TDouble s = Ok (XFloating z) ->
  bits64 u -> double_finite u -> same_double z u -> lexi e (VDouble u) = Ok s' ->
  exists n', json_number s' n' /\ n_value n' = n_value n.
Proof. exact amount_same. Qed.
Print Assumptions C79_same_number.

(** ... and the same text if it was written in the ordinary way. *)
Theorem C79_same_text : forall e s neg i f z u s', ordinary s neg i f -> (length f <= 3)%nat -> 0 < numeral_value (i ++ f) < 10 ^ 15 ->
  extract e "."%char TDouble s = Ok (XFloating z) -> bits64 u -> double_finite u -> same_double z u -> lexi e (VDouble u) = Ok s' ->
  s' = s.
Proof. exact amount_text. Qed.
Print Assumptions C79_same_text.

Example C79_case : ordinary (str "-1234567890.07") true (str "1234567890") (str "07") /\
  extract (linux_x86_64 zero_memory) "."%char TDouble (str "-1234567890.07") = Ok (XFloating (S754_finite true 5178153039592161 (-22))) /\
  lexi (linux_x86_64 zero_memory) (VDouble 0xC1D26580B4847AE1) = Ok (str "-1234567890.07").
Proof.
  split; [|split; vm_compute; reflexivity]. split; [reflexivity|]. split; [|split].
  - split; [discriminate|]. split; [repeat constructor; cbn; lia|]. split; [reflexivity|]. intros r X. discriminate X.
  - repeat constructor; cbn; lia.
  - right. exists (str "0"), "7"%char. split; [reflexivity|discriminate].
Qed.

(** With four places it is not so. *)
Example C79_four_places_case :
  extract (linux_x86_64 zero_memory) "."%char TDouble (str "5325690978.8283") = Ok (XFloating (S754_finite false 5584391743815864 (-20))) /\
  lexi (linux_x86_64 zero_memory) (VDouble 4752378398992318648) = Ok (str "5325690978.8283009").
Proof. split; vm_compute; reflexivity. Qed.
