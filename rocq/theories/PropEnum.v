(** Property C94: extraction of an enumeration gives one of its values. *)
From Verif Require Import Machine SpecDecimal SpecInt ModelItoa ModelInt ModelDtoa ModelLexi ModelPlatforms SpecMore SpecEnum ModelEnum ProofEnum.

(** C94 is false for an enumeration without a fixed underlying type: [enum { a, b, c }] from "4". *)
Theorem C94_unfixed_refuted : exists e E s w, platform_ok (e_platform e) /\ enum_ok (e_platform e) E /\ extract_enum e E s = UB w.
Proof. exact unfixed_refuted. Qed.
Print Assumptions C94_unfixed_refuted.

(** It holds for every text if the underlying type is fixed... *)
Theorem C94_fixed : forall e E s, platform_ok (e_platform e) -> en_fixed E = true ->
  exists r, extract_enum e E s = Ok r /\ enum_value (e_platform e) E r.
Proof. exact fixed_extracted. Qed.
Print Assumptions C94_fixed.

(** ... and for any enumeration exactly when the number at the beginning of the text, converted to
    the underlying type, is a value of the enumeration. *)
Theorem C94_exactly : forall e E s neg ds, platform_ok (e_platform e) -> integer_prefix s neg ds ->
  let n := if 2 ^ 64 - 1 <? numeral_value ds then 2 ^ 64 - 1 else if neg then - numeral_value ds else numeral_value ds in
  exists r, converted (e_platform e) (en_type E) r n /\
    (extract_enum e E s = Ok r <-> enum_value (e_platform e) E r) /\ ((exists w, extract_enum e E s = UB w) <-> ~ enum_value (e_platform e) E r).
Proof. exact enumeration_number. Qed.
Print Assumptions C94_exactly.

(** Every value of an enumeration reads back, its enumerators among them. *)
Theorem C94_round_trip : forall e E v, platform_ok (e_platform e) -> enum_ok (e_platform e) E -> enum_value (e_platform e) E v ->
  (let* s := lexi e (VEnum (en_type E) v) in extract_enum e E s) = Ok v.
Proof. exact enumeration_round_trip. Qed.
Print Assumptions C94_round_trip.

Theorem C94_enumerators : forall p E v, enum_ok p E -> In v (en_list E) -> enum_value p E v.
Proof. exact enumerator_value. Qed.
Print Assumptions C94_enumerators.

(** The specification: the values are values of the underlying type, and for one without a fixed
    type they are the range from [enum_min] to [enum_max]. *)
Theorem C94_values : forall p E v, platform_ok p -> enum_ok p E -> enum_value p E v -> underlying_has p (en_type E) v.
Proof. exact value_of_type. Qed.
Print Assumptions C94_values.

Example C94_case : let e := linux_x86_64 Strict in let E := Enumeration (EInt Int) false [-3; 5] in
  extract_enum e E (str "-8") = Ok (-8) /\ extract_enum e E (str "7") = Ok 7 /\ (exists w, extract_enum e E (str "8") = UB w) /\
  extract_enum e (Enumeration (EInt Int) true [-3; 5]) (str "8") = Ok 8 /\
  extract_enum e (Enumeration (EInt UInt) false []) (str "x") = Ok 0 /\
  extract_enum e (Enumeration (EInt UInt) false [5]) (str "4294967302") = Ok 6.
Proof. repeat (split; [vm_compute; reflexivity|]). split; [eexists; vm_compute; reflexivity|]. repeat (split; [vm_compute; reflexivity|]). vm_compute. reflexivity. Qed.

Example C94_value_case : forall p v, enum_value p (Enumeration (EInt Int) false [-3; 5]) v <-> -8 <= v <= 7.
Proof. exact (fun p v => range_value p (EInt Int) [-3; 5] v). Qed.
