(** Property C72: what a call with a type argument does; and C06 for the constructor. *)
From Verif Require Import Machine ModelItoa ModelInt ModelType ModelCall SpecType ProofCall.

(** C72: lexi<T>(text) extracts, for every supported T and all ways to pass a text (a volatile
    std::string cannot be passed at all). *)
Theorem C72_text : forall p b o a, supported b o -> string_type a -> (forall c, a <> Ty c true (BClass true)) ->
  call p b a = [match a with Ty _ _ (BClass _) => ExtractString | _ => ExtractCString end].
Proof. exact text_extracted. Qed.
Print Assumptions C72_text.

(** lexi<T>(value) formats a value of type T, ... *)
Theorem C72_value : forall p b o c v, supported b o -> (b = BFpos -> v = false) -> call p b (Ty c v b) = [FormatValue].
Proof. exact value_formatted. Qed.
Print Assumptions C72_value.

(** ... and a value of another arithmetic type after conversion; ... *)
Theorem C72_converted : forall p b o c v a, supported b o -> number_type b -> number_type a ->
  call p b (Ty c v a) = [FormatValue].
Proof. exact numbers_converted. Qed.
Print Assumptions C72_converted.

(** ... no value but the null pointer is ever taken for a text. *)
Theorem C72_never_extracted : forall p b o a, supported b o -> object_type a -> ~ string_type a ->
  (forall c v, a <> Ty c v BNullptr) -> call p b a = [] \/ call p b a = [FormatValue].
Proof. exact value_never_extracted. Qed.
Print Assumptions C72_never_extracted.

(** An enumeration is formatted as another type of the arithmetic types, but not as another
    enumeration, nor is anything else. *)
Theorem C72_enumeration : forall p u w c v, u <> w -> call p (BEnum u) (Ty c v (BEnum w)) = [].
Proof. exact other_enumeration. Qed.
Print Assumptions C72_enumeration.

Theorem C72_enumeration_converted : forall p b o c v u, supported b o -> number_type b -> call p b (Ty c v (BEnum u)) = [FormatValue].
Proof. exact enumeration_converted. Qed.
Print Assumptions C72_enumeration_converted.

Theorem C72_to_enumeration : forall p u c v a, number_type a -> call p (BEnum u) (Ty c v a) = [].
Proof. exact number_to_enumeration. Qed.
Print Assumptions C72_to_enumeration.

(** The null pointer: lexi<int>(nullptr) is compiled as the extraction from a null const char
    pointer, which std::string does not accept. *)
Theorem C72_null_pointer : forall p b o c v, supported b o ->
  call p b (Ty c v BNullptr) = if same_base b BNullptr then [FormatValue] else [ExtractCString].
Proof. exact null_pointer_call. Qed.
Print Assumptions C72_null_pointer.

(** A call with T = std::string gives the text back. *)
Theorem C72_string : forall p a, string_type a -> (forall c, a <> Ty c true (BClass true)) -> call p (BClass true) a = [PassString].
Proof. exact text_passed. Qed.
Print Assumptions C72_string.

(** No call is ambiguous. *)
Theorem C72_unambiguous : forall p b a, (length (call p b a) <= 1)%nat.
Proof. exact one_candidate. Qed.
Print Assumptions C72_unambiguous.

(** lexi<bool>("true") has three viable candidates: a pointer converts to bool. *)
Example C72_case : forall p, viable p BBool (Ty false false (BArray (Ty true false BChar))) =
    [(ExtractString, UserDefined); (ExtractCString, Exact); (FormatValue, Conversion)] /\
  call p BBool (Ty false false (BArray (Ty true false BChar))) = [ExtractCString] /\
  call p BDouble (Ty false false (BInt Int)) = [FormatValue] /\
  call p (BInt Int) (Ty true false (BClass true)) = [ExtractString] /\
  call p (BEnum EChar) (Ty false false (BInt Int)) = [].
Proof. intros p. repeat split. Qed.

(** C06: the constructor that FormatEnum calls is the one for the promoted underlying type. *)
Theorem C06_constructor : forall p u, construct p (underlying_base u) = [promoted p u].
Proof. exact constructor_selected. Qed.
Print Assumptions C06_constructor.
Example C06_constructor_case : forall p, construct p BChar32 = [UInt] /\ construct p BBool = [Int] /\ construct p (BInt Long) = [Long].
Proof. intros p. repeat split. Qed.
