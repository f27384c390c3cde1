(** Property C40: which overload a type selects. *)
From Verif Require Import Machine ModelInt ModelLexi ModelType SpecType ProofType.

(** Formatting: every supported type, with any qualifiers, has exactly one viable function and
    one enabled overload, the one for its kind; ... *)
Theorem C40_format : forall c v b o, supported b o -> format_routes (Ty c v b) = [RFormat [o]].
Proof. exact format_selects. Qed.
Print Assumptions C40_format.

Theorem C40_format_strings : forall t, string_type t -> format_routes t = [RString].
Proof. exact format_string. Qed.
Print Assumptions C40_format_strings.

(** ... all other types are rejected. *)
Theorem C40_format_rejected : forall t, object_type t -> ~ string_type t ->
  (forall o, ~ supported (match t with Ty _ _ b => b end) o) -> format_routes t = [RFormat []].
Proof. exact format_other. Qed.
Print Assumptions C40_format_rejected.

(** Extraction: exactly one overload for unqualified types, ... *)
Theorem C40_extract_partial : forall b o, supported b o -> extract_routes (Ty false false b) = [[o]].
Proof. exact extract_selects. Qed.
Print Assumptions C40_extract_partial.

(** ... for qualified types the same except that integers, floating point numbers and stream
    positions then have none, ... *)
Theorem C40_extract_qualified : forall c v b o, supported b o ->
  extract_routes (Ty c v b) = [match o with
                               | OInt | OFloat | OFpos => if c || v then [] else [o]
                               | _ => [o]
                               end].
Proof. exact extract_qualified. Qed.
Print Assumptions C40_extract_qualified.

Theorem C40_extract_rejected : forall b, (forall o, ~ supported b o) -> forall c v,
  extract_routes (Ty c v b) = [[]] \/ extract_routes (Ty c v b) = [].
Proof. exact extract_none. Qed.
Print Assumptions C40_extract_rejected.

(** ... so that lexi<const int>(s) has no overload. *)
Theorem C40_qualified_refuted : exists c v b o, supported b o /\ extract_routes (Ty c v b) = [[]].
Proof. exact const_int_none. Qed.
Print Assumptions C40_qualified_refuted.

(** The model of the public functions builds the object of the selected overload. *)
Theorem C40_model : forall e v f, Format e v = Ok f ->
  exists o, supported (value_base v) o /\ built_by o f.
Proof. exact model_follows. Qed.
Print Assumptions C40_model.

(** The model of the public functions follows the selection, for every qualification: Format
    builds the object of the selected overload, exactly strings take the other route, and
    Extract returns what the selected overload returns. *)
Theorem C40_model_routes : forall e x f c v, Format e x = Ok f ->
  exists o, format_routes (Ty c v (value_base x)) = [RFormat [o]] /\ built_by o f.
Proof. exact model_routes. Qed.
Print Assumptions C40_model_routes.

Theorem C40_model_strings : forall x c v,
  (exists s, x = VString s \/ x = VCString s) <-> format_routes (Ty c v (value_base x)) = [RString].
Proof. exact model_string_routes. Qed.
Print Assumptions C40_model_strings.

Theorem C40_model_extract : forall e point T s r, extract e point T s = Ok r ->
  exists o, extract_routes (Ty false false (extract_base T)) = [[o]] /\ returned_by o r.
Proof. exact model_extract_routes. Qed.
Print Assumptions C40_model_extract.

Example C40_ex_volatile_short : format_routes (Ty true true (BInt Short)) = [RFormat [OInt]].
Proof. reflexivity. Qed.
Example C40_ex_literal : format_routes (Ty false false (BArray (Ty true false BChar))) = [RString].
Proof. reflexivity. Qed.
Example C40_ex_wide_literal : format_routes (Ty false false (BArray (Ty true false BWchar))) = [RFormat []].
Proof. reflexivity. Qed.
Example C40_ex_const_bool : extract_routes (Ty true false BBool) = [[OBool]].
Proof. reflexivity. Qed.
