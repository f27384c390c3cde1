(** Independent specification of JSON texts (RFC 8259, sections 2 to 5). *)
From Verif Require Import Machine SpecDecimal SpecNumber SpecString.
Open Scope Z_scope.

(** Section 2: space, horizontal tab, line feed, carriage return. *)
Definition json_ws (s : bytes) : Prop :=
  Forall (fun c => code c = 32 \/ code c = 9 \/ code c = 10 \/ code c = 13) s.

(** Sections 3 to 7.  [json_members] are the members of an object, [json_elements] the
    elements of an array, both non-empty. *)
Inductive json_value : bytes -> Prop :=
| jv_false : json_value (str "false")
| jv_null : json_value (str "null")
| jv_true : json_value (str "true")
| jv_number s n : json_number s n -> json_value s
| jv_string s : json_string_text s -> json_value s
| jv_empty_array w : json_ws w -> json_value ("["%char :: w ++ ["]"%char])
| jv_array s : json_elements s -> json_value ("["%char :: s ++ ["]"%char])
| jv_empty_object w : json_ws w -> json_value ("{"%char :: w ++ ["}"%char])
| jv_object s : json_members s -> json_value ("{"%char :: s ++ ["}"%char])
with json_elements : bytes -> Prop :=
| je_one a v b : json_ws a -> json_value v -> json_ws b -> json_elements (a ++ v ++ b)
| je_more a v b s : json_ws a -> json_value v -> json_ws b -> json_elements s ->
    json_elements (a ++ v ++ b ++ ","%char :: s)
with json_members : bytes -> Prop :=
| jm_one a k b c v d : json_ws a -> json_string_text k -> json_ws b -> json_ws c -> json_value v -> json_ws d ->
    json_members (a ++ k ++ b ++ ":"%char :: c ++ v ++ d)
| jm_more a k b c v d s : json_ws a -> json_string_text k -> json_ws b -> json_ws c -> json_value v -> json_ws d ->
    json_members s -> json_members (a ++ k ++ b ++ ":"%char :: c ++ v ++ d ++ ","%char :: s).

Definition json_text (s : bytes) : Prop :=
  exists a v b, json_ws a /\ json_value v /\ json_ws b /\ s = a ++ v ++ b.
