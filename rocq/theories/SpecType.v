(** The kinds of types the library documents as supported, as an independent list. *)
From Verif Require Import Machine ModelInt ModelLexi ModelType.

(** [supported b o]: unqualified values of type [b] are formatted and extracted by [o]. *)
Inductive supported : base -> overload -> Prop :=
| sup_null : supported BNullptr ONull
| sup_bool : supported BBool OBool
| sup_char : supported BChar OChar
| sup_int t : supported (BInt t) OInt
| sup_float : supported BFloat OFloat
| sup_double : supported BDouble OFloat
| sup_long_double : supported BLongDouble OFloat
| sup_enum u : supported (BEnum u) OEnum
| sup_fpos : supported BFpos OFpos.

(** [string_type t]: strings, pointers to char or const char, arrays of char or const char. *)
Inductive string_type : ctype -> Prop :=
| str_class c v : string_type (Ty c v (BClass true))
| str_pointer c v k : string_type (Ty c v (BPointer (Ty k false BChar)))
| str_array c v k : string_type (Ty c v (BArray (Ty k false BChar))).

(** The types of expressions are not references. *)
Definition object_type (t : ctype) : Prop := match t with Ty _ _ (BReference _) => False | _ => True end.

(** What the overloads of [Extract] return. *)
Definition returned_by (o : overload) (r : extracted) : Prop :=
  match o, r with
  | ONull, XNull | OBool, XBool _ | OChar, XChar _ | OInt, XInt _ | OFloat, XFloating _ | OEnum, XEnum _ | OFpos, XFpos _ => True
  | _, _ => False
  end.

(** The arithmetic types. *)
Inductive number_type : base -> Prop :=
| number_bool : number_type BBool | number_char : number_type BChar | number_wchar : number_type BWchar
| number_char16 : number_type BChar16 | number_char32 : number_type BChar32 | number_int t : number_type (BInt t)
| number_float : number_type BFloat | number_double : number_type BDouble | number_long_double : number_type BLongDouble.
