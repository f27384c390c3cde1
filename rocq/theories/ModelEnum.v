(** Model of the conversion to an enumeration type, include/lexi/enum.hpp:52-56, for enumerations
    with and without a fixed underlying type.  (ModelInt has the value only.) *)
From Verif Require Import Machine ModelItoa ModelInt ModelLexi SpecEnum.

(** [dcl.enum]: the number M of value bits of an enumeration whose underlying type is not fixed.
    The text is that of C++20; C++11 to C++17 differ only where all enumerators are negative
    (there C++11 may allow for one bit more). *)
Definition enum_need (x : Z) : Z := if x <? 0 then - x - 1 else x.
Definition enum_bits (l : list Z) : Z :=
  let m := fold_left (fun a x => Z.max a (enum_need x)) l 0 in
  if m =? 0 then 0 else Z.log2 m + 1.
Definition enum_max (l : list Z) : Z := 2 ^ enum_bits l - 1.
Definition enum_min (l : list Z) : Z := if existsb (fun x => x <? 0) l then - 2 ^ enum_bits l else 0.

(** [static_cast<Enum>(v)] ([expr.static.cast]): undefined outside of the range (C++17; C++11 and
    C++14 have an unspecified value). *)
Definition enum_cast (E : enumeration) (v : Z) : outcome Z :=
  if en_fixed E || ((enum_min (en_list E) <=? v) && (v <=? enum_max (en_list E))) then Ok v
  else UB "value outside of the range of the enumeration".

(** enum.hpp:52-56: [static_cast<Enum>(static_cast<underlying_type_t<Enum>>(data_))], as called from
    include/lexi/lexi.hpp:122-127 *)
Definition extract_enum (e : env) (E : enumeration) (s : bytes) : outcome Z :=
  let* data := ExtractEnum s in
  enum_cast E (ExtractEnum_to (e_platform e) (en_type E) data).
