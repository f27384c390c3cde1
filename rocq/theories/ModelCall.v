(** Model of overload resolution between the function templates named [lexi]
    (include/lexi/lexi.hpp:144-175) when the type argument is given, [lexi<T>(x)], and between the
    constructors of FormatInt (include/lexi/int.hpp:29-38). *)
From Verif Require Import Machine ModelItoa ModelInt ModelType.

(** ** Implicit conversion sequences ([over.ics.rank]), best first *)
Inductive rank := Exact | Promotion | Conversion | UserDefined.
Definition rank_value (r : rank) : Z := match r with Exact => 0 | Promotion => 1 | Conversion => 2 | UserDefined => 3 end.

(** Arithmetic types. *)
Definition arithmetic (b : base) : bool :=
  match b with
  | BBool | BChar | BWchar | BChar16 | BChar32 | BInt _ | BFloat | BDouble | BLongDouble => true
  | _ => false
  end.

(** The integral promotion of a type ([conv.prom]).  char, signed char, unsigned char, short,
    unsigned short, char16_t and bool become int; wchar_t and char32_t the first of int and
    unsigned int that holds all their values; float becomes double.  An enumeration (taken to be
    unscoped with a fixed underlying type) becomes its underlying type; its second promotion, to
    the promoted underlying type, is treated as a conversion. *)
Definition int_promotion (p : platform) (b : base) : option base :=
  match b with
  | BBool | BChar | BChar16 | BInt I8 | BInt U8 | BInt Short | BInt UShort => Some (BInt Int)
  | BWchar => Some (BInt (if (wchar_bits p =? 32) && negb (wchar_signed p) then UInt else Int))
  | BChar32 => Some (BInt UInt)
  | BFloat => Some BDouble
  | BEnum (EInt t) => Some (BInt t) | BEnum EBool => Some BBool | BEnum EChar => Some BChar
  | BEnum EWchar => Some BWchar | BEnum EChar16 => Some BChar16 | BEnum EChar32 => Some BChar32
  | _ => None
  end.

Definition same_int (s t : int_type) : bool :=
  match s, t with
  | I8, I8 | U8, U8 | Short, Short | UShort, UShort | Int, Int | UInt, UInt | Long, Long | ULong, ULong
  | LLong, LLong | ULLong, ULLong => true
  | _, _ => false
  end.
(** The same enumeration: two enumerations are told apart by their underlying types only. *)
Definition same_underlying (u w : enum_underlying) : bool :=
  match u, w with
  | EInt s, EInt t => same_int s t
  | EBool, EBool | EChar, EChar | EWchar, EWchar | EChar16, EChar16 | EChar32, EChar32 => true
  | _, _ => false
  end.
Definition same_base (a b : base) : bool :=
  match a, b with
  | BNullptr, BNullptr | BBool, BBool | BChar, BChar | BWchar, BWchar | BChar16, BChar16 | BChar32, BChar32
  | BFloat, BFloat | BDouble, BDouble | BLongDouble, BLongDouble | BFpos, BFpos => true
  | BInt s, BInt t => same_int s t
  | BEnum u, BEnum w => same_underlying u w
  | BClass s, BClass t => Bool.eqb s t
  | _, _ => false
  end.

(** From an lvalue of type [a] to [const std::string &]: a std::string (or a class derived from it,
    also without a user-defined conversion), or through the constructor of std::string that takes a C string. *)
Definition to_string_reference (a : ctype) : option rank :=
  match a with
  | Ty _ v (BClass true) => if v then None else Some Exact
  | Ty _ _ BNullptr => Some UserDefined
  | _ => if is_cstr a || is_string_literal a then Some UserDefined else None
  end.

(** ... to [const char *]: the conversion of arrays to pointers and the addition of const are
    exact matches, the conversion of a null pointer is not. *)
Definition to_char_pointer (a : ctype) : option rank :=
  match a with
  | Ty _ _ BNullptr => Some Conversion
  | _ => if is_cstr a || is_string_literal a then Some Exact else None
  end.

(** ... to [const T &], where [T] is an unqualified type [b] that is not a pointer or an array.
    std::fpos converts to and from std::streamoff. *)
Definition to_const_reference (p : platform) (b : base) (a : ctype) : option rank :=
  match a with
  | Ty _ v ab =>
      if same_base b ab then
        match ab with BFpos | BClass _ => if v then None else Some Exact | _ => Some Exact end
      else if match int_promotion p ab with Some q => same_base b q | None => false end then Some Promotion
      else
        match b with
        | BBool =>
            if arithmetic ab then Some Conversion
            else match ab with
                 | BPointer _ | BArray _ | BEnum _ => Some Conversion
                 | BFpos => if v then None else Some UserDefined
                 | _ => None
                 end
        | BFpos => if arithmetic ab then Some UserDefined
                   else match ab with BEnum _ => Some UserDefined | _ => None end
        | BClass true => if is_cstr a || is_string_literal a then Some UserDefined
                         else match ab with BNullptr => Some UserDefined | _ => None end
        | _ => if arithmetic b then
                 if arithmetic ab then Some Conversion
                 else match ab with
                      | BEnum _ => Some Conversion
                      | BFpos => if v then None else Some UserDefined
                      | _ => None
                      end
               else None
        end
  end.

(** ** The four templates *)
Inductive candidate :=
| ExtractString    (* T lexi(const std::string &), lexi.hpp:144-148 *)
| ExtractCString   (* T lexi for a C string, lexi.hpp:153-157 *)
| FormatValue      (* std::string lexi(const T &), not a string, lexi.hpp:162-166 *)
| PassString.      (* std::string lexi(const T &), a string, lexi.hpp:171-175 *)

(** The viable candidates of [lexi<b>(x)] with their conversions. *)
Definition viable (p : platform) (b : base) (a : ctype) : list (candidate * rank) :=
  let some (c : candidate) (r : option rank) := match r with Some r => [(c, r)] | None => [] end in
  if is_string (Ty false false b) then some PassString (to_const_reference p b a)
  else some ExtractString (to_string_reference a) ++ some ExtractCString (to_char_pointer a) ++
       some FormatValue (to_const_reference p b a).

(** The candidates no other is better than; a call is well-formed if there is one. *)
Definition best {A} (l : list (A * rank)) : list A :=
  map fst (filter (fun c => forallb (fun d => rank_value (snd c) <=? rank_value (snd d)) l) l).
Definition call (p : platform) (b : base) (a : ctype) : list candidate := best (viable p b a).

(** ** The constructors of FormatInt (int.hpp:29-38), for an argument of type [a] *)
Definition constructors : list int_type := [I8; U8; Short; UShort; Int; UInt; Long; ULong; LLong; ULLong].
Definition construct (p : platform) (a : base) : list int_type :=
  best (flat_map (fun t => match to_const_reference p (BInt t) (Ty false false a) with Some r => [(t, r)] | None => [] end) constructors).

(** The type of [static_cast<underlying_type_t<Enum>>(value)] (enum.hpp:46). *)
Definition underlying_base (u : enum_underlying) : base :=
  match u with
  | EInt t => BInt t | EBool => BBool | EChar => BChar | EWchar => BWchar | EChar16 => BChar16 | EChar32 => BChar32
  end.
