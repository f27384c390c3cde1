(** Model of include/lexi/detail/type.hpp and of the overload selection in
    include/lexi/lexi.hpp. *)
From Verif Require Import Machine ModelItoa ModelInt ModelString ModelText ModelFloat ModelLexi.

(** ** C++ types *)

(** A type with its top-level const and volatile.  [BInt I8] and [BInt U8] are signed char
    and unsigned char.  The qualifiers of an array are those of its elements; the outer ones
    are not used.  [BFpos] is std::fpos of some state type, [BClass d] any other class or
    union ([d]: it is std::string or derives from it).  Types that the traits treat as
    [BOther]: void, member pointers, functions (decay turns a function into a pointer, which
    is not a string either) and references other than through [decay]. *)
Inductive ctype := Ty (is_const is_volatile : bool) (b : base)
with base :=
| BNullptr | BBool | BChar | BWchar | BChar16 | BChar32
| BInt (t : int_type) | BFloat | BDouble | BLongDouble
| BEnum (u : enum_underlying) | BFpos | BClass (string : bool)
| BPointer (t : ctype) | BArray (t : ctype) | BReference (t : ctype) | BOther.

(** ** Standard library traits *)

(** std::remove_cv *)
Definition remove_cv (t : ctype) : ctype :=
  match t with
  | Ty _ _ (BArray (Ty _ _ b)) => Ty false false (BArray (Ty false false b))
  | Ty _ _ b => Ty false false b
  end.

(** std::remove_const, as argument deduction for a parameter [const T &] does *)
Definition remove_const (t : ctype) : ctype :=
  match t with
  | Ty _ _ (BArray (Ty _ v b)) => Ty false false (BArray (Ty false v b))
  | Ty _ v b => Ty false v b
  end.

Definition add_const (t : ctype) : ctype :=
  match t with
  | Ty _ _ (BArray (Ty _ v b)) => Ty false false (BArray (Ty true v b))
  | Ty _ v b => Ty true v b
  end.

Definition remove_reference (t : ctype) : ctype :=
  match t with Ty _ _ (BReference u) => u | _ => t end.

(** std::decay *)
Definition decay (t : ctype) : ctype :=
  match remove_reference t with
  | Ty _ _ (BArray e) => Ty false false (BPointer e)
  | u => remove_cv u
  end.

(** std::is_enum ignores qualifiers. *)
Definition std_is_enum (t : ctype) : bool :=
  match t with Ty _ _ (BEnum _) => true | _ => false end.

(** std::is_base_of<std::string, T> ignores qualifiers. *)
Definition is_base_of_string (t : ctype) : bool :=
  match t with Ty _ _ (BClass d) => d | _ => false end.

(** ** detail/type.hpp *)

(** type.hpp:22-24 *)
Definition is_null_pointer (t : ctype) : bool :=
  match remove_cv t with Ty false false BNullptr => true | _ => false end.
(** type.hpp:26-28 *)
Definition is_bool (t : ctype) : bool :=
  match remove_cv t with Ty false false BBool => true | _ => false end.
(** type.hpp:30-32 *)
Definition is_char (t : ctype) : bool :=
  match remove_cv t with Ty false false BChar => true | _ => false end.
(** type.hpp:38-80: the ten specialisations are for unqualified types. *)
Definition is_integer (t : ctype) : bool :=
  match t with
  | Ty false false (BInt I8) | Ty false false (BInt U8)
  | Ty false false (BInt Short) | Ty false false (BInt UShort)
  | Ty false false (BInt Int) | Ty false false (BInt UInt)
  | Ty false false (BInt Long) | Ty false false (BInt ULong)
  | Ty false false (BInt LLong) | Ty false false (BInt ULLong) => true
  | _ => false
  end.
(** type.hpp:82-96 *)
Definition is_float (t : ctype) : bool :=
  match t with
  | Ty false false BFloat | Ty false false BDouble | Ty false false BLongDouble => true
  | _ => false
  end.
(** type.hpp:98-100 *)
Definition is_std_string (t : ctype) : bool := is_base_of_string t.
(** type.hpp:102-104 *)
Definition is_string_literal (t : ctype) : bool :=
  match remove_cv (decay t) with
  | Ty false false (BPointer (Ty false false BChar)) => true
  | _ => false
  end.
(** type.hpp:106-108 *)
Definition is_cstr (t : ctype) : bool :=
  match remove_cv (decay t) with
  | Ty false false (BPointer (Ty true false BChar)) => true
  | _ => false
  end.
(** type.hpp:110-116 *)
Definition is_fpos (t : ctype) : bool :=
  match t with Ty false false BFpos => true | _ => false end.
(** type.hpp:168-169 *)
Definition is_string (t : ctype) : bool := is_std_string t || is_cstr t || is_string_literal t.

(** ** Overloads *)

Inductive overload := ONull | OBool | OChar | OInt | OFloat | OEnum | OFpos.

(** lexi.hpp:28-78 and 84-135: the conditions are the same in both, in this order. *)
Definition conditions : list (overload * (ctype -> bool)) :=
  [(ONull, is_null_pointer); (OBool, is_bool); (OChar, is_char); (OInt, is_integer);
   (OFloat, is_float); (OEnum, std_is_enum); (OFpos, is_fpos)].

(** The overloads whose enable_if holds for [T]. *)
Definition enabled (t : ctype) : list overload :=
  map fst (filter (fun c => snd c t) conditions).

(** The functions [lexi(const T &)], [string], [escape] and [jsonify] come in two versions
    (lexi.hpp:161-230), for strings and for the rest. *)
Inductive route := RString | RFormat (l : list overload).

(** A call with an argument expression of type [a]: [T] is deduced from [const T &]; then
    [Format()(t)] deduces the type again, from an lvalue of type [const T] passed by value.
    The result lists the viable functions. *)
Definition format_routes (a : ctype) : list route :=
  let T := remove_const a in
  (if is_string T then [RString] else []) ++
  (if negb (is_string T) then [RFormat (enabled (decay (add_const T)))] else []).

(** A call [lexi<T>(s)] (lexi.hpp:144-157): nothing is viable for string types; otherwise
    [Extract<T>] with [U = T]. *)
Definition extract_routes (t : ctype) : list (list overload) :=
  if negb (is_string t) then [enabled t] else [].

(** ** Connection with ModelLexi *)

(** The type of an argument, without qualifiers. *)
Definition value_base (v : value) : base :=
  match v with
  | VNull => BNullptr | VBool _ => BBool | VChar _ => BChar | VInt t _ => BInt t
  | VFloat _ => BFloat | VDouble _ => BDouble | VLongDouble _ => BLongDouble
  | VEnum u _ => BEnum u | VFpos _ => BFpos
  | VString _ => BClass true | VCString _ => BPointer (Ty true false BChar)
  end.

(** The class of the object that an overload of [Format] returns. *)
Definition built_by (o : overload) (f : formatter) : Prop :=
  match o, f with
  | ONull, FNull _ | OBool, FBool _ | OChar, FChar _ | OInt, FInt _
  | OFloat, FFloat _ | OEnum, FEnum _ | OFpos, FInt _ => True
  | _, _ => False
  end.

Definition extract_base (T : extract_type) : base :=
  match T with
  | TNull => BNullptr | TBool => BBool | TChar => BChar | TInt t => BInt t
  | TFloat => BFloat | TDouble => BDouble | TLongDouble => BLongDouble
  | TEnum u => BEnum u | TFpos => BFpos
  end.
