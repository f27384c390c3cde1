(** Model of include/lexi/int.hpp, src/int.cpp, include/lexi/enum.hpp (integer formatting
    and extraction) and of the C library function [strtoull] they call. *)
From Verif Require Import Machine ModelItoa.

(** ** Platform parameters that the code or the C++ types depend on *)
Record platform := Platform {
  long_bits : Z;      (* width of long *)
  sys64 : bool;       (* !defined(_WIN32) && SYSTEM_ARCHITECTURE == 64, src/int.cpp:71,86 *)
  char_signed : bool; (* signedness of plain char *)
  wchar_signed : bool; wchar_bits : Z  (* wchar_t *)
}.

(** The platforms the library supports: long has 32 bits, or it has 64 bits and then the
    64-bit branch is compiled ("longs are 64-bits on all 64-bit systems except Windows",
    src/int.cpp:72; include/lexi/detail/architecture.hpp:17-36). *)
Definition platform_ok (p : platform) : Prop :=
  (long_bits p = 32 \/ (long_bits p = 64 /\ sys64 p = true)) /\
  (wchar_bits p = 16 \/ wchar_bits p = 32).

(** ** The ten integer types with a FormatInt constructor (include/lexi/int.hpp:29-38) *)
Inductive int_type := I8 | U8 | Short | UShort | Int | UInt | Long | ULong | LLong | ULLong.

Definition int_bits (p : platform) (t : int_type) : Z :=
  match t with
  | I8 | U8 => 8
  | Short | UShort => 16
  | Int | UInt => 32
  | Long | ULong => long_bits p
  | LLong | ULLong => 64
  end.

Definition int_signed (t : int_type) : bool :=
  match t with
  | I8 | Short | Int | Long | LLong => true
  | U8 | UShort | UInt | ULong | ULLong => false
  end.

(** [v] is a value of the C++ type [t]. *)
Definition has_int_type (p : platform) (t : int_type) (v : Z) : Prop :=
  if int_signed t then - 2 ^ (int_bits p t - 1) <= v < 2 ^ (int_bits p t - 1)
  else 0 <= v < 2 ^ int_bits p t.

(** Conversion of an integer value to type [t] (modular, [conv.integral]). *)
Definition to_int_type (p : platform) (t : int_type) (v : Z) : Z :=
  if int_signed t then swrap (int_bits p t) v else uwrap (int_bits p t) v.

(** ** FormatInt *)

(** include/lexi/detail/fmt.hpp:23: digits10 of unsigned long long is 19 *)
Definition INTEGER_SIZE : nat := 19 + 3.

(** include/lexi/int.hpp:21-26: [buffer_], [first], [last].  The two pointers are modelled
    as offsets into this object's own [buffer_] (copies of the object are treated in
    ModelObj.v). *)
Record FormatInt := MkFormatInt { fi_buffer : buf; fi_first : Z; fi_last : Z }.

(** Common body of the constructors, src/int.cpp:19-110:
    [first = buffer_; last = detail::xtoa(value, buffer_); *last = '\0';] *)
Definition FormatInt_body (xtoa : Z -> cursor -> outcome cursor) (value : Z) : outcome FormatInt :=
  let* k := xtoa value (Cursor (new_buf INTEGER_SIZE) 0) in
  let* b := buf_write (cbuf k) (cpos k) NUL in
  Ok (MkFormatInt b 0 (cpos k)).

(** src/int.cpp:19-110: which conversion routine each constructor calls.  [value] is
    converted to the parameter type of that routine (a widening or identity for the
    value's own type; modelled by the wrap of the parameter type). *)
Definition FormatInt_new (p : platform) (t : int_type) (value : Z) : outcome FormatInt :=
  match t with
  | I8     => FormatInt_body i32toa (swrap 32 value)                     (* 19-24 *)
  | U8     => FormatInt_body u32toa (uwrap 32 value)                     (* 27-32 *)
  | Short  => FormatInt_body i32toa (swrap 32 value)                     (* 35-40 *)
  | UShort => FormatInt_body u32toa (uwrap 32 value)                     (* 43-48 *)
  | Int    => FormatInt_body i32toa (swrap 32 value)                     (* 51-56 *)
  | UInt   => FormatInt_body u32toa (uwrap 32 value)                     (* 59-64 *)
  | Long   => if sys64 p then FormatInt_body i64toa (swrap 64 value)     (* 67-79 *)
              else FormatInt_body i32toa (swrap 32 value)
  | ULong  => if sys64 p then FormatInt_body u64toa (uwrap 64 value)     (* 82-94 *)
              else FormatInt_body u32toa (uwrap 32 value)
  | LLong  => FormatInt_body i64toa (swrap 64 value)                     (* 97-102 *)
  | ULLong => FormatInt_body u64toa (uwrap 64 value)                     (* 105-110 *)
  end.

(** src/int.cpp:115-118 *)
Definition FormatInt_size (o : FormatInt) : Z := fi_last o - fi_first o.
(** src/int.cpp:123-126 *)
Definition FormatInt_length (o : FormatInt) : Z := FormatInt_size o.
(** src/int.cpp:133-144: [data()] and [c_str()] return the pointer [first]; this is the C
    string a caller reads through it. *)
Definition FormatInt_c_str (o : FormatInt) : outcome bytes :=
  buf_c_string (S (length (fi_buffer o))) (fi_buffer o) (fi_first o).
(** src/int.cpp:149-152 [std::string(data(), size())] *)
Definition FormatInt_string (o : FormatInt) : outcome bytes :=
  buf_read_n (fi_buffer o) (fi_first o) (Z.to_nat (FormatInt_size o)).
(** src/int.cpp:157-160, 165-168, 173-176 *)
Definition FormatInt_escape (o : FormatInt) : outcome bytes := FormatInt_string o.
Definition FormatInt_jsonify (o : FormatInt) : outcome bytes := FormatInt_string o.
Definition FormatInt_to_string (o : FormatInt) : outcome bytes := FormatInt_string o.

(** ** strtoull, C17 7.22.1.4, base 10, "C" locale *)

(** isspace in the "C" locale: HT, LF, VT, FF, CR, space. *)
Definition c_isspace (c : ascii) : bool :=
  ((9 <=? code c) && (code c <=? 13)) || (code c =? 32).
Definition c_isdigit (c : ascii) : bool := (48 <=? code c) && (code c <=? 57).

(** The C string inside a std::string's data(): the bytes before the first NUL (the
    std::string itself supplies a final NUL). *)
Fixpoint c_str_of (s : bytes) : bytes :=
  match s with
  | [] => []
  | c :: r => if code c =? 0 then [] else c :: c_str_of r
  end.

Fixpoint skip_space (s : bytes) : bytes :=
  match s with
  | [] => []
  | c :: r => if c_isspace c then skip_space r else s
  end.

(** Optional sign: (is negative, rest). *)
Definition take_sign (s : bytes) : bool * bytes :=
  match s with
  | "-"%char :: r => (true, r)
  | "+"%char :: r => (false, r)
  | _ => (false, s)
  end.

(** Accumulate the maximal digit run (unbounded). *)
Fixpoint scan_digits (s : bytes) (acc : Z) : Z :=
  match s with
  | c :: r => if c_isdigit c then scan_digits r (10 * acc + (code c - 48)) else acc
  | [] => acc
  end.

Definition ULLONG_MAX : Z := 2 ^ 64 - 1.

(** The value returned by [strtoull(s, nullptr, 10)] (errno is not read by lexi). *)
Definition strtoull (s : bytes) : Z :=
  let '(neg, r) := take_sign (skip_space (c_str_of s)) in
  let n := scan_digits r 0 in
  if ULLONG_MAX <? n then ULLONG_MAX
  else if neg then u64 (- n) else n.

(** ** ExtractInt *)

(** src/int.cpp:179-183; include/lexi/int.hpp:60 [unsigned long long data_] *)
Definition ExtractInt (s : bytes) : outcome Z := Ok (strtoull s).

(** src/int.cpp:186-263: the conversion operators.  The signed ones first convert to
    long long. *)
Definition ExtractInt_to (p : platform) (t : int_type) (data : Z) : Z :=
  match t with
  | I8 | Short | Int | Long | LLong => to_int_type p t (swrap 64 data)
  | U8 | UShort | UInt | ULong | ULLong => to_int_type p t data
  end.

(** ** Enumerations *)

(** Underlying types of an enumeration ([dcl.enum]: any integral type). *)
Inductive enum_underlying :=
| EInt (t : int_type) | EBool | EChar | EWchar | EChar16 | EChar32.

Definition underlying_has (p : platform) (u : enum_underlying) (v : Z) : Prop :=
  match u with
  | EInt t => has_int_type p t v
  | EBool => v = 0 \/ v = 1
  | EChar => if char_signed p then - 128 <= v < 128 else 0 <= v < 256
  | EWchar => if wchar_signed p then - 2 ^ (wchar_bits p - 1) <= v < 2 ^ (wchar_bits p - 1)
              else 0 <= v < 2 ^ wchar_bits p
  | EChar16 => 0 <= v < 2 ^ 16
  | EChar32 => 0 <= v < 2 ^ 32
  end.

(** include/lexi/enum.hpp:44-47 [FormatInt(static_cast<underlying_type_t<Enum>>(value))].
    Overload resolution among the ten constructors: an exact match, else the integral
    promotion ([conv.prom]): bool, char, char16_t and a narrow wchar_t promote to int, a
    32-bit unsigned wchar_t and char32_t to unsigned int. *)
Definition promoted (p : platform) (u : enum_underlying) : int_type :=
  match u with
  | EInt t => t
  | EBool | EChar | EChar16 => Int
  | EWchar => if (wchar_bits p =? 32) && negb (wchar_signed p) then UInt else Int
  | EChar32 => UInt
  end.
Definition FormatEnum_new (p : platform) (u : enum_underlying) (value : Z) : outcome FormatInt :=
  FormatInt_new p (promoted p u) value.

(** Conversion of an unsigned long long to the underlying type. *)
Definition to_underlying (p : platform) (u : enum_underlying) (v : Z) : Z :=
  match u with
  | EInt t => to_int_type p t v
  | EBool => if v =? 0 then 0 else 1
  | EChar => if char_signed p then swrap 8 v else uwrap 8 v
  | EWchar => if wchar_signed p then swrap (wchar_bits p) v else uwrap (wchar_bits p) v
  | EChar16 => uwrap 16 v
  | EChar32 => uwrap 32 v
  end.

(** include/lexi/enum.hpp:31-37, 52-56: the constructor is inherited from ExtractInt, the
    conversion is [static_cast<Enum>(static_cast<underlying_type_t<Enum>>(data_))]. *)
Definition ExtractEnum (s : bytes) : outcome Z := ExtractInt s.
Definition ExtractEnum_to (p : platform) (u : enum_underlying) (data : Z) : Z :=
  to_underlying p u data.

(** std::streamoff: the signed 64-bit type behind std::fpos (long on LP64, long long
    otherwise; both reach i64toa).  lexi.hpp:72-77 and 129-134. *)
Definition streamoff_type (p : platform) : int_type :=
  if long_bits p =? 64 then Long else LLong.
