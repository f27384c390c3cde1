(** Model of src/bool.cpp, src/null.cpp, src/char.cpp and the configuration macros of
    include/lexi/detail/define.hpp. *)
From Verif Require Import Machine ModelString.

(** include/lexi/detail/define.hpp:30-53: the configurable literals.  They are string
    literals without embedded NUL (assumed). *)
Record literals := Literals {
  lit_null : bytes; lit_true : bytes; lit_false : bytes;
  lit_nan : bytes; lit_infinity : bytes; lit_negative_infinity : bytes
}.

(** define.hpp:31,35,39,43,47,52: the defaults. *)
Definition default_literals : literals := {|
  lit_null := str "null"; lit_true := str "true"; lit_false := str "false";
  lit_nan := str "NaN"; lit_infinity := str "Infinity"; lit_negative_infinity := str "-Infinity" |}.

(** ** Objects holding a char array and a size.

    FormatBool has [buffer_[6]] and [size_] (include/lexi/bool.hpp:24-25); FormatNull has
    [buffer_[5]] and a constant size (null.hpp:24, null.cpp:41); FormatChar has
    [buffer_[2]] and size 1 (char.hpp:24, char.cpp:37).  Their accessors are textually
    the same, so one record serves the three classes. *)
Record FormatText := MkFormatText { ft_buffer : buf; ft_size : Z }.

(** bool.cpp:40-43, null.cpp:39-42, char.cpp:35-38 *)
Definition FormatText_size (o : FormatText) : Z := ft_size o.
(** bool.cpp:48-51, null.cpp:47-50, char.cpp:43-46 *)
Definition FormatText_length (o : FormatText) : Z := FormatText_size o.
(** bool.cpp:58-69, null.cpp:57-68, char.cpp:53-64: [data()] and [c_str()] return
    [buffer_]; this is the C string a caller reads through that pointer. *)
Definition FormatText_c_str (o : FormatText) : outcome bytes :=
  buf_c_string (S (length (ft_buffer o))) (ft_buffer o) 0.
(** bool.cpp:74-77, null.cpp:73-76, char.cpp:69-72 [std::string(data(), size())] *)
Definition FormatText_string (o : FormatText) : outcome bytes :=
  buf_read_n (ft_buffer o) 0 (Z.to_nat (FormatText_size o)).
(** bool.cpp:98-101, null.cpp:97-100, char.cpp:93-96 *)
Definition FormatText_to_string (o : FormatText) : outcome bytes := FormatText_string o.

(** ** Booleans *)

(** bool.cpp:26-35; [strncpy(buffer_, S, sizeof(S))] *)
Definition FormatBool_new (lit : literals) (b : bool) : outcome FormatText :=
  if b then let* m := buf_strncpy_literal (new_buf 6) 0 (lit_true lit) in Ok (MkFormatText m 4)
  else let* m := buf_strncpy_literal (new_buf 6) 0 (lit_false lit) in Ok (MkFormatText m 5).
(** bool.cpp:82-85, 90-93 *)
Definition FormatBool_escape (o : FormatText) : outcome bytes := FormatText_string o.
Definition FormatBool_jsonify (o : FormatText) : outcome bytes := FormatText_string o.

(** [std::string == const char*]: the whole std::string against the literal. *)
Definition string_eqb (a b : bytes) : bool := if list_eq_dec ascii_dec a b then true else false.

(** bool.cpp:104-113 *)
Definition ExtractBool (lit : literals) (s : bytes) : outcome bool :=
  if string_eqb s (lit_true lit) then Ok true
  else if string_eqb s (lit_false lit) then Ok false
  else Throw "String is not boolean.".

(** ** Null *)

(** null.cpp:25-33 *)
Definition FormatNull_new (lit : literals) : outcome FormatText :=
  let* m := buf_strncpy_literal (new_buf 5) 0 (lit_null lit) in Ok (MkFormatText m 4).
(** null.cpp:81-84, 89-92 *)
Definition FormatNull_escape (o : FormatText) : outcome bytes := FormatText_string o.
Definition FormatNull_jsonify (o : FormatText) : outcome bytes := FormatText_string o.

(** null.cpp:103-106; LEXI_ASSERT (define.hpp:19-22) throws the stringified message, quotes
    included. *)
Definition ExtractNull (lit : literals) (s : bytes) : outcome unit :=
  if string_eqb s (lit_null lit) then Ok tt else Throw """String is not null.""".

(** ** Characters *)

(** char.cpp:19-30: both constructors store the same byte. *)
Definition FormatChar_new (c : ascii) : outcome FormatText :=
  let* m := buf_write (new_buf 2) 0 c in
  let* m := buf_write m 1 NUL in Ok (MkFormatText m 1).
(** char.cpp:77-80 *)
Definition FormatChar_escape (char_signed : bool) (o : FormatText) : outcome bytes :=
  let* s := FormatText_string o in Ok (escape char_signed s).
(** char.cpp:85-88 *)
Definition FormatChar_jsonify (char_signed : bool) (o : FormatText) : outcome bytes :=
  let* s := FormatText_string o in quoted_jsonify char_signed s.

(** char.cpp:99-103 *)
Definition ExtractChar (s : bytes) : outcome ascii :=
  match s with
  | [] => Throw """Cannot extract character from empty string."""
  | c :: _ => Ok c
  end.
