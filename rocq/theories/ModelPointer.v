(** Model of the calls with character pointers and arrays (include/lexi/lexi.hpp:155-230), with the
    memory they point into.  (ModelLexi has the text before the terminator only.) *)
From Verif Require Import Machine ModelItoa ModelInt ModelText ModelFloat ModelLexi.

(** A value of a type pointer to (const) char, or what an array of characters decays to: null, or a
    position in an array, some of whose bytes may never have been written. *)
Inductive char_pointer := NullPointer | PointerTo (b : buf) (i : Z).

(** The constructor of std::string from a pointer, which all these calls use ([string.cons]: the pointer
    shall not be null and shall point to an array that holds a terminator). *)
Definition string_from (p : char_pointer) : outcome bytes :=
  match p with
  | NullPointer => UB "std::string from a null pointer"
  | PointerTo b i => buf_c_string (S (length b)) b i
  end.

(** lexi.hpp:171-175, 189-194, 207-212 and 225-230 *)
Definition p_lexi (e : env) (p : char_pointer) : outcome bytes := let* s := string_from p in lexi e (VString s).
Definition p_string (e : env) (p : char_pointer) : outcome bytes := let* s := string_from p in string_of e (VString s).
Definition p_escape (e : env) (p : char_pointer) : outcome bytes := let* s := string_from p in escape_of e (VString s).
Definition p_jsonify (e : env) (p : char_pointer) : outcome bytes := let* s := string_from p in jsonify_of e (VString s).
(** lexi.hpp:153-157: [Extract<T>()(string)] *)
Definition p_extract (e : env) (point : ascii) (T : extract_type) (p : char_pointer) : outcome extracted :=
  let* s := string_from p in extract e point T s.

(** The pointers that the formatter objects return from data() and c_str(): [first] of FormatInt,
    FormatEnum and FormatFloat (int.cpp:133-144, float.cpp), [buffer_] of the others. *)
Definition f_pointer (f : formatter) : char_pointer :=
  match f with
  | FNull o | FBool o | FChar o => PointerTo (ft_buffer o) 0
  | FInt o | FEnum o => PointerTo (fi_buffer o) (fi_first o)
  | FFloat o => PointerTo (ff_buffer o) (ff_first o)
  end.
