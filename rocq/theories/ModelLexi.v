(** Model of include/lexi/lexi.hpp: the public functions, after overload resolution (which
    overload a C++ type selects is treated in ModelType.v). *)
From Verif Require Import Machine ModelItoa ModelInt ModelString ModelText ModelIeee ModelDiyfp
  ModelDtoa ModelFloat.

(** Everything implementation-defined that the library can observe. *)
Record env := Env { e_platform : platform; e_float : float_env }.
Definition e_lit (e : env) : literals := fe_lit (e_float e).

(** The argument types of [lexi], [string], [escape] and [jsonify].  Floats and doubles are
    given by their bit patterns, enumerations by their underlying type and value, stream
    positions by their offset; [VCString s] is a [const char*] or a string literal pointing
    to the bytes [s] and a terminating NUL. *)
Inductive value :=
| VNull | VBool (b : bool) | VChar (c : ascii) | VInt (t : int_type) (v : Z)
| VFloat (u : Z) | VDouble (u : Z) | VLongDouble (x : spec_float)
| VEnum (u : enum_underlying) (v : Z) | VFpos (off : Z)
| VString (s : bytes) | VCString (s : bytes).

(** The formatter objects. *)
Inductive formatter :=
| FNull (o : FormatText) | FBool (o : FormatText) | FChar (o : FormatText)
| FInt (o : FormatInt) | FFloat (o : FormatFloat) | FEnum (o : FormatInt).

(** lexi.hpp:28-78 [Format()(t)]; strings have no formatter. *)
Definition Format (e : env) (v : value) : outcome formatter :=
  match v with
  | VNull => let* o := FormatNull_new (e_lit e) in Ok (FNull o)
  | VBool b => let* o := FormatBool_new (e_lit e) b in Ok (FBool o)
  | VChar c => let* o := FormatChar_new c in Ok (FChar o)
  | VInt t n => let* o := FormatInt_new (e_platform e) t n in Ok (FInt o)
  | VFloat u => let* o := FormatFloat_float (e_float e) u in Ok (FFloat o)
  | VDouble u => let* o := FormatFloat_double (e_float e) u in Ok (FFloat o)
  | VLongDouble x => let* o := FormatFloat_long_double (e_float e) x in Ok (FFloat o)
  | VEnum u n => let* o := FormatEnum_new (e_platform e) u n in Ok (FEnum o)
  | VFpos off => let* o := FormatInt_new (e_platform e) (streamoff_type (e_platform e)) off in Ok (FInt o)
  | VString _ | VCString _ => Throw "no overload"
  end.

(** The member functions, by dynamic class. *)
Definition f_string (f : formatter) : outcome bytes :=
  match f with
  | FNull o | FBool o | FChar o => FormatText_string o
  | FInt o | FEnum o => FormatInt_string o
  | FFloat o => FormatFloat_string o
  end.
Definition f_to_string (f : formatter) : outcome bytes :=
  match f with
  | FNull o | FBool o | FChar o => FormatText_to_string o
  | FInt o | FEnum o => FormatInt_to_string o
  | FFloat o => FormatFloat_to_string o
  end.
Definition f_size (f : formatter) : Z :=
  match f with
  | FNull o | FBool o | FChar o => FormatText_size o
  | FInt o | FEnum o => FormatInt_size o
  | FFloat o => FormatFloat_size o
  end.
Definition f_length (f : formatter) : Z :=
  match f with
  | FNull o | FBool o | FChar o => FormatText_length o
  | FInt o | FEnum o => FormatInt_length o
  | FFloat o => FormatFloat_length o
  end.
Definition f_c_str (f : formatter) : outcome bytes :=
  match f with
  | FNull o | FBool o | FChar o => FormatText_c_str o
  | FInt o | FEnum o => FormatInt_c_str o
  | FFloat o => FormatFloat_c_str o
  end.
Definition f_escape (e : env) (f : formatter) : outcome bytes :=
  match f with
  | FNull o => FormatNull_escape o
  | FBool o => FormatBool_escape o
  | FChar o => FormatChar_escape (char_signed (e_platform e)) o
  | FInt o | FEnum o => FormatInt_escape o
  | FFloat o => FormatFloat_escape o
  end.
Definition f_jsonify (e : env) (f : formatter) : outcome bytes :=
  match f with
  | FNull o => FormatNull_jsonify o
  | FBool o => FormatBool_jsonify o
  | FChar o => FormatChar_jsonify (char_signed (e_platform e)) o
  | FInt o | FEnum o => FormatInt_jsonify o
  | FFloat o => FormatFloat_jsonify o
  end.
(** The array behind [data()]. *)
Definition f_buffer (f : formatter) : buf :=
  match f with
  | FNull o | FBool o | FChar o => ft_buffer o
  | FInt o | FEnum o => fi_buffer o
  | FFloat o => ff_buffer o
  end.

(** lexi.hpp:162-175; a [const char*] is converted to std::string, which stops at the NUL. *)
Definition lexi (e : env) (v : value) : outcome bytes :=
  match v with
  | VString s => Ok s
  | VCString s => Ok (c_str_of s)
  | _ => let* f := Format e v in f_string f
  end.
(** lexi.hpp:180-194 *)
Definition string_of (e : env) (v : value) : outcome bytes :=
  match v with
  | VString s => Ok s
  | VCString s => Ok (c_str_of s)
  | _ => let* f := Format e v in f_string f
  end.
(** lexi.hpp:199-212 *)
Definition escape_of (e : env) (v : value) : outcome bytes :=
  match v with
  | VString s => Ok (escape (char_signed (e_platform e)) s)
  | VCString s => Ok (escape (char_signed (e_platform e)) (c_str_of s))
  | _ => let* f := Format e v in f_escape e f
  end.
(** lexi.hpp:217-230 *)
Definition jsonify_of (e : env) (v : value) : outcome bytes :=
  match v with
  | VString s => quoted_jsonify (char_signed (e_platform e)) s
  | VCString s => quoted_jsonify (char_signed (e_platform e)) (c_str_of s)
  | _ => let* f := Format e v in f_jsonify e f
  end.

(** ** Extraction *)

(** The types [T] of [lexi<T>(s)]. *)
Inductive extract_type :=
| TNull | TBool | TChar | TInt (t : int_type) | TFloat | TDouble | TLongDouble
| TEnum (u : enum_underlying) | TFpos.

(** The extracted values; floating point results are [spec_float]s. *)
Inductive extracted :=
| XNull | XBool (b : bool) | XChar (c : ascii) | XInt (v : Z) | XFloating (x : spec_float)
| XEnum (v : Z) | XFpos (off : Z).

(** lexi.hpp:84-135, 144-148.  [point] is the decimal point of the current C locale. *)
Definition extract (e : env) (point : ascii) (T : extract_type) (s : bytes) : outcome extracted :=
  match T with
  | TNull => let* _ := ExtractNull (e_lit e) s in Ok XNull
  | TBool => let* b := ExtractBool (e_lit e) s in Ok (XBool b)
  | TChar => let* c := ExtractChar s in Ok (XChar c)
  | TInt t => let* d := ExtractInt s in Ok (XInt (ExtractInt_to (e_platform e) t d))
  | TFloat => let* x := ExtractFloat (e_float e) point s in Ok (XFloating (ExtractFloat_float x))
  | TDouble => let* x := ExtractFloat (e_float e) point s in Ok (XFloating (ExtractFloat_double x))
  | TLongDouble => let* x := ExtractFloat (e_float e) point s in Ok (XFloating (ExtractFloat_long_double x))
  | TEnum u => let* d := ExtractEnum s in Ok (XEnum (ExtractEnum_to (e_platform e) u d))
  | TFpos => let* d := ExtractInt s in
             Ok (XFpos (ExtractInt_to (e_platform e) (streamoff_type (e_platform e)) d))
  end.

(** lexi.hpp:153-157: the argument is a [const char*], converted to std::string. *)
Definition extract_cstr (e : env) (point : ascii) (T : extract_type) (s : bytes) : outcome extracted :=
  extract e point T (c_str_of s).
