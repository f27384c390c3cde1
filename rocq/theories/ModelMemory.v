(** The strings of the public functions with their capacity, and the allocations they make, any of
    which may fail.  The formatter objects themselves hold arrays and allocate nothing. *)
From Verif Require Import Machine ModelItoa ModelInt ModelString ModelText ModelIeee ModelDiyfp
  ModelDtoa ModelFloat ModelLexi.

(** ** std::string, [basic.string]; what the standard leaves open is a parameter *)

(** [shrink_to_fit] is a request that may be ignored; or the text is moved to a smaller block, and
    the failure to get one is either thrown (Microsoft) or ignored (libstdc++, libc++). *)
Inductive shrink := Ignored | Throwing | Catching.

Record string_library := StringLibrary {
  sl_inside : Z;             (* characters that fit into the object: no allocation *)
  sl_max : Z;                (* max_size() *)
  sl_bits : Z;               (* width of size_t *)
  sl_exact : Z -> Z;         (* capacity allocated for a text of known length *)
  sl_grow : Z -> Z -> Z;     (* capacity allocated when the capacity [c] is to become [n] or more *)
  sl_shrink : shrink;
  sl_error : bool            (* the message of a std::runtime_error is allocated *)
}.

(** The Microsoft library has 15 characters inside, capacities one less than a multiple of 16, and
    grows by half; libstdc++ has 15 and doubles; libc++ has 22 and doubles. *)
Definition libstdcxx (bits : Z) : string_library :=
  let max := 2 ^ (bits - 1) - 1 in
  StringLibrary 15 max bits (fun n => n) (fun c n => Z.max n (Z.min max (2 * c))) Catching true.
Definition libcxx (bits : Z) : string_library :=
  let max := 2 ^ bits - 17 in
  let round n := Z.min max (Z.lor n 15) in
  StringLibrary 22 max bits round (fun c n => round (Z.max n (2 * c))) Catching true.
Definition microsoft (bits : Z) : string_library :=
  let max := 2 ^ (bits - 1) - 1 in
  let round n := Z.min max (Z.lor n 15) in
  StringLibrary 15 max bits round (fun c n => Z.max (round n) (Z.min max (c + c / 2))) Throwing true.

(** A string and its capacity. *)
Record text := Text { t_bytes : bytes; t_capacity : Z }.
Definition t_size (t : text) : Z := Z.of_nat (length (t_bytes t)).

(** Computations count the allocations made so far; [has k n] tells whether allocation number [k],
    of [n] bytes, succeeds. *)
Definition counting (A : Type) : Type := Z -> outcome A * Z.
Definition returns {A} (a : A) : counting A := fun k => (Ok a, k).
Definition lift {A} (o : outcome A) : counting A := fun k => (o, k).
Definition then_ {A B} (m : counting A) (f : A -> counting B) : counting B := fun k =>
  match m k with
  | (Ok a, k) => f a k
  | (Throw w, k) => (Throw w, k)
  | (UB w, k) => (UB w, k)
  | (NoFuel, k) => (NoFuel, k)
  end.
Notation "'let!' x ':=' m 'in' k" := (then_ m (fun x => k))
  (at level 200, x pattern, m at level 100, k at level 200, right associativity).

Definition bad_alloc : string := "std::bad_alloc".
Definition length_error : string := "std::length_error".

Section Memory.
Context (has : Z -> Z -> bool) (lib : string_library).

Definition allocate (n : Z) : counting unit := fun k => (if has k n then Ok tt else Throw bad_alloc, k + 1).

(** Construction from a range or a copy, [string.cons]. *)
Definition t_new (s : bytes) : counting text :=
  let n := Z.of_nat (length s) in
  if sl_max lib <? n then lift (Throw length_error)
  else if n <=? sl_inside lib then returns (Text s (sl_inside lib))
  else let! _ := allocate (sl_exact lib n + 1) in returns (Text s (sl_exact lib n)).
Definition t_empty : text := Text [] (sl_inside lib).

(** The capacity is made at least [n], [string.capacity]. *)
Definition t_reserve (t : text) (n : Z) : counting text :=
  if n <=? t_capacity t then returns t
  else if sl_max lib <? n then lift (Throw length_error)
  else let! _ := allocate (sl_grow lib (t_capacity t) n + 1) in
       returns (Text (t_bytes t) (sl_grow lib (t_capacity t) n)).

(** [push_back], [append] and [insert] at the front. *)
Definition t_append (t : text) (s : bytes) : counting text :=
  let! t := t_reserve t (t_size t + Z.of_nat (length s)) in
  returns (Text (t_bytes t ++ s) (t_capacity t)).
Definition t_prepend (s : bytes) (t : text) : counting text :=
  let! t := t_reserve t (t_size t + Z.of_nat (length s)) in
  returns (Text (s ++ t_bytes t) (t_capacity t)).

Definition t_shrink_to_fit (t : text) : counting text :=
  match sl_shrink lib with
  | Ignored => returns t
  | policy =>
      if t_capacity t <=? sl_inside lib then returns t
      else if t_size t <=? sl_inside lib then returns (Text (t_bytes t) (sl_inside lib))
      else if t_capacity t <=? sl_exact lib (t_size t) then returns t
      else fun k =>
        match allocate (sl_exact lib (t_size t) + 1) k with
        | (Ok _, k) => (Ok (Text (t_bytes t) (sl_exact lib (t_size t))), k)
        | (_, k) => (match policy with Throwing => Throw bad_alloc | _ => Ok t end, k)
        end
  end.

(** ** src/detail/string.cpp *)

Definition loop_chars (step : text -> ascii -> counting text) : bytes -> text -> counting text :=
  fix loop (src : bytes) (dst : text) : counting text :=
    match src with
    | [] => returns dst
    | c :: r => let! dst := step dst c in loop r dst
    end.

(** string.cpp:32, 56: the argument of [reserve]; size_t arithmetic wraps. *)
Definition double_size (src : bytes) : Z := uwrap (sl_bits lib) (Z.of_nat (length src) * 2 + 1).

(** string.cpp:34-42: one character *)
Definition m_escape_step (char_signed : bool) (dst : text) (c : ascii) : counting text :=
  let! dst := if escape_needed char_signed c then t_append dst ["\"%char] else returns dst in
  t_append dst [c].
(** string.cpp:29-46 *)
Definition m_escape (char_signed : bool) (src : bytes) : counting text :=
  let! dst := t_reserve t_empty (double_size src) in
  let! dst := loop_chars (m_escape_step char_signed) src dst in
  t_shrink_to_fit dst.

(** string.cpp:58-96: one character *)
Definition m_jsonify_step (char_signed : bool) (dst : text) (ch : ascii) : counting text :=
  let c := char_value char_signed ch in
  let letter (l : ascii) := let! dst := t_append dst ["\"%char] in t_append dst [l] in
  if c =? 8 then letter "b"%char
  else if c =? 12 then letter "f"%char
  else if c =? 10 then letter "n"%char
  else if c =? 13 then letter "r"%char
  else if c =? 9 then letter "t"%char
  else if c =? 92 then letter "\"%char
  else if c =? 34 then letter (chr 34)
  else if (c >=? 0) && (c <=? 31) then
    let! dst := t_append dst (str "\u00") in
    let! h := lift (hex_at (Z.shiftr c 4)) in
    let! dst := t_append dst [h] in
    let! l := lift (hex_at (Z.land c 15)) in
    t_append dst [l]
  else t_append dst [ch].
(** string.cpp:53-101 *)
Definition m_jsonify (char_signed : bool) (src : bytes) : counting text :=
  let! dst := t_reserve t_empty (double_size src) in
  let! dst := loop_chars (m_jsonify_step char_signed) src dst in
  t_shrink_to_fit dst.
(** lexi.hpp:229 and char.cpp:87: the operators insert and append in the temporary ([string.op+]). *)
Definition m_quoted (char_signed : bool) (src : bytes) : counting text :=
  let! t := m_jsonify char_signed src in
  let! t := t_prepend [chr 34] t in
  t_append t [chr 34].

(** ** The public functions *)

(** bool.cpp:76, null.cpp:75, char.cpp:71, int.cpp:151, float.cpp:109 [std::string(data(), size())] *)
Definition m_string (f : formatter) : counting text := let! s := lift (f_string f) in t_new s.
(** bool.cpp:82-93, null.cpp:81-92, int.cpp:157-168, float.cpp:115-126 are [string()];
    char.cpp:77-88 *)
Definition m_f_escape (e : env) (f : formatter) : counting text :=
  match f with
  | FChar _ => let! t := m_string f in m_escape (char_signed (e_platform e)) (t_bytes t)
  | _ => m_string f
  end.
Definition m_f_jsonify (e : env) (f : formatter) : counting text :=
  match f with
  | FChar _ => let! t := m_string f in m_quoted (char_signed (e_platform e)) (t_bytes t)
  | _ => m_string f
  end.

(** lexi.hpp:162-175, 180-194: strings are copied *)
Definition m_lexi (e : env) (v : value) : counting text :=
  match v with
  | VString s => t_new s
  | VCString s => t_new (c_str_of s)
  | _ => let! f := lift (Format e v) in m_string f
  end.
(** lexi.hpp:199-212; a [const char*] is converted to a temporary std::string *)
Definition m_escape_of (e : env) (v : value) : counting text :=
  match v with
  | VString s => m_escape (char_signed (e_platform e)) s
  | VCString s => let! t := t_new (c_str_of s) in m_escape (char_signed (e_platform e)) (t_bytes t)
  | _ => let! f := lift (Format e v) in m_f_escape e f
  end.
(** lexi.hpp:217-230 *)
Definition m_jsonify_of (e : env) (v : value) : counting text :=
  match v with
  | VString s => m_quoted (char_signed (e_platform e)) s
  | VCString s => let! t := t_new (c_str_of s) in m_quoted (char_signed (e_platform e)) (t_bytes t)
  | _ => let! f := lift (Format e v) in m_f_jsonify e f
  end.

(** lexi.hpp:144-148: the argument is a reference; the message of an exception is allocated
    (define.hpp:19-22, bool.cpp:111). *)
Definition m_extract (e : env) (point : ascii) (T : extract_type) (s : bytes) : counting extracted := fun k =>
  match extract e point T s with
  | Throw w => if sl_error lib then (let! _ := allocate (Z.of_nat (length (str w)) + 1) in lift (Throw w)) k else (Throw w, k)
  | o => (o, k)
  end.
(** lexi.hpp:153-157: the argument is converted to a temporary std::string. *)
Definition m_extract_cstr (e : env) (point : ascii) (T : extract_type) (s : bytes) : counting extracted :=
  let! t := t_new (c_str_of s) in m_extract e point T (t_bytes t).

End Memory.
