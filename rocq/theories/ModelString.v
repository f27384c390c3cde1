(** Model of src/detail/string.cpp: escaping and JSON string literals. *)
From Verif Require Import Machine.

(** The parameter [char_signed] is the signedness of plain [char] (implementation-defined). *)

(** src/detail/string.cpp:35-38: the condition of the [if]; [c] is promoted to int. *)
Definition escape_needed (char_signed : bool) (ch : ascii) : bool :=
  let c := char_value char_signed ch in
  ((c >=? 0) && (c <=? 47)) ||
  ((c >=? 58) && (c <=? 64)) ||
  ((c >=? 91) && (c <=? 96)) ||
  ((c >=? 123) && (c <=? 126)).

(** src/detail/string.cpp:29-46.  [dst.reserve]/[shrink_to_fit] have no observable effect
    and are dropped.  [dst] is accumulated by [push_back]. *)
Definition escape_step (char_signed : bool) (dst : bytes) (c : ascii) : bytes :=
  let dst := if escape_needed char_signed c then dst ++ ["\"%char] else dst in
  dst ++ [c].
Definition escape (char_signed : bool) (src : bytes) : bytes := fold_left (escape_step char_signed) src [].

(** src/detail/string.cpp:18 *)
Definition HEX : bytes := str "0123456789abcdef".
(** Indexing HEX; index 16 would be the literal's NUL, anything beyond is UB. *)
Definition hex_at (i : Z) : outcome ascii :=
  if in_range i 16 then Ok (nth (Z.to_nat i) HEX NUL)
  else if i =? 16 then Ok NUL else UB "HEX read out of bounds".

(** src/detail/string.cpp:58-96: one iteration of the loop. The case labels are
    backspace (8), form feed (12), line feed (10), carriage return (13), tab (9), reverse
    solidus (92) and quotation mark (34). *)
Definition jsonify_step (char_signed : bool) (dst : bytes) (ch : ascii) : outcome bytes :=
  let c := char_value char_signed ch in
  if c =? 8 then Ok (dst ++ ["\"%char] ++ ["b"%char])
  else if c =? 12 then Ok (dst ++ ["\"%char] ++ ["f"%char])
  else if c =? 10 then Ok (dst ++ ["\"%char] ++ ["n"%char])
  else if c =? 13 then Ok (dst ++ ["\"%char] ++ ["r"%char])
  else if c =? 9 then Ok (dst ++ ["\"%char] ++ ["t"%char])
  else if c =? 92 then Ok (dst ++ ["\"%char] ++ ["\"%char])
  else if c =? 34 then Ok (dst ++ ["\"%char] ++ [chr 34])
  else if (c >=? 0) && (c <=? 31) then
    let* h := hex_at (Z.shiftr c 4) in
    let* l := hex_at (Z.land c 15) in
    Ok (dst ++ str "\u00" ++ [h] ++ [l])
  else Ok (dst ++ [ch]).

(** src/detail/string.cpp:53-101 *)
Fixpoint jsonify_loop (char_signed : bool) (dst src : bytes) : outcome bytes :=
  match src with
  | [] => Ok dst
  | c :: r => let* dst := jsonify_step char_signed dst c in jsonify_loop char_signed dst r
  end.
Definition jsonify (char_signed : bool) (src : bytes) : outcome bytes := jsonify_loop char_signed [] src.

(** include/lexi/lexi.hpp:229 and src/char.cpp:87: detail::jsonify(string) between two
    quotation marks *)
Definition quoted_jsonify (char_signed : bool) (src : bytes) : outcome bytes :=
  let* r := jsonify char_signed src in Ok ([chr 34] ++ r ++ [chr 34]).
