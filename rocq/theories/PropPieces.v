(** C108: strings escaped in pieces, and texts that are cut. *)
From Verif Require Import Machine SpecString SpecMemory SpecPieces ModelItoa ModelInt ModelText ModelDtoa ModelLexi ModelPlatforms ProofPieces.
Open Scope Z_scope.

(** Pieces are escaped one by one. *)
Theorem C108_escape : forall e a b, exists x y, escape_of e (VString a) = Ok x /\ escape_of e (VString b) = Ok y /\
  escape_of e (VString (a ++ b)) = Ok (x ++ y).
Proof. exact pieces_escape. Qed.
Print Assumptions C108_escape.

Theorem C108_jsonify : forall e a b, exists x y,
  jsonify_of e (VString a) = Ok ([QUOTE] ++ x ++ [QUOTE]) /\ jsonify_of e (VString b) = Ok ([QUOTE] ++ y ++ [QUOTE]) /\
  jsonify_of e (VString (a ++ b)) = Ok ([QUOTE] ++ (x ++ y) ++ [QUOTE]).
Proof. exact pieces_json. Qed.
Print Assumptions C108_jsonify.

(** A cut is recognised by the backslash before it, or both parts are escaped texts. *)
Theorem C108_cut : forall e s t p q, escape_of e (VString s) = Ok t -> t = p ++ q ->
  (unescape p = None /\ (forall r, escape_of e (VString r) <> Ok p)) \/
  (exists s1 s2, s = s1 ++ s2 /\ escape_of e (VString s1) = Ok p /\ escape_of e (VString s2) = Ok q).
Proof. exact pieces_cut. Qed.
Print Assumptions C108_cut.

(** Escaping keeps what begins with what. *)
Theorem C108_begins : forall e a b x y, escape_of e (VString a) = Ok x -> escape_of e (VString b) = Ok y ->
  (begins x y <-> begins a b).
Proof. exact pieces_begin. Qed.
Print Assumptions C108_begins.

(** A JSON string that is cut off is no JSON string. *)
Theorem C108_truncated : forall e s t p q, jsonify_of e (VString s) = Ok t -> t = p ++ q -> q <> [] -> json_string_decode p = None.
Proof. exact pieces_prefix_free. Qed.
Print Assumptions C108_truncated.

(** If it is cut off and closed, it is none or the beginning of the string, and the rest is the rest. *)
Theorem C108_closed : forall e s p q, jsonify_of e (VString s) = Ok ([QUOTE] ++ (p ++ q) ++ [QUOTE]) ->
  match json_string_decode ([QUOTE] ++ p ++ [QUOTE]) with
  | Some s1 => exists s2, s = s1 ++ s2 /\ jsonify_of e (VString s1) = Ok ([QUOTE] ++ p ++ [QUOTE]) /\
                 jsonify_of e (VString s2) = Ok ([QUOTE] ++ q ++ [QUOTE])
  | None => forall s1, jsonify_of e (VString s1) <> Ok ([QUOTE] ++ p ++ [QUOTE])
  end.
Proof. exact pieces_close. Qed.
Print Assumptions C108_closed.

(** The sizes; every string has these numbers. *)
Theorem C108_escape_size : forall e s t n, escape_of e (VString s) = Ok t -> counted escaped_class s n -> size t = size s + n.
Proof. exact pieces_escape_size. Qed.
Print Assumptions C108_escape_size.

Theorem C108_jsonify_size : forall e s t n m, jsonify_of e (VString s) = Ok t -> counted short_escape s n -> counted long_escape s m ->
  size t = size s + 2 + n + 5 * m.
Proof. exact pieces_json_size. Qed.
Print Assumptions C108_jsonify_size.

Theorem C108_counted : forall s,
  (exists n, counted escaped_class s n) /\ (exists n, counted short_escape s n) /\ (exists n, counted long_escape s n).
Proof. exact pieces_counted. Qed.
Print Assumptions C108_counted.

(** A tab, a unit separator and a quotation mark: 2, 6 and 2 bytes. *)
Example C108_case : let e := linux_x86_64 Strict in let s := [chr 9; chr 31; QUOTE] in
  jsonify_of e (VString s) = Ok ([QUOTE] ++ str "\t\u001f\" ++ [QUOTE; QUOTE]) /\
  (* cut behind the tab and closed *)
  json_string_decode ([QUOTE] ++ str "\t" ++ [QUOTE]) = Some [chr 9] /\
  (* cut inside of an escape: the closing quotation mark is escaped, or there are too few digits *)
  json_string_decode ([QUOTE] ++ str "\t\" ++ [QUOTE]) = None /\
  json_string_decode ([QUOTE] ++ str "\t\u00" ++ [QUOTE]) = None /\
  (* cut before the closing quotation mark *)
  json_string_decode ([QUOTE] ++ str "\t\u001f\" ++ [QUOTE]) = None /\
  escape_of e (VString (str "a-b")) = Ok (str "a\-b") /\ unescape (str "a\") = None.
Proof. cbv zeta. repeat (split; [vm_compute; reflexivity|]). vm_compute. reflexivity. Qed.
