(** Texts made of several results: JSON arrays and objects, fields with separators, lines. *)
From Verif Require Import Machine SpecString ModelItoa ModelInt ModelText ModelIeee ModelDiyfp ModelDtoa ModelFloat ModelLexi
  SpecInt SpecIeee SpecRead SpecMore SpecMeaning.
Open Scope Z_scope.

(** ** JSON arrays and objects with arguments of the library at the leaves *)

Inductive tree (A : Type) :=
| Leaf (x : A)
| Array (l : elements A)
| Object (l : members A)
with elements (A : Type) :=
| NoElement
| Element (t : tree A) (l : elements A)
with members (A : Type) :=
| NoMember
| Member (key : bytes) (t : tree A) (l : members A).
Arguments Leaf {A}. Arguments Array {A}. Arguments Object {A}.
Arguments NoElement {A}. Arguments Element {A}. Arguments NoMember {A}. Arguments Member {A}.

(** The text a program writes with [jsonify_of] and nothing else but punctuation (RFC 8259,
    section 2, without white space). *)
Fixpoint tree_text (e : env) (t : tree value) : outcome bytes :=
  match t with
  | Leaf v => jsonify_of e v
  | Array l => let* s := elements_text e l in Ok ("["%char :: s ++ ["]"%char])
  | Object l => let* s := members_text e l in Ok ("{"%char :: s ++ ["}"%char])
  end
with elements_text (e : env) (l : elements value) : outcome bytes :=
  match l with
  | NoElement => Ok []
  | Element t l =>
      let* s := tree_text e t in
      match l with
      | NoElement => Ok s
      | _ => let* r := elements_text e l in Ok (s ++ ","%char :: r)
      end
  end
with members_text (e : env) (l : members value) : outcome bytes :=
  match l with
  | NoMember => Ok []
  | Member k t l =>
      let* a := jsonify_of e (VString k) in
      let* s := tree_text e t in
      match l with
      | NoMember => Ok (a ++ ":"%char :: s)
      | _ => let* r := members_text e l in Ok (a ++ ":"%char :: s ++ ","%char :: r)
      end
  end.

(** What such a tree means: that of its leaves. *)
Inductive tree_means : tree value -> tree meaning -> Prop :=
| tm_leaf v m : means v m -> tree_means (Leaf v) (Leaf m)
| tm_array l n : elements_mean l n -> tree_means (Array l) (Array n)
| tm_object l n : members_mean l n -> tree_means (Object l) (Object n)
with elements_mean : elements value -> elements meaning -> Prop :=
| em_nil : elements_mean NoElement NoElement
| em_cons t m l n : tree_means t m -> elements_mean l n -> elements_mean (Element t l) (Element m n)
with members_mean : members value -> members meaning -> Prop :=
| mm_nil : members_mean NoMember NoMember
| mm_cons k t m l n : tree_means t m -> members_mean l n -> members_mean (Member k t l) (Member k m n).

(** Every leaf satisfies [P] and every key [K]. *)
Fixpoint tree_all {A} (P : A -> Prop) (K : bytes -> Prop) (t : tree A) : Prop :=
  match t with Leaf x => P x | Array l => elements_all P K l | Object l => members_all P K l end
with elements_all {A} (P : A -> Prop) (K : bytes -> Prop) (l : elements A) : Prop :=
  match l with NoElement => True | Element t l => tree_all P K t /\ elements_all P K l end
with members_all {A} (P : A -> Prop) (K : bytes -> Prop) (l : members A) : Prop :=
  match l with NoMember => True | Member k t l => K k /\ tree_all P K t /\ members_all P K l end.

(** ** Fields with a separator between them *)

Fixpoint separated (sep : bytes) (l : list bytes) : bytes :=
  match l with
  | [] => []
  | [x] => x
  | x :: r => x ++ sep ++ separated sep r
  end.

(** A separator that begins with a character that [escape] marks, other than the mark. *)
Definition escape_separator (sep : bytes) : Prop :=
  exists c r, sep = c :: r /\ escaped_class c /\ c <> BACKSLASH.

(** A separator that cannot be part of a number: it begins neither with a letter nor a digit
    nor a sign nor a point. *)
Definition number_separator (sep : bytes) : Prop :=
  exists c r, sep = c :: r /\ ~ is_alphanumeric c /\ c <> "+"%char /\ c <> "-"%char /\ c <> "."%char.

(** ** Lines *)

(** A text without control characters: it has one line, and no terminal acts on it. *)
Definition one_line (s : bytes) : Prop := Forall (fun c => 32 <= code c) s.
