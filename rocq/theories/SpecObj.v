(** What a history of formatter objects should mean: every object stands for a value, copies
    stand for the value of their source. *)
From Verif Require Import Machine ModelLexi ModelObj.

(** The value that the object [i] stands for after a history (latest operation first);
    [None] if there is no such object. *)
Fixpoint stands_for (h : list op) (i : nat) : option value :=
  match h with
  | [] => None
  | Construct j v :: r => if Nat.eqb j i then Some v else stands_for r i
  | Copy d s :: r | Assign d s :: r => if Nat.eqb d i then stands_for r s else stands_for r i
  | Destroy j :: r => if Nat.eqb j i then None else stands_for r i
  end.

(** The constructed object from which [i] descends by copies and assignments. *)
Fixpoint origin (h : list op) (i : nat) : option nat :=
  match h with
  | [] => None
  | Construct j v :: r => if Nat.eqb j i then Some j else origin r i
  | Copy d s :: r | Assign d s :: r => if Nat.eqb d i then origin r s else origin r i
  | Destroy j :: r => if Nat.eqb j i then None else origin r i
  end.

(** Values whose formatter keeps no pointer. *)
Definition self_contained (v : value) : Prop :=
  match v with VNull | VBool _ | VChar _ => True | _ => False end.

(** The text of a value: what a new formatter for it gives. *)
Definition text_of (e : env) (v : value) (s : bytes) : Prop :=
  exists f, Format e v = Ok f /\ f_string f = Ok s.

(** No assignment to [i] in the history. *)
Definition never_assigned (h : list op) (i : nat) : Prop := forall s, ~ In (Assign i s) h.
(** [i] was constructed from a value, not copied. *)
Definition constructed (h : list op) (i : nat) : Prop := exists v, In (Construct i v) h.

(** The class of the formatter of a value: only objects of one class are assigned. *)
Inductive formatter_class := NullFormatter | BoolFormatter | CharFormatter | IntFormatter | FloatFormatter | EnumFormatter.
Definition class_of (v : value) : option formatter_class :=
  match v with
  | VNull => Some NullFormatter
  | VBool _ => Some BoolFormatter
  | VChar _ => Some CharFormatter
  | VInt _ _ | VFpos _ => Some IntFormatter
  | VFloat _ | VDouble _ | VLongDouble _ => Some FloatFormatter
  | VEnum _ _ => Some EnumFormatter
  | VString _ | VCString _ => None
  end.

(** [i] was neither constructed nor copied into. *)
Definition fresh (h : list op) (i : nat) : Prop :=
  (forall v, ~ In (Construct i v) h) /\ forall s, ~ In (Copy i s) h.

(** The histories that programs have: objects are made once, from values that can be formatted
    or from live objects; live objects are assigned within their class, and destroyed. *)
Fixpoint sensible (e : env) (h : list op) : Prop :=
  match h with
  | [] => True
  | o :: r => sensible e r /\
      match o with
      | Construct i v => fresh r i /\ exists f, Format e v = Ok f
      | Copy d s => fresh r d /\ exists v, stands_for r s = Some v
      | Assign d s => exists v w, stands_for r d = Some v /\ stands_for r s = Some w /\ class_of v = class_of w
      | Destroy i => exists v, stands_for r i = Some v
      end
  end.
