(** What is asked of threads that use the library at the same time. *)
From Verif Require Import Machine ModelInt ModelText ModelIeee ModelDiyfp ModelDtoa ModelFloat ModelLexi ModelParallel.

(** C++11 1.10 (4), (21): two threads are about to use the same byte, and one of them changes it. *)
Definition loads {A} (p : action A) (o i : Z) : Prop := exists k, p = Load o i k.
Definition stores {A} (p : action A) (o i : Z) : Prop := exists x k, p = Store o i x k.
Definition race {A} (ps : list (action A)) : Prop := exists a b p q o i, a <> b /\
  nth_error ps a = Some p /\ nth_error ps b = Some q /\ stores p o i /\ (loads q o i \/ stores q o i).

(** The strings shared are numbered after the constants of the library. *)
Definition shared (strings : list bytes) (o : Z) (s : bytes) : Prop := 8 <= o /\ nth_error strings (Z.to_nat (o - 8)) = Some s.

Definition has_formatter (v : value) : Prop := match v with VString _ | VCString _ => False | _ => True end.

(** What may be asked of a thread: a value whose formatting is defined when there is no other thread, a string that is there. *)
Definition task_ok (e : env) (strings : list bytes) (w : task) : Prop :=
  match w with
  | DoFormat v => has_formatter v /\ exists s, lexi e v = Ok s
  | DoExtract _ o n | DoEscape o n | DoJsonify o n => exists s, shared strings o s /\ length s = n
  end.

(** What a thread gets when it is the only one. *)
Definition alone (e : env) (point : ascii) (strings : list bytes) (w : task) (a : answer) : Prop :=
  match w with
  | DoFormat v => a = Text (lexi e v)
  | DoExtract T o _ => exists s, shared strings o s /\ a = Value (extract e point T s)
  | DoEscape o _ => exists s, shared strings o s /\ a = Text (escape_of e (VString s))
  | DoJsonify o _ => exists s, shared strings o s /\ a = Text (jsonify_of e (VString s))
  end.

(** How often a thread is named. *)
Definition turns (i : nat) (order : list nat) : nat := count_occ Nat.eq_dec order i.
