(** What is asked of threads that format and extract integers. *)
From Verif Require Import Machine ModelInt ModelText ModelIeee ModelDiyfp ModelDtoa ModelFloat ModelLexi ModelThreads.

(** C++11 1.10 (4), (21): two threads are about to use the same byte, and one of them changes it. *)
Definition loads {A} (p : program A) (o i : Z) : Prop := exists k, p = Load o i k.
Definition stores {A} (p : program A) (o i : Z) : Prop := exists c k, p = Store o i c k.
Definition race {A} (ps : list (program A)) : Prop := exists a b p q o i, a <> b /\
  nth_error ps a = Some p /\ nth_error ps b = Some q /\ stores p o i /\ (loads q o i \/ stores q o i).

(** What may be asked of a thread: strings are numbered from 1. *)
Definition shared (strings : list bytes) (o : Z) (s : bytes) : Prop := 1 <= o /\ nth_error strings (Z.to_nat (o - 1)) = Some s.
Definition task_ok (p : platform) (strings : list bytes) (w : task) : Prop :=
  match w with
  | DoFormat t v => has_int_type p t v
  | DoExtract _ o n | DoView o n => exists s, shared strings o s /\ length s = n
  end.

(** What a thread gets when it is the only one. *)
Definition alone (e : env) (strings : list bytes) (w : task) (a : answer) : Prop :=
  match w with
  | DoFormat t v => exists s, lexi e (VInt t v) = Ok s /\ a = Text s
  | DoExtract t o _ => exists s z, shared strings o s /\ extract e "."%char (TInt t) s = Ok (XInt z) /\ a = Number z
  | DoView o _ => exists s u r, shared strings o s /\ ~ In NUL u /\ (s = u \/ s = u ++ NUL :: r) /\ a = Text u
  end.

(** The accesses after which a thread has finished. *)
Definition enough (w : task) : nat := match w with DoFormat _ _ => 64 | DoExtract _ _ n | DoView _ n => S n end.

(** How often a thread is named. *)
Definition turns (i : nat) (order : list nat) : nat := count_occ Nat.eq_dec order i.
