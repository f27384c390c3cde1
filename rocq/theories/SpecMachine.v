(** Independent statements about the machine the model runs on: what an array holds, what a
    copy leaves, which number a conversion gives. *)
From Coq Require Import List ZArith String Ascii.
From Verif Require Import Machine.
Import ListNotations.
Open Scope Z_scope.

(** What is at offset [i] of an array: nothing (outside), an object never written, or a value. *)
Inductive place (A : Type) := Outside | Unwritten | Holds (x : A).
Arguments Outside {A}.
Arguments Unwritten {A}.
Arguments Holds {A} _.

Definition at_offset {A} (l : list (option A)) (i : Z) : place A :=
  if i <? 0 then Outside
  else match nth_error l (Z.to_nat i) with
       | None => Outside
       | Some None => Unwritten
       | Some (Some x) => Holds x
       end.

(** [l'] is [l] but for the cells from [at] on, [n] of them, which hold what [src] says. *)
Definition replaced {A} (l l' : list (option A)) (at_ n : Z) (src : Z -> place A) : Prop :=
  length l' = length l /\
  forall j, at_offset l' j = if (at_ <=? j) && (j <? at_ + n) then src (j - at_) else at_offset l j.

(** The run is undefined. *)
Definition undefined {A} (m : outcome A) : Prop := exists why, m = UB why.

(** [n] cells from [at_] on are inside of an array of [size]. *)
Definition inside (at_ n size : Z) : Prop := 0 <= n /\ 0 <= at_ /\ at_ + n <= size.

(** The unsigned number of [w] bits that is congruent to [x], and the signed one. *)
Definition unsigned_of (w x y : Z) : Prop := 0 <= y < 2 ^ w /\ exists k, x = y + k * 2 ^ w.
Definition signed_of (w x y : Z) : Prop := - 2 ^ (w - 1) <= y < 2 ^ (w - 1) /\ exists k, x = y + k * 2 ^ w.
