(** Independent statements about the bytes of words. *)
From Coq Require Import List ZArith String Ascii Permutation.
From Verif Require Import Machine SpecMachine ModelBytes.
Import ListNotations.
Open Scope Z_scope.

(** Every byte once, in whatever order. *)
Definition byte_order (o : order) : Prop := Permutation o (seq 0 8).

Definition word_ok (x : option Z) : Prop := match x with Some w => 0 <= w < 2 ^ 64 | None => True end.

(** The bytes of an array of words; a word never written has eight bytes never written. *)
Definition image (o : order) (d : list (option Z)) : buf :=
  flat_map (fun x => match x with Some w => map Some (in_memory o w) | None => repeat None 8 end) d.

(** The run on bytes does what the run on words does. *)
Definition simulates {A B} (f : A -> B) (words : outcome A) (bytes : outcome B) : Prop :=
  match words with
  | Ok d => bytes = Ok (f d)
  | UB _ => undefined bytes
  | _ => False
  end.
