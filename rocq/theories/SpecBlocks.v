(** How large the blocks are that the strings of the public functions ask for. *)
From Verif Require Import Machine ModelItoa ModelInt ModelString ModelText ModelIeee ModelDiyfp ModelDtoa ModelFloat
  ModelLexi ModelMemory SpecMemory.

(** Capacities are rounded up by 15 at most, and at most doubled. *)
Definition moderate (lib : string_library) : Prop :=
  (forall n, 0 <= n <= sl_max lib -> sl_exact lib n <= n + 15) /\
  (forall c n, 0 <= c < n -> n <= sl_max lib -> sl_grow lib c n <= Z.max n (2 * c) + 15).

(** Blocks of up to [n] bytes can be had, whatever was allocated before. *)
Definition blocks (n : Z) (has : Z -> Z -> bool) : Prop := forall j m, m <= n -> has j m = true.

(** The longest text the functions have room for: that of the result, or twice the argument. *)
Definition room (v : value) (s : bytes) : Z :=
  match v with
  | VString src => Z.max (size s) (2 * size src + 1)
  | VCString src => Z.max (size s) (2 * size (c_str_of src) + 1)
  | VChar _ => Z.max (size s) 3
  | _ => size s
  end.

(** Memory in which blocks of up to [n] bytes are to be had and none that are larger. *)
Definition limited (n : Z) (_ m : Z) : bool := m <=? n.
