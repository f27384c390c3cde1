(** What is assumed of a string library, and what may become of a call that runs out of memory. *)
From Verif Require Import Machine ModelItoa ModelInt ModelString ModelText ModelIeee ModelDiyfp ModelDtoa ModelFloat
  ModelLexi ModelMemory.

(** Capacities are sufficient and at most max_size(), and grow by half at least, up to that. *)
Definition library_ok (lib : string_library) : Prop :=
  0 <= sl_inside lib <= sl_max lib /\ sl_max lib < 2 ^ sl_bits lib /\
  (forall n, 0 <= n <= sl_max lib -> n <= sl_exact lib n <= sl_max lib) /\
  (forall c n, 0 <= c < n -> n <= sl_max lib ->
     n <= sl_grow lib c n <= sl_max lib /\ Z.min (sl_max lib) (c + c / 2) <= sl_grow lib c n).

Definition size (s : bytes) : Z := Z.of_nat (length s).

(** The result [r] of a call after [k] allocations, when with unlimited memory it is [X]: the same,
    or an exception for an allocation that failed, or one for a string that is [too_long]. *)
Definition under_memory {A B} (has : Z -> Z -> bool) (same : A -> B -> Prop) (X : outcome A) (k : Z) (too_long : Prop) (r : outcome B * Z) : Prop :=
  k <= snd r /\
  match fst r with
  | Ok b => exists a, X = Ok a /\ same a b
  | Throw w => X = Throw w \/
      (w = bad_alloc /\ exists j n, k <= j < snd r /\ has j n = false) \/
      (w = length_error /\ too_long)
  | UB w => X = UB w
  | NoFuel => X = NoFuel
  end.
Definition is_text (s : bytes) (t : text) : Prop := t_bytes t = s.

(** The string that a string argument is converted to, and the limits of the functions. *)
Definition source (v : value) : option bytes :=
  match v with VString s => Some s | VCString s => Some (c_str_of s) | _ => None end.
Definition result_too_long (lib : string_library) (X : outcome bytes) : Prop := exists s, X = Ok s /\ sl_max lib < size s.
Definition reserve_too_long (lib : string_library) (v : value) : Prop :=
  match v with
  | VChar _ => sl_max lib < 3
  | _ => exists s, source v = Some s /\ (sl_max lib < size s \/ sl_max lib < (2 * size s + 1) mod 2 ^ sl_bits lib)
  end.
(** A character, or a string whose doubled size is a size_t. *)
Definition no_wrap (lib : string_library) (v : value) : Prop :=
  match v with
  | VChar _ => 3 < 2 ^ sl_bits lib
  | _ => forall s, source v = Some s -> 2 * size s + 1 < 2 ^ sl_bits lib
  end.

(** Values whose text is short whatever they are. *)
Definition short_value (e : env) (v : value) : Prop :=
  match v with
  | VNull | VBool _ | VChar _ => True
  | VInt t n => has_int_type (e_platform e) t n /\ int_bits (e_platform e) t <= 32
  | _ => False
  end.

(** Everything that can be allocated is. *)
Definition plenty (_ _ : Z) : bool := true.
(** Nothing can be allocated. *)
Definition nothing (_ _ : Z) : bool := false.
