(** Programs on several BigIntegers (src/detail/bigint.cpp) that catch the exceptions. *)
From Verif Require Import Machine SpecBigProgram SpecBigStore ModelDiyfp ModelBigint ModelThrown.

(** The operations of SpecBigProgram, with the object left behind. *)
Definition t_perform (cc : compiler) (o : big_op) (b : BigInteger) : attempt :=
  match o with
  | OAdd d => t_add_word b d
  | OMul d => t_mul_word cc b d
  | OMul32 d => t_mul_word32 b d
  | OPow5 e => t_mulPow5 cc b e
  | OShift s => t_shift_left b s
  | OAssign d => returned (assign_word b d)
  end.

Definition object (st : list BigInteger) (x : nat) : outcome BigInteger :=
  match nth_error st x with Some b => Ok b | None => UB "no such object" end.

Definition caught (thrown : option string) : seen := match thrown with None => Nothing | Some _ => Refused end.

(** [try { ... } catch (...) { }] around an operation on object [x] *)
Definition on_object (st : list BigInteger) (x : nat) (f : BigInteger -> attempt) : outcome (list BigInteger * seen) :=
  let* b := object st x in
  let* (b, thrown) := f b in
  Ok (put x b st, caught thrown).

(** A query that may throw, caught. *)
Definition query (st : list BigInteger) (m : outcome Z) : outcome (list BigInteger * seen) :=
  match m with
  | Throw _ => Ok (st, Refused)
  | _ => let* v := m in Ok (st, Number v)
  end.
Definition query_bool (st : list BigInteger) (m : outcome bool) : outcome (list BigInteger * seen) :=
  let* v := m in Ok (st, flag v).

Definition execute (cc : compiler) (st : list BigInteger) (o : store_op) : outcome (list BigInteger * seen) :=
  match o with
  | New d => let* b := BigInteger_word d in Ok (st ++ [b], Nothing)
  | NewCopy y => let* b := object st y in let* c := BigInteger_copy b in Ok (st ++ [c], Nothing)
  | NewText s => match BigInteger_decimals cc s with
                 | Throw _ => Ok (st, Refused)   (* no object *)
                 | m => let* b := m in Ok (st ++ [b], Nothing)
                 end
  (* bigint.cpp:167: assignment to itself does nothing *)
  | Assign x y => if (x =? y)%nat then let* _ := object st x in Ok (st, Nothing)
                  else let* b := object st y in on_object st x (fun a => returned (assign a b))
  | Do x o => on_object st x (t_perform cc o)
  | Shift x s => on_object st x (fun b => t_shift_left b s)
  | Difference x y z =>
      let* a := object st x in
      let* b := object st y in
      let* c := object st z in
      let out := if (z =? x)%nat then OutThis else if (z =? y)%nat then OutOther else OutApart c in
      let* (c, r) := t_difference a b out in
      Ok (put z c st, match r with inl _ => Refused | inr v => flag v end)
  | Compare x y => let* a := object st x in let* b := object st y in query st (compare a b)
  | Equal x y => let* a := object st x in let* b := object st y in query_bool st (equal a b)
  | EqualWord x d => let* a := object st x in query_bool st (equal_word a d)
  | IsZero x => let* a := object st x in query_bool st (big_isZero a)
  | Digit x i => let* a := object st x in query st (digit a i)
  end.

Fixpoint execute_all (cc : compiler) (st : list BigInteger) (ops : list store_op) : outcome (list BigInteger * list seen) :=
  match ops with
  | [] => Ok (st, [])
  | o :: r => let* (st, v) := execute cc st o in let* (st, vs) := execute_all cc st r in Ok (st, v :: vs)
  end.
