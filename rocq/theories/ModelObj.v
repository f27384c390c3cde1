(** Lifetimes of formatter objects: construction, copying, assignment, destruction.

    None of the classes declares a copy constructor, an assignment operator or a destructor
    (include/lexi/{null,bool,char,int,enum,float}.hpp), so the implicit ones copy member by
    member; there are no move operations other than these. *)
From Verif Require Import Machine ModelItoa ModelInt ModelString ModelText ModelIeee ModelDiyfp
  ModelDtoa ModelFloat ModelLexi.

(** An object is identified by its lifetime, so that a pointer to a dead object is recognised
    even if its storage is used again.  [Ptr i n] points to the byte [n] of the array of the
    object [i]. *)
Inductive pointer := Ptr (obj : nat) (off : Z).

Inductive class := CNull | CBool | CChar | CInt | CFloat | CEnum.
Definition class_eqb (a b : class) : bool :=
  match a, b with
  | CNull, CNull | CBool, CBool | CChar, CChar | CInt, CInt | CFloat, CFloat | CEnum, CEnum => true
  | _, _ => false
  end.

(** The members: null.hpp:24, bool.hpp:24-25, char.hpp:24 (an array, and a size that is a
    member or a constant); int.hpp:24-26, float.hpp:24-26 (an array and two pointers). *)
Inductive object :=
| OText (c : class) (buffer : buf) (size : Z)
| ONumber (c : class) (buffer : buf) (first last : pointer).
Definition object_class (o : object) : class :=
  match o with OText c _ _ | ONumber c _ _ _ => c end.
Definition object_buffer (o : object) : buf :=
  match o with OText _ b _ | ONumber _ b _ _ => b end.

Inductive slot := Unborn | Live (o : object) | Dead.
Definition store := nat -> slot.
Definition set_slot (st : store) (i : nat) (s : slot) : store :=
  fun j => if Nat.eqb j i then s else st j.

(** The object that a constructor makes at [i]: [first = buffer_] (int.cpp:21, float.cpp:33). *)
Definition new_object (i : nat) (f : formatter) : object :=
  match f with
  | FNull o => OText CNull (ft_buffer o) (ft_size o)
  | FBool o => OText CBool (ft_buffer o) (ft_size o)
  | FChar o => OText CChar (ft_buffer o) (ft_size o)
  | FInt o => ONumber CInt (fi_buffer o) (Ptr i (fi_first o)) (Ptr i (fi_last o))
  | FFloat o => ONumber CFloat (ff_buffer o) (Ptr i (ff_first o)) (Ptr i (ff_last o))
  | FEnum o => ONumber CEnum (fi_buffer o) (Ptr i (fi_first o)) (Ptr i (fi_last o))
  end.

(** What a program does with the objects. *)
Inductive op :=
| Construct (i : nat) (v : value)  (* Format()(v), in place *)
| Copy (dst src : nat)             (* copy or move construction *)
| Assign (dst src : nat)           (* copy or move assignment *)
| Destroy (i : nat).

(** One step; programs that do not make sense stop with [Throw]. *)
Definition step (e : env) (st : store) (o : op) : outcome store :=
  match o with
  | Construct i v =>
      match st i with
      | Unborn => let* f := Format e v in Ok (set_slot st i (Live (new_object i f)))
      | _ => Throw "not a program"
      end
  | Copy d s =>
      match st d, st s with
      | Unborn, Live x => Ok (set_slot st d (Live x))
      | _, _ => Throw "not a program"
      end
  | Assign d s =>
      match st d, st s with
      | Live y, Live x => if class_eqb (object_class y) (object_class x) then Ok (set_slot st d (Live x))
                          else Throw "not a program"
      | _, _ => Throw "not a program"
      end
  | Destroy i =>
      match st i with
      | Live _ => Ok (set_slot st i Dead)
      | _ => Throw "not a program"
      end
  end.

Definition empty_store : store := fun _ => Unborn.

(** The most recent operation is the first of the list. *)
Fixpoint run (e : env) (ops : list op) : outcome store :=
  match ops with
  | [] => Ok empty_store
  | o :: r => let* st := run e r in step e st o
  end.

(** [string()]: [std::string(data(), size())] with [data()] and [size()] from the members. *)
Definition object_string (st : store) (i : nat) : outcome bytes :=
  match st i with
  | Live (OText _ b n) => buf_read_n b 0 (Z.to_nat n)
  | Live (ONumber _ _ (Ptr p a) (Ptr q z)) =>
      if Nat.eqb p q then
        match st p with
        | Live o => buf_read_n (object_buffer o) a (Z.to_nat (z - a))
        | _ => UB "read through a dangling pointer"
        end
      else UB "subtraction of pointers into different arrays"
  | _ => UB "use of a dead object"
  end.

(** lexi.hpp:28-78, 162-166: [Format()(t).string()].  Every overload returns a formatter by
    value; the language (C++14, which the variable templates of type.hpp need) allows the
    copy to be omitted but does not require it.  With [elide] the object is built where it is
    used, otherwise it is copied there and the original destroyed first. *)
Definition format_string_of (elide : bool) (e : env) (v : value) : outcome bytes :=
  let* st := run e (if elide then [Construct 0 v] else [Destroy 0; Copy 1 0; Construct 0 v]) in
  object_string st (if elide then 0%nat else 1%nat).
