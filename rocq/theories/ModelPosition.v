(** Model of the overloads for std::fpos in lexi.hpp with the positions of the standard libraries, which
    are more than their offsets. *)
From Verif Require Import Machine ModelItoa ModelInt ModelText ModelLexi.

(** std::fpos<State>.  libstdc++ (bits/postypes.h) and libc++ (ios): an offset and a state.  Microsoft's
    library (iosfwd): an offset, the position of the C library's file, and a state. *)
Inductive fpos (State : Type) :=
| OffsetAndState (off : Z) (st : State)
| OffsetFileState (off file : Z) (st : State).
Arguments OffsetAndState {State}. Arguments OffsetFileState {State}.

(** [operator streamoff()]; the sum of two signed 64-bit numbers is undefined if it is out of range. *)
Definition fpos_offset {State} (x : fpos State) : outcome Z :=
  match x with
  | OffsetAndState off _ => Ok off
  | OffsetFileState off file _ =>
      if (- 2 ^ 63 <=? off + file) && (off + file <? 2 ^ 63) then Ok (off + file) else UB "overflow in fpos"
  end.
(** [fpos(streamoff)]: the state is value-initialised to [s0], which is the initial one. *)
Inductive position_library := TwoMembers | ThreeMembers.
Definition fpos_of_offset {State} (l : position_library) (s0 : State) (off : Z) : fpos State :=
  match l with TwoMembers => OffsetAndState off s0 | ThreeMembers => OffsetFileState off 0 s0 end.
Definition fpos_library {State} (x : fpos State) : position_library :=
  match x with OffsetAndState _ _ => TwoMembers | OffsetFileState _ _ _ => ThreeMembers end.
Definition fpos_state {State} (x : fpos State) : State :=
  match x with OffsetAndState _ s | OffsetFileState _ _ s => s end.

(** lexi.hpp:72-77, 160-166: [FormatInt(std::streamoff(t))] *)
Definition lexi_fpos {State} (e : env) (x : fpos State) : outcome bytes :=
  let* off := fpos_offset x in lexi e (VFpos off).
Definition jsonify_fpos {State} (e : env) (x : fpos State) : outcome bytes :=
  let* off := fpos_offset x in jsonify_of e (VFpos off).
(** lexi.hpp:129-134: [T(std::streamoff(ExtractInt(string)))] *)
Definition extract_fpos {State} (e : env) (l : position_library) (s0 : State) (s : bytes) : outcome (fpos State) :=
  let* d := ExtractInt s in
  Ok (fpos_of_offset l s0 (ExtractInt_to (e_platform e) (streamoff_type (e_platform e)) d)).
