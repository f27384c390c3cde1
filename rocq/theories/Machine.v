(** Machine model shared by all files: outcomes, fixed-width integers, characters,
    byte buffers.  Nothing here is specific to lexi; it models the C++ abstract
    machine features that the code under /repo uses. *)
From Coq Require Export List ZArith Lia Bool String Ascii.
From Coq Require Export ZifyBool ZifyNat ZifyN.
Export ListNotations.
(* [String] exports its own [length], [append]...; lists are meant by default. *)
Notation length := List.length.
Global Open Scope Z_scope.
Global Open Scope list_scope.

(** ** Outcomes of running a C++ function *)

Inductive outcome (A : Type) : Type :=
| Ok (a : A)            (* normal return *)
| Throw (what : string) (* std::runtime_error *)
| UB (why : string)     (* undefined behaviour *)
| NoFuel.               (* a loop outlived the fuel given by the model *)
Arguments Ok {A} _.
Arguments Throw {A} _.
Arguments UB {A} _.
Arguments NoFuel {A}.

Definition bind {A B} (m : outcome A) (k : A -> outcome B) : outcome B :=
  match m with
  | Ok a => k a
  | Throw w => Throw w
  | UB w => UB w
  | NoFuel => NoFuel
  end.

Notation "'let*' x ':=' m 'in' k" := (bind m (fun x => k))
  (at level 200, x pattern, m at level 100, k at level 200, right associativity).

(** ** Fixed-width integers (represented by Z, wrapped explicitly) *)

Definition u8  (x : Z) : Z := x mod 2 ^ 8.
Definition u16 (x : Z) : Z := x mod 2 ^ 16.
Definition u32 (x : Z) : Z := x mod 2 ^ 32.
Definition u64 (x : Z) : Z := x mod 2 ^ 64.

(** Conversion to a [w]-bit two's complement signed integer. *)
Definition swrap (w : Z) (x : Z) : Z :=
  let y := x mod 2 ^ w in if y <? 2 ^ (w - 1) then y else y - 2 ^ w.

(** Conversion to a [w]-bit unsigned integer. *)
Definition uwrap (w : Z) (x : Z) : Z := x mod 2 ^ w.

(** ** Characters: [ascii] has exactly the 256 values of a C++ [char] object *)

Definition code (c : ascii) : Z := Z.of_N (N_of_ascii c).

(** The character with code [z] modulo 256 (conversion of an int to char). *)
Definition chr (z : Z) : ascii := ascii_of_N (Z.to_N (z mod 256)).

(** The integer value of a C++ [char], whose signedness is implementation-defined. *)
Definition char_value (char_signed : bool) (c : ascii) : Z :=
  if char_signed then swrap 8 (code c) else code c.

(** Byte strings: the contents of a std::string. *)
Definition bytes := list ascii.
Definition str (s : string) : bytes := list_ascii_of_string s.

Definition NUL : ascii := chr 0.

(** ** Byte buffers; [None] is an indeterminate (uninitialised) byte *)

Definition buf := list (option ascii).

Definition new_buf (n : nat) : buf := repeat None n.

Fixpoint set_nth {A} (l : list A) (i : nat) (x : A) : list A :=
  match l, i with
  | [], _ => []
  | _ :: r, O => x :: r
  | y :: r, S i => y :: set_nth r i x
  end.

Definition in_range (i n : Z) : bool := (0 <=? i) && (i <? n).

(** Checked element write [b[i] = c]. *)
Definition buf_write (b : buf) (i : Z) (c : ascii) : outcome buf :=
  if in_range i (Z.of_nat (length b)) then Ok (set_nth b (Z.to_nat i) (Some c))
  else UB "buffer write out of bounds".

(** Checked element read [b[i]]. *)
Definition buf_read (b : buf) (i : Z) : outcome ascii :=
  if in_range i (Z.of_nat (length b)) then
    match nth (Z.to_nat i) b None with
    | Some c => Ok c
    | None => UB "read of an indeterminate byte"
    end
  else UB "buffer read out of bounds".

(** [n] bytes starting at offset [i], as [std::string(p, n)] reads them. *)
Fixpoint buf_read_n (b : buf) (i : Z) (n : nat) : outcome bytes :=
  match n with
  | O => Ok []
  | S n => let* c := buf_read b i in
           let* r := buf_read_n b (i + 1) n in Ok (c :: r)
  end.

(** The C string starting at offset [i]: bytes before the first NUL.  The fuel is
    the buffer size; running past the end of the buffer is UB before fuel runs out. *)
Fixpoint buf_c_string (fuel : nat) (b : buf) (i : Z) : outcome bytes :=
  match fuel with
  | O => NoFuel
  | S fuel => let* c := buf_read b i in
              if (code c =? 0) then Ok []
              else let* r := buf_c_string fuel b (i + 1) in Ok (c :: r)
  end.

(** [memmove(&b[dst], &b[src], n)]: indeterminate bytes may be copied. *)
Definition buf_memmove (b : buf) (dst src n : Z) : outcome buf :=
  let len := Z.of_nat (length b) in
  if (0 <=? n) && (0 <=? dst) && (dst + n <=? len) && (0 <=? src) && (src + n <=? len) then
    let moved := firstn (Z.to_nat n) (skipn (Z.to_nat src) b) in
    Ok (firstn (Z.to_nat dst) b ++ moved ++ skipn (Z.to_nat (dst + n)) b)
  else UB "memmove out of bounds".

(** Writing a list of characters at increasing offsets. *)
Fixpoint buf_write_list (b : buf) (i : Z) (l : bytes) : outcome buf :=
  match l with
  | [] => Ok b
  | c :: r => let* b := buf_write b i c in buf_write_list b (i + 1) r
  end.

(** [strncpy(&b[i], lit, sizeof(lit))] for a string literal [lit] whose characters are
    [s] (no embedded NUL): copies the characters and the terminating NUL. *)
Definition buf_strncpy_literal (b : buf) (i : Z) (s : bytes) : outcome buf :=
  buf_write_list b i (s ++ [NUL]).

(** A [char *] cursor into a buffer; [put] is [*buffer++ = c]. *)
Record cursor := Cursor { cbuf : buf; cpos : Z }.

Definition put (k : cursor) (c : ascii) : outcome cursor :=
  let* b := buf_write (cbuf k) (cpos k) c in Ok (Cursor b (cpos k + 1)).
