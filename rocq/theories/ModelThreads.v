(** Integers formatted and extracted by several threads that share memory: itoa.cpp and int.cpp with every access to
    memory as a step of its own, between which other threads run.  The text of the functions is that of ModelItoa.v and
    ModelInt.v. *)
From Verif Require Import Machine ModelItoa ModelInt.

(** What a thread still has to do.  Local variables of integer and pointer type are in registers; the arrays are in
    memory, where each object has a number. *)
Inductive program (A : Type) : Type :=
| Return (a : A)
| Undefined (why : string)
| Load (object offset : Z) (k : ascii -> program A)
| Store (object offset : Z) (c : ascii) (k : program A).
Arguments Return {A} a. Arguments Undefined {A} why. Arguments Load {A} object offset k. Arguments Store {A} object offset c k.

Fixpoint sequence {A B} (p : program A) (f : A -> program B) : program B :=
  match p with
  | Return a => f a
  | Undefined why => Undefined why
  | Load o i k => Load o i (fun c => sequence (k c) f)
  | Store o i c k => Store o i c (sequence k f)
  end.
Notation "'let?' x := m 'in' k" := (sequence m (fun x => k)) (at level 61, x pattern, m at next level, k at level 200, right associativity).

(** ** itoa.cpp *)

(** The object with [DIGITS], itoa.cpp:19-31. *)
Definition DIGITS_OBJECT : Z := 0.

(** A pointer into an array. *)
Definition place : Type := Z * Z.

(** [*buffer++ = c] *)
Definition t_put (buffer : place) (c : ascii) : program place :=
  Store (fst buffer) (snd buffer) c (Return (fst buffer, snd buffer + 1)).

(** [*buffer++ = DIGITS_PTR[i]] *)
Definition t_put_digit (buffer : place) (i : Z) : program place :=
  Load DIGITS_OBJECT i (fun c => t_put buffer c).

(** [if (b) *buffer++ = DIGITS_PTR[i]] *)
Definition t_put_digit_if (b : bool) (buffer : place) (i : Z) : program place :=
  if b then t_put_digit buffer i else Return buffer.

(** src/detail/itoa.cpp:49-126  [u32toa] *)
Definition t_u32toa (value : Z) (buffer : place) : program place :=
  if value <? 10000 then                                             (* 52 *)
    let d1 := shl1 (value / 100) in
    let d2 := shl1 (value mod 100) in
    let? buffer := t_put_digit_if (1000 <=? value) buffer d1 in         (* 56 *)
    let? buffer := t_put_digit_if (100 <=? value) buffer (d1 + 1) in
    let? buffer := t_put_digit_if (10 <=? value) buffer d2 in
    t_put_digit buffer (d2 + 1)                                         (* 65 *)
  else if value <? 100000000 then                                     (* 67 *)
    let b := value / 10000 in
    let c := value mod 10000 in
    let d1 := shl1 (b / 100) in
    let d2 := shl1 (b mod 100) in
    let d3 := shl1 (c / 100) in
    let d4 := shl1 (c mod 100) in
    let? buffer := t_put_digit_if (10000000 <=? value) buffer d1 in     (* 78 *)
    let? buffer := t_put_digit_if (1000000 <=? value) buffer (d1 + 1) in
    let? buffer := t_put_digit_if (100000 <=? value) buffer d2 in
    let? buffer := t_put_digit buffer (d2 + 1) in                       (* 87 *)
    let? buffer := t_put_digit buffer d3 in
    let? buffer := t_put_digit buffer (d3 + 1) in
    let? buffer := t_put_digit buffer d4 in
    t_put_digit buffer (d4 + 1)                                         (* 92 *)
  else                                                                (* 93 *)
    let a := value / 100000000 in
    let value := value mod 100000000 in
    let? buffer :=
      if 10 <=? a then                                                (* 99 *)
        let i := shl1 a in
        let? buffer := t_put_digit buffer i in
        t_put_digit buffer (i + 1)
      else t_put buffer (chr (48 + a)) in                               (* 104 *)
    let b := value / 10000 in
    let c := value mod 10000 in
    let d1 := shl1 (b / 100) in
    let d2 := shl1 (b mod 100) in
    let d3 := shl1 (c / 100) in
    let d4 := shl1 (c mod 100) in
    let? buffer := t_put_digit buffer d1 in                             (* 116 *)
    let? buffer := t_put_digit buffer (d1 + 1) in
    let? buffer := t_put_digit buffer d2 in
    let? buffer := t_put_digit buffer (d2 + 1) in
    let? buffer := t_put_digit buffer d3 in
    let? buffer := t_put_digit buffer (d3 + 1) in
    let? buffer := t_put_digit buffer d4 in
    t_put_digit buffer (d4 + 1).                                        (* 123 *)

(** src/detail/itoa.cpp:131-140  [i32toa].  [~u + 1] on uint32_t is [u32 (-u)];
    written as the code computes it. *)
Definition t_i32toa (value : Z) (buffer : place) : program place :=
  let u := u32 value in
  if value <? 0 then
    let? buffer := t_put buffer "-"%char in
    t_u32toa (u32 ((2 ^ 32 - 1 - u) + 1)) buffer
  else t_u32toa u buffer.

(** src/detail/itoa.cpp:145-298  [u64toa] *)
Definition t_u64toa (value : Z) (buffer : place) : program place :=
  if value <? TEN8 then                                               (* 148 *)
    let v := u32 value in
    if v <? 10000 then
      let d1 := shl1 (v / 100) in
      let d2 := shl1 (v mod 100) in
      let? buffer := t_put_digit_if (1000 <=? v) buffer d1 in           (* 154 *)
      let? buffer := t_put_digit_if (100 <=? v) buffer (d1 + 1) in
      let? buffer := t_put_digit_if (10 <=? v) buffer d2 in
      t_put_digit buffer (d2 + 1)
    else
      let b := v / 10000 in                                           (* 164 *)
      let c := v mod 10000 in
      let d1 := shl1 (b / 100) in
      let d2 := shl1 (b mod 100) in
      let d3 := shl1 (c / 100) in
      let d4 := shl1 (c mod 100) in
      let? buffer := t_put_digit_if (10000000 <=? value) buffer d1 in   (* 173 *)
      let? buffer := t_put_digit_if (1000000 <=? value) buffer (d1 + 1) in
      let? buffer := t_put_digit_if (100000 <=? value) buffer d2 in
      let? buffer := t_put_digit buffer (d2 + 1) in
      let? buffer := t_put_digit buffer d3 in
      let? buffer := t_put_digit buffer (d3 + 1) in
      let? buffer := t_put_digit buffer d4 in
      t_put_digit buffer (d4 + 1)
  else if value <? TEN16 then                                         (* 186 *)
    let v0 := u32 (value / TEN8) in
    let v1 := u32 (value mod TEN8) in
    let b0 := v0 / 10000 in
    let c0 := v0 mod 10000 in
    let d1 := shl1 (b0 / 100) in
    let d2 := shl1 (b0 mod 100) in
    let d3 := shl1 (c0 / 100) in
    let d4 := shl1 (c0 mod 100) in
    let b1 := v1 / 10000 in
    let c1 := v1 mod 10000 in
    let d5 := shl1 (b1 / 100) in
    let d6 := shl1 (b1 mod 100) in
    let d7 := shl1 (c1 / 100) in
    let d8 := shl1 (c1 mod 100) in
    let? buffer := t_put_digit_if (TEN15 <=? value) buffer d1 in        (* 208 *)
    let? buffer := t_put_digit_if (TEN14 <=? value) buffer (d1 + 1) in
    let? buffer := t_put_digit_if (TEN13 <=? value) buffer d2 in
    let? buffer := t_put_digit_if (TEN12 <=? value) buffer (d2 + 1) in
    let? buffer := t_put_digit_if (TEN11 <=? value) buffer d3 in
    let? buffer := t_put_digit_if (TEN10 <=? value) buffer (d3 + 1) in
    let? buffer := t_put_digit_if (TEN9 <=? value) buffer d4 in
    let? buffer := t_put_digit_if (TEN8 <=? value) buffer (d4 + 1) in
    let? buffer := t_put_digit buffer d5 in                             (* 225 *)
    let? buffer := t_put_digit buffer (d5 + 1) in
    let? buffer := t_put_digit buffer d6 in
    let? buffer := t_put_digit buffer (d6 + 1) in
    let? buffer := t_put_digit buffer d7 in
    let? buffer := t_put_digit buffer (d7 + 1) in
    let? buffer := t_put_digit buffer d8 in
    t_put_digit buffer (d8 + 1)
  else                                                                (* 233 *)
    let a := u32 (value / TEN16) in
    let value := value mod TEN16 in
    let? buffer :=
      if a <? 10 then t_put buffer (chr (48 + a))                       (* 238 *)
      else if a <? 100 then
        let i := shl1 a in
        let? buffer := t_put_digit buffer i in
        t_put_digit buffer (i + 1)
      else if a <? 1000 then
        let? buffer := t_put buffer (chr (48 + a / 100)) in             (* 244 *)
        let i := shl1 (a mod 100) in
        let? buffer := t_put_digit buffer i in
        t_put_digit buffer (i + 1)
      else
        let i := shl1 (a / 100) in                                    (* 250 *)
        let j := shl1 (a mod 100) in
        let? buffer := t_put_digit buffer i in
        let? buffer := t_put_digit buffer (i + 1) in
        let? buffer := t_put_digit buffer j in
        t_put_digit buffer (j + 1) in
    let v0 := u32 (value / TEN8) in                                   (* 258 *)
    let v1 := u32 (value mod TEN8) in
    let b0 := v0 / 10000 in
    let c0 := v0 mod 10000 in
    let d1 := shl1 (b0 / 100) in
    let d2 := shl1 (b0 mod 100) in
    let d3 := shl1 (c0 / 100) in
    let d4 := shl1 (c0 mod 100) in
    let b1 := v1 / 10000 in
    let c1 := v1 mod 10000 in
    let d5 := shl1 (b1 / 100) in
    let d6 := shl1 (b1 mod 100) in
    let d7 := shl1 (c1 / 100) in
    let d8 := shl1 (c1 mod 100) in
    let? buffer := t_put_digit buffer d1 in                             (* 279 *)
    let? buffer := t_put_digit buffer (d1 + 1) in
    let? buffer := t_put_digit buffer d2 in
    let? buffer := t_put_digit buffer (d2 + 1) in
    let? buffer := t_put_digit buffer d3 in
    let? buffer := t_put_digit buffer (d3 + 1) in
    let? buffer := t_put_digit buffer d4 in
    let? buffer := t_put_digit buffer (d4 + 1) in
    let? buffer := t_put_digit buffer d5 in
    let? buffer := t_put_digit buffer (d5 + 1) in
    let? buffer := t_put_digit buffer d6 in
    let? buffer := t_put_digit buffer (d6 + 1) in
    let? buffer := t_put_digit buffer d7 in
    let? buffer := t_put_digit buffer (d7 + 1) in
    let? buffer := t_put_digit buffer d8 in
    t_put_digit buffer (d8 + 1).                                        (* 294 *)

(** src/detail/itoa.cpp:303-313  [i64toa] *)
Definition t_i64toa (value : Z) (buffer : place) : program place :=
  let u := u64 value in
  if value <? 0 then
    let? buffer := t_put buffer "-"%char in
    t_u64toa (u64 ((2 ^ 64 - 1 - u) + 1)) buffer
  else t_u64toa u buffer.

(** ** int.cpp *)

(** src/int.cpp:19-110, as [FormatInt_body]: the object has its [buffer_] at [buffer]; the result is [last]. *)
Definition t_FormatInt_body (buffer : Z) (xtoa : Z -> place -> program place) (value : Z) : program Z :=
  let? last := xtoa value (buffer, 0) in
  Store (fst last) (snd last) NUL (Return (snd last)).

(** src/int.cpp:19-110, as [FormatInt_new]. *)
Definition t_FormatInt_new (p : platform) (buffer : Z) (t : int_type) (value : Z) : program Z :=
  match t with
  | I8     => t_FormatInt_body buffer t_i32toa (swrap 32 value)
  | U8     => t_FormatInt_body buffer t_u32toa (uwrap 32 value)
  | Short  => t_FormatInt_body buffer t_i32toa (swrap 32 value)
  | UShort => t_FormatInt_body buffer t_u32toa (uwrap 32 value)
  | Int    => t_FormatInt_body buffer t_i32toa (swrap 32 value)
  | UInt   => t_FormatInt_body buffer t_u32toa (uwrap 32 value)
  | Long   => if sys64 p then t_FormatInt_body buffer t_i64toa (swrap 64 value)
              else t_FormatInt_body buffer t_i32toa (swrap 32 value)
  | ULong  => if sys64 p then t_FormatInt_body buffer t_u64toa (uwrap 64 value)
              else t_FormatInt_body buffer t_u32toa (uwrap 32 value)
  | LLong  => t_FormatInt_body buffer t_i64toa (swrap 64 value)
  | ULLong => t_FormatInt_body buffer t_u64toa (uwrap 64 value)
  end.

(** [n] bytes from offset [i], as [std::string(p, n)] reads them. *)
Fixpoint t_read_n (object i : Z) (n : nat) : program bytes :=
  match n with
  | O => Return []
  | S n => Load object i (fun c => let? r := t_read_n object (i + 1) n in Return (c :: r))
  end.

(** The bytes before the first NUL.  [fuel]: the size of the array. *)
Fixpoint t_c_string (fuel : nat) (object i : Z) : program bytes :=
  match fuel with
  | O => Undefined "read past the end of an array"
  | S fuel => Load object i (fun c =>
                if code c =? 0 then Return [] else let? r := t_c_string fuel object (i + 1) in Return (c :: r))
  end.

(** ** Threads *)

Inductive answer := Text (s : bytes) | Number (v : Z).

(** What a thread is asked to do: [lexi(v)] with a [v] of type [t]; [lexi<t>(s)] with the std::string at [object], of
    [size] bytes; to read the C string at [object]. *)
Inductive task :=
| DoFormat (t : int_type) (v : Z)
| DoExtract (t : int_type) (object : Z) (size : nat)
| DoView (object : Z) (size : nat).

(** include/lexi/lexi.hpp:19-37.  [buffer]: where the thread has its FormatInt.  strtoull is taken to read all of the
    string; it may stop before. *)
Definition t_run (p : platform) (buffer : Z) (w : task) : program answer :=
  match w with
  | DoFormat t v =>
      let? last := t_FormatInt_new p buffer t v in
      let? s := t_read_n buffer 0 (Z.to_nat last) in Return (Text s)
  | DoExtract t object size =>
      let? s := t_c_string (S size) object 0 in Return (Number (ExtractInt_to p t (strtoull s)))
  | DoView object size => let? s := t_c_string (S size) object 0 in Return (Text s)
  end.

(** The memory: the bytes of each object. *)
Definition memory : Type := Z -> buf.
Definition set_object (m : memory) (o : Z) (b : buf) : memory := fun o' => if o' =? o then b else m o'.

(** The number of the object that is the [i]-th thread's FormatInt, a temporary on its stack. *)
Definition own_buffer (i : nat) : Z := - Z.of_nat i - 1.

(** At the start: the table, the strings the threads share, and the buffers, of which nothing is written. *)
Definition start_memory (strings : list bytes) : memory := fun o =>
  if o =? DIGITS_OBJECT then map Some DIGITS_TABLE
  else if o <? 0 then new_buf INTEGER_SIZE
  else match nth_error strings (Z.to_nat (o - 1)) with
       | Some s => map Some (s ++ [NUL])
       | None => []
       end.

Fixpoint start_threads (p : platform) (i : nat) (work : list task) : list (program answer) :=
  match work with
  | [] => []
  | w :: work => t_run p (own_buffer i) w :: start_threads p (S i) work
  end.

(** The next access of a thread. *)
Definition advance {A} (m : memory) (p : program A) : memory * program A :=
  match p with
  | Return _ | Undefined _ => (m, p)
  | Load o i k => match buf_read (m o) i with Ok c => (m, k c) | _ => (m, Undefined "load") end
  | Store o i c k => match buf_write (m o) i c with Ok b => (set_object m o b, k) | _ => (m, Undefined "store") end
  end.

(** The threads, after the [i]-th has made its next access. *)
Definition schedule (i : nat) (state : memory * list (program answer)) : memory * list (program answer) :=
  let '(m, ps) := state in
  match nth_error ps i with
  | None => state
  | Some p => let '(m, p) := advance m p in (m, set_nth ps i p)
  end.

(** The accesses in the order in which the threads are named. *)
Definition execute (order : list nat) (state : memory * list (program answer)) : memory * list (program answer) :=
  fold_left (fun state i => schedule i state) order state.
