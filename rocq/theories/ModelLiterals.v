(** Model of the configured literals in general: ModelText.v takes them to be without NUL. *)
From Verif Require Import Machine ModelText ModelFloat.

(** [static const char S[] = LEXI_...] (bool.cpp:19-20, null.cpp:19, float.cpp:21-23): the characters of
    the literal and a NUL; [sizeof(S)] is the length of this list. *)
Definition literal_array (l : bytes) : bytes := l ++ [NUL].

(** C17 7.24.2.4 [strncpy(&d[i], s, n)]: not more than [n] characters, those after a NUL are not copied, and
    NULs are appended until [n] characters have been written. *)
Fixpoint pad (d : buf) (i : Z) (n : nat) : outcome buf :=
  match n with O => Ok d | S n => let* d := buf_write d i NUL in pad d (i + 1) n end.
Fixpoint c_strncpy (d : buf) (i : Z) (s : bytes) (n : nat) : outcome buf :=
  match n with
  | O => Ok d
  | S n => match s with
           | [] => UB "strncpy reads past the array"
           | c :: s => let* d := buf_write d i c in
                       if code c =? 0 then pad d (i + 1) n else c_strncpy d (i + 1) s n
           end
  end.
Definition copy_literal (d : buf) (l : bytes) : outcome buf := c_strncpy d 0 (literal_array l) (length (literal_array l)).

(** C++17 24.3.4.8.2 [string == S]: [S] decays to a pointer, and its text ends before the first NUL. *)
Fixpoint c_text_of (s : bytes) : bytes :=
  match s with [] => [] | c :: s => if code c =? 0 then [] else c :: c_text_of s end.
Definition equals_array (s array : bytes) : bool := string_eqb s (c_text_of array).

(** bool.cpp:26-35 and 104-113 *)
Definition FormatBool_any (lit : literals) (b : bool) : outcome FormatText :=
  if b then let* m := copy_literal (new_buf 6) (lit_true lit) in Ok (MkFormatText m 4)
  else let* m := copy_literal (new_buf 6) (lit_false lit) in Ok (MkFormatText m 5).
Definition ExtractBool_any (lit : literals) (s : bytes) : outcome bool :=
  if equals_array s (literal_array (lit_true lit)) then Ok true
  else if equals_array s (literal_array (lit_false lit)) then Ok false
  else Throw "String is not boolean.".

(** null.cpp:25-33 and 103-106 *)
Definition FormatNull_any (lit : literals) : outcome FormatText :=
  let* m := copy_literal (new_buf 5) (lit_null lit) in Ok (MkFormatText m 4).
Definition ExtractNull_any (lit : literals) (s : bytes) : outcome unit :=
  if equals_array s (literal_array (lit_null lit)) then Ok tt else Throw """String is not null.""".

(** float.cpp:36-47: [strncpy(first, S, sizeof(S)); last += sizeof(S) - 1] *)
Definition special_any (l : bytes) : outcome FormatFloat :=
  let* b := copy_literal (new_buf FLOAT_SIZE) l in
  Ok (MkFormatFloat b 0 (Z.of_nat (length (literal_array l)) - 1)).
