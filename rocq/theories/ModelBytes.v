(** Model of the memory behind the words of a BigInteger and behind the union BitwiseDouble: bytes.

    ModelBigint.v has arrays of words and takes memcpy, memmove, memset and memcmp of whole words as
    operations on them; ModelIeee.v takes the bits of a double as a number.  Here the same calls
    act on bytes, as in the C library, for a given order of the bytes. *)
From Verif Require Import Machine.

(** The order of the bytes in memory: the k-th byte in memory is byte number [nth k o], where byte 0 is
    the one of least value. *)
Definition order := list nat.
Definition little : order := [0; 1; 2; 3; 4; 5; 6; 7]%nat.
Definition big : order := [7; 6; 5; 4; 3; 2; 1; 0]%nat.
(** Doubles of the FPA unit of early ARM processors, whose integers are little-endian. *)
Definition fpa : order := [4; 5; 6; 7; 0; 1; 2; 3]%nat.

(** Storing and loading a word of 64 bits. *)
Definition in_memory (o : order) (w : Z) : bytes := map (fun i => chr (w / 2 ^ (8 * Z.of_nat i))) o.
Definition assemble (o : order) (l : bytes) : Z :=
  fold_right (fun p sum => code (snd p) * 2 ^ (8 * Z.of_nat (fst p)) + sum) 0 (combine o l).
Definition b_store (o : order) (b : buf) (i w : Z) : outcome buf := buf_write_list b i (in_memory o w).
Definition b_load (o : order) (b : buf) (i : Z) : outcome Z := let* l := buf_read_n b i 8 in Ok (assemble o l).

(** C17 7.24.2.1 [memcpy(d, s, n)] between different arrays, as in bigint.cpp:159 and 169 *)
Definition b_memcpy (d s : buf) (n : Z) : outcome buf :=
  if (0 <=? n) && (n <=? Z.of_nat (length d)) && (n <=? Z.of_nat (length s)) then
    Ok (firstn (Z.to_nat n) s ++ skipn (Z.to_nat n) d)
  else UB "memcpy out of bounds".
(** C17 7.24.6.1 [memset(d, 0, n)], as in bigint.cpp:349; memmove (bigint.cpp:334) is [buf_memmove] *)
Definition b_memset (d : buf) (n : Z) : outcome buf :=
  if (0 <=? n) && (n <=? Z.of_nat (length d)) then Ok (repeat (Some NUL) (Z.to_nat n) ++ skipn (Z.to_nat n) d)
  else UB "memset out of bounds".
(** C17 7.24.4.1 [memcmp(&d[i], &s[i], n)], as in bigint.cpp:359: the sign of the first difference, as
    unsigned char; all the bytes have to be there *)
Fixpoint b_memcmp (d s : buf) (i : Z) (n : nat) : outcome Z :=
  match n with
  | O => Ok 0
  | S n => let* a := buf_read d i in
           let* b := buf_read s i in
           let* r := b_memcmp d s (i + 1) n in
           Ok (if code a =? code b then r else if code a <? code b then -1 else 1)
  end.

(** ieee754.hpp:28-32 and ieee754.cpp:30-84, diyfp.cpp:184: a double stored, with its order of bytes, and
    an unsigned integer loaded, with its own *)
Definition bitwise (double integer : order) (u : Z) : outcome Z :=
  let* b := b_store double (new_buf 8) 0 u in b_load integer b 0.
