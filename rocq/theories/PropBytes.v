(** C103: the calls on bytes behind the words of a BigInteger and the union of ieee754.hpp do not depend
    on the order of the bytes. *)
From Coq Require Import List ZArith String Ascii Permutation.
From Verif Require Import Machine SpecMachine SpecBytes ModelDiyfp ModelBigint ModelBytes ProofBytes.
Import ListNotations.
Open Scope Z_scope.

(** [d[i]] and [d[i] = w], in whatever order the bytes of a word are. *)
Theorem C103_word : forall o, byte_order o -> forall d i, Forall word_ok d ->
  simulates (fun w => w) (word_read d i) (b_load o (image o d) (8 * i)) /\
  forall w, simulates (image o) (word_write d i w) (b_store o (image o d) (8 * i) w).
Proof. exact (fun o O d i D => conj (sim_load o O d i D) (sim_store o O d i)). Qed.
Print Assumptions C103_word.

(** memmove, memset and memcpy of [8 * n] bytes are what the model has for [n] words. *)
Theorem C103_move : forall o, byte_order o -> forall d,
  (forall dst src n, simulates (image o) (words_memmove d dst src n) (buf_memmove (image o d) (8 * dst) (8 * src) (8 * n))) /\
  (forall n, simulates (image o) (words_clear d n) (b_memset (image o d) (8 * n))) /\
  (forall s n, simulates (image o) (words_copy d s n) (b_memcpy (image o d) (image o s) (8 * n))).
Proof. exact (fun o O d => conj (sim_move o O d) (conj (sim_clear o O d) (sim_copy o O d))). Qed.
Print Assumptions C103_move.

(** memcmp of [8 * n] bytes is 0 exactly when the [n] words are equal. *)
Theorem C103_equal : forall o, byte_order o -> forall d s i n, Forall word_ok d -> Forall word_ok s ->
  match words_equal d s i n with
  | Ok r => exists c, b_memcmp (image o d) (image o s) (8 * i) (8 * n) = Ok c /\ (c = 0 <-> r = true)
  | UB _ => undefined (b_memcmp (image o d) (image o s) (8 * i) (8 * n))
  | _ => False
  end.
Proof. exact sim_equal. Qed.
Print Assumptions C103_equal.

(** The union gives the bits of every double exactly when doubles and integers have the same order. *)
Theorem C103_union : forall od oi, byte_order od -> byte_order oi ->
  (forall u, 0 <= u < 2 ^ 64 -> bitwise od oi u = Ok u) <-> od = oi.
Proof. exact union_orders. Qed.
Print Assumptions C103_union.

Theorem C103_orders : byte_order little /\ byte_order big /\ byte_order fpa.
Proof. exact orders_ok. Qed.
Print Assumptions C103_orders.

(** 1.5 has bits 3FF8000000000000.  The sign of memcmp depends on the order, so only its being 0 can be used,
    and the last of the words compared must have been written. *)
Example C103_example :
  let a := [Some 1; Some 0x0102030405060708; None] in
  let b := [Some 256; Some 0x0102030405060708; None] in
  in_memory little 0x0102030405060708 = map chr [8; 7; 6; 5; 4; 3; 2; 1] /\
  in_memory big 0x0102030405060708 = map chr [1; 2; 3; 4; 5; 6; 7; 8] /\
  bitwise little little 0x3FF8000000000000 = Ok 0x3FF8000000000000 /\
  bitwise big big 0x3FF8000000000000 = Ok 0x3FF8000000000000 /\
  bitwise fpa fpa 0x3FF8000000000000 = Ok 0x3FF8000000000000 /\
  bitwise fpa little 0x3FF8000000000000 = Ok 0x3FF80000 /\
  b_memcmp (image little a) (image little b) 0 16 = Ok 1 /\
  b_memcmp (image big a) (image big b) 0 16 = Ok (-1) /\
  b_memcmp (image little a) (image little b) 8 8 = Ok 0 /\
  b_memcmp (image big a) (image big b) 0 24 = UB "read of an indeterminate byte" /\
  words_equal a b 0 2 = Ok false /\
  b_load big (image big b) 0 = Ok 256 /\
  (let* m := buf_memmove (image big b) 8 0 8 in b_load big m 8) = Ok 256 /\
  (let* m := b_memset (image big b) 16 in b_load big m 8) = Ok 0.
Proof. repeat (split; [vm_compute; reflexivity|]). vm_compute. reflexivity. Qed.
