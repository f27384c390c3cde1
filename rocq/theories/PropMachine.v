(** Property C100: the machine of the model checks every access. *)
From Verif Require Import Machine SpecMachine ModelDiyfp ModelBigint ProofMachine.
Open Scope Z_scope.

(** Reading gives what is there; reading outside, or what was never written, is undefined. *)
Theorem C100_read : forall b i, (forall c, buf_read b i = Ok c <-> at_offset b i = Holds c) /\
  ((forall c, at_offset b i <> Holds c) -> undefined (buf_read b i)).
Proof. exact read_byte. Qed.
Print Assumptions C100_read.

(** Writing changes the one element; outside it is undefined. *)
Theorem C100_write : forall b i c,
  (inside i 1 (Z.of_nat (length b)) -> exists b', buf_write b i c = Ok b' /\ replaced b b' i 1 (fun _ => Holds c)) /\
  (~ inside i 1 (Z.of_nat (length b)) -> undefined (buf_write b i c)).
Proof. exact write_byte. Qed.
Print Assumptions C100_write.

(** memmove copies as if through another array. *)
Theorem C100_move : forall b dst src n,
  (inside dst n (Z.of_nat (length b)) /\ inside src n (Z.of_nat (length b)) ->
   exists b', buf_memmove b dst src n = Ok b' /\ replaced b b' dst n (fun j => at_offset b (src + j))) /\
  (~ (inside dst n (Z.of_nat (length b)) /\ inside src n (Z.of_nat (length b))) -> undefined (buf_memmove b dst src n)).
Proof. exact move_bytes. Qed.
Print Assumptions C100_move.

(** A string of n bytes, and a C string. *)
Theorem C100_bytes : forall n b i s, buf_read_n b i n = Ok s <->
  length s = n /\ forall j, (j < n)%nat -> at_offset b (i + Z.of_nat j) = Holds (nth j s NUL).
Proof. exact read_bytes. Qed.
Print Assumptions C100_bytes.

Theorem C100_c_string : forall b i s, buf_c_string (S (length b)) b i = Ok s <->
  (forall j, (j < length s)%nat -> at_offset b (i + Z.of_nat j) = Holds (nth j s NUL) /\ nth j s NUL <> NUL) /\
  at_offset b (i + Z.of_nat (length s)) = Holds NUL.
Proof. exact read_c_string. Qed.
Print Assumptions C100_c_string.

(** Writing a text. *)
Theorem C100_text : forall b i s,
  (inside i (Z.of_nat (length s)) (Z.of_nat (length b)) -> exists b', buf_write_list b i s = Ok b' /\
    replaced b b' i (Z.of_nat (length s)) (fun j => Holds (nth (Z.to_nat j) s NUL))) /\
  (s <> [] -> ~ inside i (Z.of_nat (length s)) (Z.of_nat (length b)) -> undefined (buf_write_list b i s)).
Proof. exact write_text. Qed.
Print Assumptions C100_text.

(** [*p++ = c], and a new array. *)
Theorem C100_cursor : forall k c,
  (inside (cpos k) 1 (Z.of_nat (length (cbuf k))) -> exists k', put k c = Ok k' /\ cpos k' = cpos k + 1 /\
    replaced (cbuf k) (cbuf k') (cpos k) 1 (fun _ => Holds c)) /\
  (~ inside (cpos k) 1 (Z.of_nat (length (cbuf k))) -> undefined (put k c)).
Proof. exact put_steps. Qed.
Print Assumptions C100_cursor.

Theorem C100_fresh : forall n i, at_offset (new_buf n) i = if (0 <=? i) && (i <? Z.of_nat n) then Unwritten else Outside.
Proof. exact fresh. Qed.
Print Assumptions C100_fresh.

(** The same for the words of a big integer. *)
Theorem C100_read_word : forall d i, (forall w, word_read d i = Ok w <-> at_offset d i = Holds w) /\
  ((forall w, at_offset d i <> Holds w) -> undefined (word_read d i)).
Proof. exact read_word. Qed.
Print Assumptions C100_read_word.

Theorem C100_write_word : forall d i w,
  (inside i 1 (Z.of_nat (length d)) -> exists d', word_write d i w = Ok d' /\ replaced d d' i 1 (fun _ => Holds w)) /\
  (~ inside i 1 (Z.of_nat (length d)) -> undefined (word_write d i w)).
Proof. exact write_word. Qed.
Print Assumptions C100_write_word.

Theorem C100_move_words : forall d dst src n,
  (inside dst n (Z.of_nat (length d)) /\ inside src n (Z.of_nat (length d)) ->
   exists d', words_memmove d dst src n = Ok d' /\ replaced d d' dst n (fun j => at_offset d (src + j))) /\
  (~ (inside dst n (Z.of_nat (length d)) /\ inside src n (Z.of_nat (length d))) -> undefined (words_memmove d dst src n)).
Proof. exact move_words. Qed.
Print Assumptions C100_move_words.

Theorem C100_clear_words : forall d n,
  (inside 0 n (Z.of_nat (length d)) -> exists d', words_clear d n = Ok d' /\ replaced d d' 0 n (fun _ => Holds 0)) /\
  (~ inside 0 n (Z.of_nat (length d)) -> undefined (words_clear d n)).
Proof. exact clear_words. Qed.
Print Assumptions C100_clear_words.

Theorem C100_copy_words : forall d s n,
  (inside 0 n (Z.of_nat (length d)) /\ inside 0 n (Z.of_nat (length s)) ->
   exists d', words_copy d s n = Ok d' /\ replaced d d' 0 n (at_offset s)) /\
  (~ (inside 0 n (Z.of_nat (length d)) /\ inside 0 n (Z.of_nat (length s))) -> undefined (words_copy d s n)).
Proof. exact copy_words. Qed.
Print Assumptions C100_copy_words.

(** Conversions give the congruent number of the type; shifts by 64 and more, or by less
    than 0, are undefined. *)
Theorem C100_widths : forall x, unsigned_of 8 x (u8 x) /\ unsigned_of 16 x (u16 x) /\ unsigned_of 32 x (u32 x) /\ unsigned_of 64 x (u64 x).
Proof. exact widths. Qed.
Print Assumptions C100_widths.

Theorem C100_conversions : forall w x, 0 < w -> unsigned_of w x (uwrap w x) /\ signed_of w x (swrap w x).
Proof. exact conversions. Qed.
Print Assumptions C100_conversions.

Theorem C100_characters : forall z c, unsigned_of 8 z (code (chr z)) /\ chr (code c) = c /\ 0 <= code c < 256 /\
  char_value false c = code c /\ signed_of 8 (code c) (char_value true c).
Proof. exact characters. Qed.
Print Assumptions C100_characters.

Theorem C100_shifts : forall x n, 0 <= x < 2 ^ 64 ->
  (0 <= n < 64 -> (exists y, shl64 x n = Ok y /\ unsigned_of 64 (x * 2 ^ n) y) /\ shr64 x n = Ok (x / 2 ^ n)) /\
  (~ 0 <= n < 64 -> undefined (shl64 x n) /\ undefined (shr64 x n)).
Proof. exact shifts_checked. Qed.
Print Assumptions C100_shifts.

(** An overlapping move, the C string after it, and three accesses that are refused. *)
Example C100_case : exists b,
  (let* b0 := buf_write_list (new_buf 8) 0 (str "12345") in
   let* b1 := buf_memmove b0 2 1 4 in
   let* b2 := buf_write b1 1 "."%char in buf_write b2 6 NUL) = Ok b /\
  buf_c_string (S (length b)) b 0 = Ok (str "1.2345") /\ at_offset b 6 = Holds NUL /\ at_offset b 7 = Unwritten /\ at_offset b 8 = Outside /\
  buf_read b 7 = UB "read of an indeterminate byte" /\ buf_read b 8 = UB "buffer read out of bounds" /\
  buf_memmove b 3 2 6 = UB "memmove out of bounds" /\ shl64 1 64 = UB "shift out of range" /\ swrap 8 200 = -56.
Proof. eexists. split; [vm_compute; reflexivity|]. repeat (split; [vm_compute; reflexivity|]). vm_compute. reflexivity. Qed.
