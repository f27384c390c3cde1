(** C104: what is printed and read for whatever literals are configured, with any lengths and characters. *)
From Coq Require Import List ZArith String Ascii.
From Verif Require Import Machine SpecMachine SpecLiterals ModelText ModelFloat ModelLiterals ProofLiterals.
Import ListNotations.
Open Scope Z_scope.

(** Every literal has one text for C. *)
Theorem C104_text : forall l, (exists c, c_text l c) /\ forall c c', c_text l c -> c_text l c' -> c = c'.
Proof. exact (fun l => conj (text_exists l) (text_unique l)). Qed.
Print Assumptions C104_text.

(** Booleans: four characters for true and five for false, filled up with NUL; undefined if the literal has more
    than five characters or too few for that. *)
Theorem C104_bool : forall lit (b : bool) c,
  let l := if b then lit_true lit else lit_false lit in let n := if b then 4%nat else 5%nat in c_text l c ->
  ((length l <= 5)%nat /\ (n <= S (length l))%nat -> (let* o := FormatBool_any lit b in FormatText_string o) = Ok (firstn n (c ++ repeat NUL 6))) /\
  (~ ((length l <= 5)%nat /\ (n <= S (length l))%nat) -> undefined (let* o := FormatBool_any lit b in FormatText_string o)).
Proof. exact bool_text. Qed.
Print Assumptions C104_bool.

Theorem C104_null : forall lit c, c_text (lit_null lit) c ->
  (length (lit_null lit) = 4%nat \/ length (lit_null lit) = 3%nat -> (let* o := FormatNull_any lit in FormatText_string o) = Ok (firstn 4 (c ++ repeat NUL 5))) /\
  (~ (length (lit_null lit) = 4%nat \/ length (lit_null lit) = 3%nat) -> undefined (let* o := FormatNull_any lit in FormatText_string o)).
Proof. exact null_text. Qed.
Print Assumptions C104_null.

(** NaN and the infinities: any literal of up to 29 characters, with NULs for what is behind its first NUL. *)
Theorem C104_special : forall l c, c_text l c ->
  ((length l < 30)%nat -> (let* o := special_any l in FormatFloat_string o) = Ok (c ++ repeat NUL (length l - length c))) /\
  (~ (length l < 30)%nat -> undefined (let* o := special_any l in FormatFloat_string o)).
Proof. exact special_text. Qed.
Print Assumptions C104_special.

(** [c_str()] gives the text of every literal that fits in the buffer, also where [string()] does not. *)
Theorem C104_view : forall lit,
  (forall (b : bool) c, c_text (if b then lit_true lit else lit_false lit) c -> (length (if b then lit_true lit else lit_false lit) <= 5)%nat ->
    (let* o := FormatBool_any lit b in FormatText_c_str o) = Ok c) /\
  (forall c, c_text (lit_null lit) c -> (length (lit_null lit) <= 4)%nat -> (let* o := FormatNull_any lit in FormatText_c_str o) = Ok c) /\
  (forall l c, c_text l c -> (length l <= 29)%nat -> (let* o := special_any l in FormatFloat_c_str o) = Ok c).
Proof. exact views. Qed.
Print Assumptions C104_view.

(** Extraction takes the text of the literal and nothing else; where both booleans have the same, it is true. *)
Theorem C104_extract : forall lit s,
  ((ExtractBool_any lit s = Ok true <-> c_text (lit_true lit) s) /\
   (ExtractBool_any lit s = Ok false <-> c_text (lit_false lit) s /\ ~ c_text (lit_true lit) s) /\
   (ExtractBool_any lit s = Throw "String is not boolean." <-> ~ c_text (lit_false lit) s /\ ~ c_text (lit_true lit) s)) /\
  ((ExtractNull_any lit s = Ok tt <-> c_text (lit_null lit) s) /\
   (ExtractNull_any lit s = Throw """String is not null.""" <-> ~ c_text (lit_null lit) s)).
Proof. exact (fun lit s => conj (extract_bool lit s) (extract_null lit s)). Qed.
Print Assumptions C104_extract.

(** Exactly which literals round-trip. *)
Theorem C104_bool_round : forall lit ct cf, c_text (lit_true lit) ct -> c_text (lit_false lit) cf ->
  ((forall b, (let* s := (let* o := FormatBool_any lit b in FormatText_string o) in ExtractBool_any lit s) = Ok b) <->
   length ct = 4%nat /\ (length (lit_true lit) <= 5)%nat /\ length cf = 5%nat /\ (length (lit_false lit) <= 5)%nat).
Proof. exact bool_round. Qed.
Print Assumptions C104_bool_round.

Theorem C104_null_round : forall lit c, c_text (lit_null lit) c ->
  ((let* s := (let* o := FormatNull_any lit in FormatText_string o) in ExtractNull_any lit s) = Ok tt <-> lit_null lit = c /\ length c = 4%nat).
Proof. exact null_round. Qed.
Print Assumptions C104_null_round.

(** Without NUL these are the functions that the other properties are about. *)
Theorem C104_same : forall lit, ~ In NUL (lit_true lit) -> ~ In NUL (lit_false lit) -> ~ In NUL (lit_null lit) ->
  (forall b, FormatBool_any lit b = FormatBool_new lit b) /\ (forall s, ExtractBool_any lit s = ExtractBool lit s) /\
  FormatNull_any lit = FormatNull_new lit /\ (forall s, ExtractNull_any lit s = ExtractNull lit s) /\
  (forall l, ~ In NUL l -> special_any l = special l).
Proof. exact plain. Qed.
Print Assumptions C104_same.

(** The defaults; yes and no: yes has a NUL behind it and no is not defined; oui, with a NUL written in the literal. *)
Example C104_example :
  let text lit b := let* o := FormatBool_any lit b in FormatText_string o in
  let short := Literals (str "nil") (str "yes") (str "no") [] [] [] in
  let nul := Literals (str "nil" ++ [NUL]) (str "si!?" ++ [NUL]) (str "o" ++ NUL :: str "ui!") [] [] [] in
  text default_literals true = Ok (str "true") /\ text default_literals false = Ok (str "false") /\
  text short true = Ok (str "yes" ++ [NUL]) /\ text short false = UB "read of an indeterminate byte" /\
  (let* o := FormatBool_any short false in FormatText_c_str o) = Ok (str "no") /\
  text nul true = Ok (str "si!?") /\ text nul false = Ok (str "o" ++ repeat NUL 4) /\
  ExtractBool_any nul (str "o") = Ok false /\ ExtractBool_any nul (str "o" ++ repeat NUL 4) = Throw "String is not boolean." /\
  (let* o := FormatNull_any nul in FormatText_string o) = Ok (str "nil" ++ [NUL]) /\
  text (Literals [] (str "truthy") [] [] [] []) true = UB "buffer write out of bounds" /\
  (let* o := special_any (str "not a number") in FormatFloat_string o) = Ok (str "not a number") /\
  (let* o := special_any (repeat "x"%char 30) in FormatFloat_string o) = UB "buffer write out of bounds".
Proof. repeat (split; [vm_compute; reflexivity|]). vm_compute. reflexivity. Qed.
