(** C107: threads that use the library at the same time. *)
From Verif Require Import Machine SpecApi ModelItoa ModelInt ModelText ModelIeee ModelDiyfp ModelDtoa ModelFloat ModelLexi ModelPlatforms
  ModelParallel SpecParallel ProofParallel.

(** In every order of their accesses: no two threads use the same byte, unless both read it. *)
Theorem C107_no_race : forall e point strings work order, Forall (task_ok e strings) work ->
  ~ race (snd (execute order (start_memory e strings work, start_threads e point 0 work))).
Proof. exact no_race. Qed.
Print Assumptions C107_no_race.

(** No access is undefined, and who has finished has what it gets alone. *)
Theorem C107_answers : forall e point strings work order i w, Forall (task_ok e strings) work -> nth_error work i = Some w ->
  exists p, nth_error (snd (execute order (start_memory e strings work, start_threads e point 0 work))) i = Some p /\
    (forall why, p <> Stop why) /\ (forall a, p = Return a -> alone e point strings w a).
Proof. exact answers_alone. Qed.
Print Assumptions C107_answers.

(** Nobody waits for another one: there is a number of its own accesses after which a thread has finished. *)
Theorem C107_finishes : forall e point strings work, Forall (task_ok e strings) work ->
  exists n, forall order i w, nth_error work i = Some w -> (n <= turns i order)%nat ->
    exists a, nth_error (snd (execute order (start_memory e strings work, start_threads e point 0 work))) i = Some (Return a) /\
      alone e point strings w a.
Proof. exact finishes. Qed.
Print Assumptions C107_finishes.

(** Five threads in turn, two of them with the same string; and a race of two threads that have the same array. *)
Fixpoint in_turn (n : nat) : list nat := match n with O => [] | S n => [0; 1; 2; 3; 4]%nat ++ in_turn n end.
Example C107_example :
  let e := linux_x86_64 zero_memory in
  let strings := [str "-1.5e1"] in
  let work := [DoFormat (VDouble 0xC08F3A6DD2F1A9FC); DoFormat (VBool false); DoExtract TFloat 8 6; DoJsonify 8 6; DoFormat (VDouble 0x7FD6EED0DA6B8E25)] in
  Forall (task_ok e strings) work /\
  snd (execute (in_turn 100) (start_memory e strings work, start_threads e "."%char 0 work)) =
    [Return (Text (Ok (str "-999.303625"))); Return (Text (Ok (str "false"))); Return (Value (Ok (XFloating (S754_finite true 15728640 (-20)))));
     Return (Text (Ok (str """-1.5e1"""))); Return (Text (Ok (str "6.441604808785243e307")))] /\
  (let p := t_run e "."%char (own_array 0) (DoFormat (VDouble 0xC08F3A6DD2F1A9FC)) in race [p; p]).
Proof.
  cbv zeta. split; [|split; [vm_compute; reflexivity|]].
  - repeat constructor; try (eexists; vm_compute; reflexivity); try (exists (str "-1.5e1"); vm_compute; intuition discriminate).
  - exists 0%nat, 1%nat. do 2 eexists. exists (-1), 0. split; [discriminate|]. split; [reflexivity|]. split; [reflexivity|].
    split; [do 2 eexists; vm_compute; reflexivity|right; do 2 eexists; vm_compute; reflexivity].
Qed.
