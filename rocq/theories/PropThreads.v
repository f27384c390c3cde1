(** C106: threads that format and extract integers at the same time. *)
From Verif Require Import Machine SpecApi ModelItoa ModelInt ModelText ModelIeee ModelDiyfp ModelDtoa ModelFloat ModelLexi ModelPlatforms
  ModelThreads SpecThreads ProofThreads.

(** In every order of their accesses: no two threads use the same byte, unless both read it. *)
Theorem C106_no_race : forall e strings work order, platform_ok (e_platform e) -> Forall (task_ok (e_platform e) strings) work ->
  ~ race (snd (execute order (start_memory strings, start_threads (e_platform e) 0 work))).
Proof. exact no_race. Qed.
Print Assumptions C106_no_race.

(** No access is undefined, and who has finished has what it gets alone. *)
Theorem C106_answers : forall e strings work order i w, platform_ok (e_platform e) -> Forall (task_ok (e_platform e) strings) work ->
  nth_error work i = Some w ->
  exists p, nth_error (snd (execute order (start_memory strings, start_threads (e_platform e) 0 work))) i = Some p /\
    (forall why, p <> Undefined why) /\ (forall a, p = Return a -> alone e strings w a).
Proof. exact answers_alone. Qed.
Print Assumptions C106_answers.

(** Nobody waits for another one: a thread has finished after a number of accesses of its own. *)
Theorem C106_finishes : forall e strings work order i w, platform_ok (e_platform e) -> Forall (task_ok (e_platform e) strings) work ->
  nth_error work i = Some w -> (enough w <= turns i order)%nat ->
  exists a, nth_error (snd (execute order (start_memory strings, start_threads (e_platform e) 0 work))) i = Some (Return a) /\
    alone e strings w a.
Proof. exact finishes. Qed.
Print Assumptions C106_finishes.

(** Three threads in turn, two of them with the same string; and a race of two threads that have the same buffer. *)
Fixpoint in_turn (n : nat) : list nat := match n with O => [] | S n => [0; 1; 2]%nat ++ in_turn n end.
Example C106_example :
  let e := linux_x86_64 Strict in
  let strings := [str "-00128 bytes"] in
  let work := [DoFormat LLong (-9223372036854775808); DoExtract I8 1 12; DoView 1 12] in
  Forall (task_ok (e_platform e) strings) work /\
  snd (execute (in_turn 64) (start_memory strings, start_threads (e_platform e) 0 work)) =
    [Return (Text (str "-9223372036854775808")); Return (Number (-128)); Return (Text (str "-00128 bytes"))] /\
  (let p := t_run (e_platform e) (own_buffer 0) (DoFormat Int (-1)) in race [p; p]) /\
  turns 1 (in_turn 3) = 3%nat.
Proof.
  cbv zeta. split; [|split; [vm_compute; reflexivity|split; [|vm_compute; reflexivity]]].
  - repeat constructor; [vm_compute; discriminate|exists (str "-00128 bytes"); vm_compute; intuition discriminate|exists (str "-00128 bytes"); vm_compute; intuition discriminate].
  - exists 0%nat, 1%nat. do 2 eexists. exists (-1), 0. split; [discriminate|]. split; [reflexivity|]. split; [reflexivity|]. split; [do 2 eexists; vm_compute; reflexivity|right; do 2 eexists; vm_compute; reflexivity].
Qed.
