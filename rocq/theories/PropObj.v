(** Property C39: copies of formatter objects. *)
From Verif Require Import Machine ModelInt ModelText ModelFloat ModelLexi ModelPlatforms ModelObj SpecObj ProofObj ProofObj2 ProofObj3.

(** In every history of constructions, copies, assignments and destructions, the formatters of
    null, booleans and characters show the text of the value they stand for, ... *)
Theorem C39_self_contained_partial : forall e h st i v s,
  run e h = Ok st -> stands_for h i = Some v -> self_contained v -> text_of e v s ->
  object_string st i = Ok s.
Proof. exact contained_string. Qed.
Print Assumptions C39_self_contained_partial.

(** ... every formatter does that was constructed from a value and never assigned to, whatever
    was copied from it, ... *)
Theorem C39_constructed : forall e h st i v s,
  run e h = Ok st -> constructed h i -> never_assigned h i ->
  stands_for h i = Some v -> text_of e v s -> object_string st i = Ok s.
Proof. exact constructed_string. Qed.
Print Assumptions C39_constructed.

(** ... and a copy does while the object it descends from is alive and stands for the same
    value; ... *)
Theorem C39_origin_alive : forall e h st i r v s,
  run e h = Ok st -> stands_for h i = Some v -> origin h i = Some r -> stands_for h r = Some v ->
  text_of e v s -> object_string st i = Ok s.
Proof. exact origin_string. Qed.
Print Assumptions C39_origin_alive.

(** ... but once that object is destroyed, reading the copy is undefined for every number. *)
Theorem C39_origin_dead : forall e h st i r v,
  run e h = Ok st -> stands_for h i = Some v -> ~ self_contained v ->
  origin h i = Some r -> stands_for h r = None ->
  object_string st i = UB "read through a dangling pointer".
Proof. exact dangling_string. Qed.
Print Assumptions C39_origin_dead.

(** ... and when it stands for another number of the same class, the copy shows as many bytes
    of that number's text as its own text has: a prefix, or the text and its terminator; a copy
    that is longer still reads bytes that were never written. *)
Theorem C39_origin_changed : forall e h st i r v w s t,
  run e h = Ok st -> stands_for h i = Some v -> ~ self_contained v ->
  origin h i = Some r -> stands_for h r = Some w -> text_of e v s -> text_of e w t ->
  object_string st i =
    if (length s <=? length t)%nat then Ok (firstn (length s) t)
    else if (length s =? S (length t))%nat then Ok (t ++ [NUL])
    else UB "read of an indeterminate byte".
Proof. exact changed_exactly. Qed.
Print Assumptions C39_origin_changed.

Theorem C39_same_class : forall e h st i r v w,
  run e h = Ok st -> stands_for h i = Some v -> origin h i = Some r -> stands_for h r = Some w ->
  class_of v = class_of w.
Proof. exact same_class. Qed.
Print Assumptions C39_same_class.

(** The histories of the theorems are those of the programs that make sense. *)
Theorem C39_runs_iff : forall e h, (exists st, run e h = Ok st) <-> sensible e h.
Proof. exact runs_iff. Qed.
Print Assumptions C39_runs_iff.

(** So the claim is false: a copy dangles, ... *)
Theorem C39_copy_refuted : exists e h st i v s,
  run e h = Ok st /\ stands_for h i = Some v /\ text_of e v s /\
  object_string st i = UB "read through a dangling pointer".
Proof. exact copy_dangles. Qed.
Print Assumptions C39_copy_refuted.

(** ... and assigning to an object changes the text of its copies. *)
Theorem C39_assignment_refuted : exists e h st i v s s',
  run e h = Ok st /\ stands_for h i = Some v /\ text_of e v s /\
  object_string st i = Ok s' /\ s' <> s.
Proof. exact assignment_changes_copy. Qed.
Print Assumptions C39_assignment_refuted.

(** The functions of lexi.hpp return formatters by value.  They work when the copy is omitted,
    and this is how ModelLexi describes them; ... *)
Theorem C39_return_elided : forall e v s, text_of e v s -> format_string_of true e v = Ok s.
Proof. exact return_elided. Qed.
Print Assumptions C39_return_elided.

Theorem C39_model_elided : forall e v, ~ (exists s, v = VString s \/ v = VCString s) ->
  lexi e v = format_string_of true e v.
Proof. exact lexi_is_elided. Qed.
Print Assumptions C39_model_elided.

(** ... when it is not omitted, numbers are read through a dangling pointer. *)
Theorem C39_return_copied : forall e v s, text_of e v s ->
  format_string_of false e v = if match v with VNull | VBool _ | VChar _ => true | _ => false end
                               then Ok s else UB "read through a dangling pointer".
Proof. exact return_copied. Qed.
Print Assumptions C39_return_copied.

(** Instances of the hypotheses. *)
Example C39_ex_chain : forall st,
  run (linux_x86_64 zero_memory) [Destroy 1; Copy 2 1; Destroy 0; Copy 1 0; Construct 0 (VBool true)] = Ok st ->
  object_string st 2 = Ok (str "true").
Proof. intros st H. injection H as <-. vm_compute. reflexivity. Qed.
Example C39_ex_origin : forall st,
  run (linux_x86_64 zero_memory) [Assign 1 0; Construct 1 (VInt Int 3); Construct 0 (VInt Int 42)] = Ok st ->
  object_string st 1 = Ok (str "42").
Proof. intros st H. injection H as <-. vm_compute. reflexivity. Qed.
Example C39_ex_changed : forall st,
  run (linux_x86_64 zero_memory) [Assign 0 2; Construct 2 (VFpos 7654); Copy 1 0; Construct 0 (VInt Int 42)] = Ok st ->
  object_string st 1 = Ok (str "76") /\ object_string st 0 = Ok (str "7654").
Proof. intros st H. injection H as <-. split; vm_compute; reflexivity. Qed.
Example C39_ex_longer : forall st,
  run (linux_x86_64 zero_memory) [Assign 0 2; Construct 2 (VFpos 7); Copy 3 1; Copy 1 0; Construct 0 (VInt Int 42)] = Ok st ->
  object_string st 3 = Ok (str "7" ++ [NUL]) /\ object_string st 0 = Ok (str "7").
Proof. intros st H. injection H as <-. split; vm_compute; reflexivity. Qed.
Example C39_ex_much_longer :
  let h := [Assign 0 2; Construct 2 (VDouble 0); Copy 1 0; Construct 0 (VDouble 4646453252143390720)] in
  (let* st := run (linux_x86_64 zero_memory) h in object_string st 1) = UB "read of an indeterminate byte" /\
  (let* st := run (linux_x86_64 zero_memory) h in object_string st 0) = Ok (str "0.0").
Proof. split; vm_compute; reflexivity. Qed.
Example C39_ex_sensible : sensible (linux_x86_64 zero_memory) [Destroy 1; Assign 0 1; Copy 1 0; Construct 0 (VEnum EChar 5)] /\
  ~ sensible (linux_x86_64 zero_memory) [Copy 1 0; Destroy 0; Construct 0 VNull].
Proof.
  split; [|cbn; intros [_ [_ [v X]]]; discriminate X]. apply runs_iff. eexists. cbn. reflexivity.
Qed.
