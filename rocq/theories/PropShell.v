(** C109: escaped strings as the arguments of a command and as regular expressions. *)
From Verif Require Import Machine SpecString SpecShell ModelItoa ModelInt ModelText ModelDtoa ModelLexi ModelPlatforms ProofShell.
Open Scope Z_scope.

(** What a shell reads from escaped strings with spaces between them: they without their line feeds, but the empty ones. *)
Theorem C109_arguments : forall e l ts m, Forall2 (fun s t => escape_of e (VString s) = Ok t) l ts ->
  Forall (fun s => ~ In NUL s) l -> arguments_of l m -> shell_arguments (with_spaces ts) = Some m.
Proof. exact shell_reads. Qed.
Print Assumptions C109_arguments.

Theorem C109_some_arguments : forall l, exists m, arguments_of l m.
Proof. exact arguments_total. Qed.
Print Assumptions C109_some_arguments.

(** NULs cannot be there. *)
Theorem C109_nul : forall e l ts, Forall2 (fun s t => escape_of e (VString s) = Ok t) l ts ->
  Exists (In NUL) l -> shell_arguments (with_spaces ts) = None.
Proof. exact shell_nul. Qed.
Print Assumptions C109_nul.

(** So the strings come back exactly if they are not empty and have no line feeds and no NULs. *)
Theorem C109_exactly : forall e l ts, Forall2 (fun s t => escape_of e (VString s) = Ok t) l ts ->
  (shell_arguments (with_spaces ts) = Some l <-> Forall (fun s => s <> [] /\ ~ In LF s /\ ~ In NUL s) l).
Proof. exact shell_exactly. Qed.
Print Assumptions C109_exactly.

(** Not every string comes back: two lines become one, and an empty argument is lost. *)
Theorem C109_every_string_refuted : exists e s t r, ~ In NUL s /\ escape_of e (VString s) = Ok t /\ shell_arguments t = Some r /\ r <> [s].
Proof.
  exists (linux_x86_64 Strict), (str "a" ++ [LF] ++ str "b"). eexists _, _. split; [cbn; intuition discriminate|].
  split; [vm_compute; reflexivity|]. split; [vm_compute; reflexivity|]. discriminate.
Qed.
Print Assumptions C109_every_string_refuted.

(** As a Perl-compatible regular expression every escaped string stands for itself. *)
Theorem C109_regex : forall e s t, escape_of e (VString s) = Ok t -> regex_literal t = Some s.
Proof. exact regex_reads. Qed.
Print Assumptions C109_regex.

Example C109_case : let e := linux_x86_64 Strict in
  escape_of e (VString (str "it's $5")) = Ok (str "it\'s\ \$5") /\
  shell_arguments (with_spaces [str "it\'s\ \$5"; str "\&"; str "x"]) = Some [str "it's $5"; str "&"; str "x"] /\
  escape_of e (VString []) = Ok [] /\ shell_arguments [] = Some [] /\
  shell_arguments (str "it's") = None /\ regex_literal (str "a\.b") = Some (str "a.b") /\ regex_literal (str "a.b") = None.
Proof. cbv zeta. repeat (split; [vm_compute; reflexivity|]). vm_compute. reflexivity. Qed.
