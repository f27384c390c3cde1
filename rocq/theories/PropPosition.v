(** Property C98: positions in streams of multi-byte characters. *)
From Verif Require Import Machine SpecApi SpecDecimal SpecInt SpecPosition ModelItoa ModelInt ModelText ModelDtoa ModelLexi ModelPlatforms
  ModelPosition ProofPosition.
Open Scope Z_scope.

(** C98 is false: the state of the conversion is lost. *)
Theorem C98_state_refuted : exists (x y : fpos Z) n s, let e := linux_x86_64 Strict in
  fpos_offset x = Ok n /\ is_offset n /\ lexi_fpos e x = Ok s /\ extract_fpos e TwoMembers 0 s = Ok y /\
  ~ same_place n (fpos_state x) n (fpos_state y).
Proof. exact state_lost. Qed.
Print Assumptions C98_state_refuted.

Theorem C98_text : forall (State : Type) e (x : fpos State) n, platform_ok (e_platform e) -> fpos_offset x = Ok n -> is_offset n ->
  exists s, lexi_fpos e x = Ok s /\ jsonify_fpos e x = Ok s /\ canonical_integer s n.
Proof. exact (@position_text). Qed.
Print Assumptions C98_text.

Theorem C98_equal : forall (State : Type) e (x y : fpos State) n m, platform_ok (e_platform e) -> fpos_offset x = Ok n -> fpos_offset y = Ok m ->
  is_offset n -> is_offset m -> (lexi_fpos e x = lexi_fpos e y <-> equal_positions n m).
Proof. exact (@position_equal). Qed.
Print Assumptions C98_equal.

(** What is read compares equal, in whichever library ... *)
Theorem C98_back : forall (State : Type) e l (s0 : State) (x : fpos State) n s, platform_ok (e_platform e) -> fpos_offset x = Ok n -> is_offset n ->
  lexi_fpos e x = Ok s ->
  exists y, extract_fpos e l s0 s = Ok y /\ fpos_offset y = Ok n /\ fpos_state y = s0 /\ fpos_library y = l.
Proof. exact (@position_back). Qed.
Print Assumptions C98_back.

(** ... and is the same place exactly if the state was the initial one. *)
Theorem C98_place : forall (State : Type) e l (s0 : State) (x : fpos State) n s, platform_ok (e_platform e) -> fpos_offset x = Ok n -> is_offset n ->
  lexi_fpos e x = Ok s ->
  exists y m, extract_fpos e l s0 s = Ok y /\ fpos_offset y = Ok m /\
    (same_place n (fpos_state x) m (fpos_state y) <-> fpos_state x = s0).
Proof. exact (@position_place). Qed.
Print Assumptions C98_place.

(** The offset is the sum of the members, and there is none, and no text, if the sum is out of range. *)
Theorem C98_offset : forall (State : Type) off file (s : State) n,
  (fpos_offset (OffsetAndState off s) = Ok n <-> n = off) /\
  (fpos_offset (OffsetFileState off file s) = Ok n <-> n = off + file /\ is_offset (off + file)).
Proof. exact position_offset. Qed.
Print Assumptions C98_offset.
Theorem C98_undefined : forall (State : Type) e off file (s : State),
  ~ is_offset (off + file) ->
  exists w, lexi_fpos e (OffsetFileState off file s) = UB w /\ jsonify_fpos e (OffsetFileState off file s) = UB w.
Proof. exact position_defined. Qed.
Print Assumptions C98_undefined.

(** A position from Microsoft's file buffer, whose offset member is zero. *)
Example C98_case : let e := windows_x64 Strict in
  lexi_fpos e (OffsetFileState 0 5000000000 true) = Ok (str "5000000000") /\
  lexi_fpos e (OffsetFileState (-1) 0 false) = Ok (str "-1") /\
  extract_fpos e ThreeMembers false (str "5000000000") = Ok (OffsetFileState 5000000000 0 false) /\
  fpos_offset (OffsetFileState 1 (2 ^ 63 - 1) true) = UB "overflow in fpos".
Proof. cbv zeta. repeat (split; [vm_compute; reflexivity|]). vm_compute. reflexivity. Qed.
