(** Proofs about stream positions with a conversion state. *)
From Coq Require Import Lia.
From Verif Require Import Machine SpecApi SpecDecimal SpecInt SpecPosition ModelItoa ModelInt ModelText ModelDtoa ModelLexi ModelPlatforms ModelPosition ProofApi.
Open Scope Z_scope.

Section positions.
Context {State : Type}.
Implicit Types x y : fpos State.

Lemma of_offset l (s0 : State) n : is_offset n -> fpos_offset (fpos_of_offset l s0 n) = Ok n.
Proof.
  intros H. destruct l; cbn [fpos_of_offset fpos_offset]; [reflexivity|]. rewrite Z.add_0_r.
  unfold is_offset in H. replace (_ && _) with true by lia. reflexivity.
Qed.

(** The text is the number. *)
Theorem position_text e x n : platform_ok (e_platform e) -> fpos_offset x = Ok n -> is_offset n ->
  exists s, lexi_fpos e x = Ok s /\ jsonify_fpos e x = Ok s /\ canonical_integer s n.
Proof.
  intros P E H. unfold lexi_fpos, jsonify_fpos. rewrite E. cbn [bind].
  destruct (fpos_formats e n P H) as (s & A & _ & _ & B & C). exists s. auto.
Qed.

(** Positions that compare equal have the same text, and only these. *)
Theorem position_equal e x y n m : platform_ok (e_platform e) -> fpos_offset x = Ok n -> fpos_offset y = Ok m -> is_offset n -> is_offset m ->
  (lexi_fpos e x = lexi_fpos e y <-> equal_positions n m).
Proof.
  intros P Ex Ey Hn Hm. unfold lexi_fpos, equal_positions. rewrite Ex, Ey. cbn [bind]. split; [|intros ->; reflexivity].
  intros L. pose proof (fpos_round_trip e "."%char n P Hn) as A. pose proof (fpos_round_trip e "."%char m P Hm) as B.
  rewrite L, B in A. injection A as A. congruence.
Qed.

(** Reading gives an equal position of the initial state. *)
Theorem position_back e l (s0 : State) x n s : platform_ok (e_platform e) -> fpos_offset x = Ok n -> is_offset n -> lexi_fpos e x = Ok s ->
  exists y, extract_fpos e l s0 s = Ok y /\ fpos_offset y = Ok n /\ fpos_state y = s0 /\ fpos_library y = l.
Proof.
  intros P E H L. unfold lexi_fpos in L. rewrite E in L. cbn [bind] in L.
  pose proof (fpos_round_trip e "."%char n P H) as R. rewrite L in R. cbn [bind extract ExtractInt] in R.
  unfold extract_fpos, ExtractInt. cbn [bind]. injection R as R. rewrite R.
  exists (fpos_of_offset l s0 n). split; [reflexivity|]. split; [apply of_offset; exact H|]. split; destruct l; reflexivity.
Qed.

(** The same place exactly if the conversion was in its initial state. *)
Theorem position_place e l (s0 : State) x n s : platform_ok (e_platform e) -> fpos_offset x = Ok n -> is_offset n -> lexi_fpos e x = Ok s ->
  exists y m, extract_fpos e l s0 s = Ok y /\ fpos_offset y = Ok m /\
    (same_place n (fpos_state x) m (fpos_state y) <-> fpos_state x = s0).
Proof.
  intros P E H L. destruct (position_back e l s0 x n s P E H L) as (y & A & B & C & _).
  exists y, n. split; [exact A|]. split; [exact B|]. rewrite C. unfold same_place. tauto.
Qed.
End positions.

Theorem state_lost : exists (x y : fpos Z) n s, let e := linux_x86_64 Strict in
  fpos_offset x = Ok n /\ is_offset n /\ lexi_fpos e x = Ok s /\ extract_fpos e TwoMembers 0 s = Ok y /\
  ~ same_place n (fpos_state x) n (fpos_state y).
Proof.
  exists (OffsetAndState 100 1), (OffsetAndState 100 0), 100, (str "100"). cbv zeta.
  split; [reflexivity|]. split; [split; [discriminate|reflexivity]|]. split; [vm_compute; reflexivity|]. split; [vm_compute; reflexivity|].
  intros [_ X]. discriminate X.
Qed.

Theorem position_offset : forall (State : Type) off file (s : State) n,
  (fpos_offset (OffsetAndState off s) = Ok n <-> n = off) /\
  (fpos_offset (OffsetFileState off file s) = Ok n <-> n = off + file /\ is_offset (off + file)).
Proof.
  intros State off file s n. unfold is_offset. cbn [fpos_offset]. split.
  - split; [intros [= ->]; reflexivity|intros ->; reflexivity].
  - destruct (Z.leb_spec (- 2 ^ 63) (off + file)), (Z.ltb_spec (off + file) (2 ^ 63)); cbn [andb];
      (split; [intros [= <-]; auto|intros [-> B]; try reflexivity; lia]).
Qed.

Theorem position_defined : forall (State : Type) e off file (s : State),
  ~ is_offset (off + file) ->
  exists w, lexi_fpos e (OffsetFileState off file s) = UB w /\ jsonify_fpos e (OffsetFileState off file s) = UB w.
Proof.
  intros State e off file s B. unfold is_offset in B. unfold lexi_fpos, jsonify_fpos. cbn [fpos_offset].
  destruct (Z.leb_spec (- 2 ^ 63) (off + file)), (Z.ltb_spec (off + file) (2 ^ 63)); cbn [andb]; try (exfalso; lia);
    eexists; split; reflexivity.
Qed.
