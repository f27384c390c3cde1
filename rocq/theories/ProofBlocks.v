(** The sizes of the blocks that are asked for. *)
From Coq Require Import Psatz.
From Verif Require Import Machine LibMachine SpecString SpecMemory SpecBlocks ModelItoa ModelInt ModelString ModelText ModelIeee ModelDiyfp
  ModelDtoa ModelFloat ModelLexi ModelMemory ProofString ProofBig2 ProofMemory.
From Verif Require SpecMore ProofText ProofMore3.
Ltac Zify.zify_post_hook ::= idtac.

(** [m] returns, whatever was allocated before. *)
Definition done {A} (m : counting A) (Q : A -> Prop) : Prop := forall k, exists a k', m k = (Ok a, k') /\ Q a.

Lemma done_then {A B} (m : counting A) (f : A -> counting B) (P : A -> Prop) (Q : B -> Prop) :
  done m P -> (forall a, P a -> done (f a) Q) -> done (then_ m f) Q.
Proof.
  intros H N k. destruct (H k) as (a & k' & E & HP). destruct (N a HP k') as (b & k2 & E2 & HQ).
  exists b, k2. unfold then_. rewrite E. auto.
Qed.
Lemma done_returns {A} (a : A) (Q : A -> Prop) : Q a -> done (returns a) Q.
Proof. intros H k. exists a, k. auto. Qed.
Lemma done_lift {A} o (a : A) (Q : A -> Prop) : o = Ok a -> Q a -> done (lift o) Q.
Proof. intros -> H k. exists a, k. auto. Qed.
Lemma done_mono {A} (m : counting A) (P Q : A -> Prop) : done m P -> (forall a, P a -> Q a) -> done m Q.
Proof. intros H N k. destruct (H k) as (a & k' & E & HP). exists a, k'. auto. Qed.

Section Blocks.
Context (has : Z -> Z -> bool) (lib : string_library) (OK : library_ok lib) (MO : moderate lib) (limit : Z)
  (LM : limit <= sl_max lib) (HB : blocks (2 * limit + 16) has).

Lemma new_done s : size s <= limit -> done (t_new has lib s) (fun t => t_bytes t = s /\ fits lib t).
Proof.
  intros L k. unfold t_new. change (Z.of_nat (length s)) with (size s). pose proof (size_nonneg s).
  destruct OK as ((IN & IM) & _ & X & _). destruct MO as [M _].
  destruct (Z.ltb_spec (sl_max lib) (size s)); [lia|]. unfold fits.
  destruct (Z.leb_spec (size s) (sl_inside lib)); [eexists _, _; split; [reflexivity|cbn; auto]|].
  specialize (X (size s) ltac:(lia)). specialize (M (size s) ltac:(lia)).
  unfold then_, allocate. rewrite HB by lia. eexists _, _; split; [reflexivity|cbn; split; [auto|lia]].
Qed.

Lemma reserve_done t n : fits lib t -> n <= limit -> done (t_reserve has lib t n) (fun t' => t_bytes t' = t_bytes t /\ n <= t_capacity t' /\ fits lib t').
Proof.
  intros [F1 F2] L k. unfold t_reserve. pose proof (size_nonneg (t_bytes t)). unfold fits.
  destruct (Z.leb_spec n (t_capacity t)); [eexists _, _; split; [reflexivity|auto]|].
  destruct (Z.ltb_spec (sl_max lib) n); [lia|].
  destruct OK as (_ & _ & _ & G). destruct (G (t_capacity t) n ltac:(lia) ltac:(lia)) as [G1 G2].
  destruct MO as [_ M]. specialize (M (t_capacity t) n ltac:(lia) ltac:(lia)).
  unfold then_, allocate. rewrite HB by lia. eexists _, _; split; [reflexivity|cbn; split; [auto|lia]].
Qed.

Definition extends (t : text) (s : bytes) (t' : text) : Prop := t_bytes t' = t_bytes t ++ s /\ fits lib t'.

Lemma append_done t s : fits lib t -> size (t_bytes t) + size s <= limit -> done (t_append has lib t s) (extends t s).
Proof.
  intros F L. unfold t_append. change (t_size t) with (size (t_bytes t)). change (Z.of_nat (length s)) with (size s).
  eapply done_then; [apply reserve_done; auto|]. intros t' (E & C & F'). apply done_returns.
  unfold extends, fits in *. cbn. rewrite E, size_app. split; [reflexivity|lia].
Qed.
Lemma prepend_done t s : fits lib t -> size (t_bytes t) + size s <= limit ->
  done (t_prepend has lib s t) (fun t' => t_bytes t' = s ++ t_bytes t /\ fits lib t').
Proof.
  intros F L. unfold t_prepend. change (t_size t) with (size (t_bytes t)). change (Z.of_nat (length s)) with (size s).
  eapply done_then; [apply reserve_done; auto|]. intros t' (E & C & F'). apply done_returns.
  unfold fits in *. cbn. rewrite E, size_app. split; [reflexivity|lia].
Qed.

Lemma extends_then t a b (m : counting text) (f : text -> counting text) : done m (extends t a) ->
  (forall t', extends t a t' -> done (f t') (extends t' b)) -> done (then_ m f) (extends t (a ++ b)).
Proof.
  intros H N. eapply done_then; [exact H|]. intros t' HE. eapply done_mono; [apply N; auto|].
  intros t2 [E2 F2]. split; [|auto]. rewrite E2, (proj1 HE), app_assoc. reflexivity.
Qed.

(** A letter is appended. *)
Definition step_done (step : text -> ascii -> counting text) (enc : ascii -> bytes) : Prop :=
  forall dst c, fits lib dst -> size (t_bytes dst) + size (enc c) <= limit -> done (step dst c) (extends dst (enc c)).

Lemma two_done dst a b : fits lib dst -> size (t_bytes dst) + size (a ++ b) <= limit ->
  done (then_ (t_append has lib dst a) (fun dst => t_append has lib dst b)) (extends dst (a ++ b)).
Proof.
  intros F L. rewrite size_app in L. pose proof (size_nonneg b). apply extends_then; [apply append_done; auto; lia|].
  intros t' [E F']. apply append_done; auto. rewrite E, size_app. lia.
Qed.

Lemma escape_step_done cs : step_done (m_escape_step has lib cs) (eenc cs).
Proof.
  intros dst c F L. unfold m_escape_step, eenc in *. destruct (escape_needed cs c).
  - apply (two_done dst ["\"%char] [c]); auto.
  - intros k. unfold then_, returns. apply (append_done dst [c]); auto.
Qed.

Lemma lift_then {A B} (a : A) (f : A -> counting B) Q : done (f a) Q -> done (then_ (lift (Ok a)) f) Q.
Proof. intros H k. apply H. Qed.

Lemma jsonify_step_done cs : step_done (m_jsonify_step has lib cs) jenc.
Proof.
  intros dst c F L. pose proof (jsonify_step_nil cs c) as J. unfold jsonify_step in J. unfold m_jsonify_step.
  set (x := char_value cs c) in *. set (j := jenc c) in *. clearbody j.
  destruct (x =? 8); [injection J as <-; apply (two_done _ ["\"%char] _); auto|].
  destruct (x =? 12); [injection J as <-; apply (two_done _ ["\"%char] _); auto|].
  destruct (x =? 10); [injection J as <-; apply (two_done _ ["\"%char] _); auto|].
  destruct (x =? 13); [injection J as <-; apply (two_done _ ["\"%char] _); auto|].
  destruct (x =? 9); [injection J as <-; apply (two_done _ ["\"%char] _); auto|].
  destruct (x =? 92); [injection J as <-; apply (two_done _ ["\"%char] _); auto|].
  destruct (x =? 34); [injection J as <-; apply (two_done _ ["\"%char] _); auto|].
  destruct ((x >=? 0) && (x <=? 31)); [|injection J as <-; apply append_done; auto].
  destruct (hex_at (Z.shiftr x 4)) as [h|w|w|]; try discriminate J. cbn [bind] in J.
  destruct (hex_at (Z.land x 15)) as [l|w|w|]; try discriminate J. cbn [bind] in J. injection J as <-.
  cbn [app] in *. change (str "\u00") with (["\"; "u"; "0"; "0"])%char in *. cbn [app] in *.
  set (a := ["\"; "u"; "0"; "0"]%char) in *. change ("\" :: "u" :: "0" :: "0" :: [h; l])%char with (a ++ [h] ++ [l]) in *.
  rewrite !size_app in *. pose proof (size_nonneg a). change (size [h]) with 1 in *. change (size [l]) with 1 in *.
  apply extends_then; [apply append_done; auto; lia|]. intros t' [E F']. apply lift_then.
  apply extends_then; [apply append_done; auto; rewrite E, size_app; change (size [h]) with 1; lia|].
  intros t2 [E2 F2]. apply lift_then.
  apply append_done; auto. rewrite E2, E, !size_app. change (size [h]) with 1. change (size [l]) with 1. lia.
Qed.

Lemma loop_done step enc src : step_done step enc -> forall dst, fits lib dst ->
  size (t_bytes dst) + size (flat_map enc src) <= limit -> done (loop_chars step src dst) (extends dst (flat_map enc src)).
Proof.
  intros SO. induction src as [|c src IH]; intros dst F L; cbn [loop_chars flat_map] in *.
  - apply done_returns. split; [rewrite app_nil_r; reflexivity|auto].
  - rewrite size_app in *. pose proof (size_nonneg (flat_map enc src)).
    apply extends_then; [apply SO; auto; lia|]. intros t' [E F']. apply IH; auto. rewrite E, size_app. lia.
Qed.

Lemma shrink_done t : fits lib t -> size (t_bytes t) <= limit -> done (t_shrink_to_fit has lib t) (fun t' => t_bytes t' = t_bytes t /\ fits lib t').
Proof.
  intros F L k. unfold t_shrink_to_fit. destruct OK as ((IN & IM) & _ & X & _). destruct MO as [M _].
  pose proof (size_nonneg (t_bytes t)). change (t_size t) with (size (t_bytes t)). pose proof F as [F1 F2].
  specialize (X (size (t_bytes t)) ltac:(lia)). specialize (M (size (t_bytes t)) ltac:(lia)).
  destruct (sl_shrink lib); [apply done_returns; auto| |];
    (destruct (Z.leb_spec (t_capacity t) (sl_inside lib)); [apply done_returns; auto|];
     destruct (Z.leb_spec (size (t_bytes t)) (sl_inside lib)); [apply done_returns; unfold fits; cbn; split; [auto|lia]|];
     destruct (Z.leb_spec (t_capacity t) (sl_exact lib (size (t_bytes t)))); [apply done_returns; auto|];
     unfold allocate; rewrite HB by lia; eexists _, _; split; [reflexivity|unfold fits; cbn; split; [auto|lia]]).
Qed.

Lemma empty_fits : fits lib (t_empty lib).
Proof. destruct OK as ((IN & IM) & _). unfold fits, t_empty, size. cbn. lia. Qed.

Lemma whole_done step enc src : step_done step enc -> size (flat_map enc src) <= limit -> double_size lib src <= limit ->
  done (then_ (t_reserve has lib (t_empty lib) (double_size lib src)) (fun dst => then_ (loop_chars step src dst) (t_shrink_to_fit has lib)))
    (fun t => t_bytes t = flat_map enc src /\ fits lib t).
Proof.
  intros SO L D. eapply done_then; [apply reserve_done; [apply empty_fits|auto]|]. intros t (E & _ & F).
  change (t_bytes (t_empty lib)) with (@nil ascii) in E.
  eapply done_then; [apply (loop_done step enc src SO); auto; rewrite E; unfold size at 1; cbn; lia|].
  intros t2 [E2 F2]. rewrite E in E2. cbn [app] in E2. rewrite <- E2. apply shrink_done; auto. rewrite E2. exact L.
Qed.

Lemma escape_done cs src : size (escape cs src) <= limit -> double_size lib src <= limit ->
  done (m_escape has lib cs src) (fun t => t_bytes t = escape cs src /\ fits lib t).
Proof. rewrite escape_flat. apply (whole_done _ _ src (escape_step_done cs)). Qed.

Lemma quoted_done cs src s : quoted_jsonify cs src = Ok s -> size s <= limit -> double_size lib src <= limit ->
  done (m_quoted has lib cs src) (fun t => t_bytes t = s /\ fits lib t).
Proof.
  unfold quoted_jsonify. rewrite jsonify_eq. cbn [bind]. intros J L D. apply Ok_inj in J. subst s. rewrite !size_app in L. change (size [chr 34]) with 1 in L.
  unfold m_quoted. eapply done_then; [apply (whole_done _ _ src (jsonify_step_done cs)); auto; lia|]. intros t [E F].
  eapply done_then; [apply prepend_done; auto; rewrite E; change (size [chr 34]) with 1; lia|]. intros t2 [E2 F2].
  eapply done_mono; [apply append_done; auto; rewrite E2, size_app, E; change (size [chr 34]) with 1; lia|].
  intros t3 [E3 F3]. split; [|exact F3]. rewrite E3, E2, E, <- app_assoc. reflexivity.
Qed.

Lemma string_done (o : outcome formatter) s : (let* f := o in f_string f) = Ok s -> size s <= limit ->
  done (let! f := lift o in m_string has lib f) (fun t => t_bytes t = s /\ fits lib t).
Proof.
  intros E L. destruct o as [f| | |]; try discriminate E. cbn [bind] in E. apply lift_then. unfold m_string. rewrite E.
  apply lift_then. apply new_done. exact L.
Qed.

Lemma double_le src n : 2 * size src + 1 <= n -> double_size lib src <= n.
Proof.
  unfold double_size, uwrap. change (Z.of_nat (length src)) with (size src). pose proof (size_nonneg src). intros HN.
  destruct OK as ((A & B) & C & _). pose proof (Z.mod_le (size src * 2 + 1) (2 ^ sl_bits lib)). lia.
Qed.

Lemma converted_done (f : bytes -> counting text) src Q : size src <= limit -> done (f src) Q -> done (let! t := t_new has lib src in f (t_bytes t)) Q.
Proof. intros L D. eapply done_then; [apply new_done, L|]. intros t [-> _]. exact D. Qed.

End Blocks.

Lemma format_char e c : exists f, Format e (VChar c) = Ok f /\ f_string f = Ok [c] /\
  (forall has lib, m_f_escape has lib e f = let! t := t_new has lib [c] in m_escape has lib (char_signed (e_platform e)) (t_bytes t)) /\
  (forall has lib, m_f_jsonify has lib e f = let! t := t_new has lib [c] in m_quoted has lib (char_signed (e_platform e)) (t_bytes t)).
Proof. eexists. split; [reflexivity|]. split; [reflexivity|]. split; reflexivity. Qed.

Definition met (m : counting text) (s : bytes) (k : Z) : Prop := exists t k', m k = (Ok t, k') /\ t_bytes t = s.

Lemma done_met m s lib k : done m (fun t => t_bytes t = s /\ fits lib t) -> met m s k.
Proof. intros D. destruct (D k) as (t & k' & E & B & _). exists t, k'. auto. Qed.

Lemma blocks_escape has lib e v s k : library_ok lib -> moderate lib -> escape_of e v = Ok s -> room v s <= sl_max lib ->
  blocks (2 * room v s + 16) has -> met (m_escape_of has lib e v) s k.
Proof.
  intros OK MO E R HB. set (cs := char_signed (e_platform e)). apply (done_met _ _ lib).
  pose proof (size_nonneg s) as SN.
  assert (P : room v s = size s -> (forall c, v <> VChar c) -> (let* f := Format e v in f_escape e f) = Ok s ->
    done (let! f := lift (Format e v) in m_f_escape has lib e f) (fun t => t_bytes t = s /\ fits lib t)).
  { intros RS N F. intros k'. destruct (plain_escape has lib e (Format e v) k' (format_not_char e v N)) as [A A2]. rewrite A2 in F.
    rewrite A. apply (string_done has lib OK MO (size s)); auto; rewrite <- ?RS; auto; lia. }
  destruct v as [|b|c|t n|u|u|x|u n|off|src|src]; try (apply P; [reflexivity|discriminate|exact E]).
  - change (m_escape_of has lib e (VChar c)) with (let! t := t_new has lib [c] in m_escape has lib cs (t_bytes t)).
    change (escape_of e (VChar c)) with (Ok (escape cs [c])) in E. injection E as <-. cbn [room] in *.
    apply (converted_done has lib OK MO _ R HB (m_escape has lib cs)); [change (size [c]) with 1; lia|].
    apply (escape_done has lib OK MO _ R HB); [lia|]. apply double_le; auto. change (size [c]) with 1. lia.
  - injection E as <-. cbn [room m_escape_of] in *. apply (escape_done has lib OK MO _ R HB); [lia|]. apply double_le; auto. lia.
  - injection E as <-. cbn [room m_escape_of] in *. pose proof (size_nonneg (c_str_of src)).
    apply (converted_done has lib OK MO _ R HB (m_escape has lib cs)); [lia|].
    apply (escape_done has lib OK MO _ R HB); [lia|]. apply double_le; auto. lia.
Qed.

Lemma blocks_jsonify has lib e v s k : library_ok lib -> moderate lib -> jsonify_of e v = Ok s -> room v s <= sl_max lib ->
  blocks (2 * room v s + 16) has -> met (m_jsonify_of has lib e v) s k.
Proof.
  intros OK MO E R HB. set (cs := char_signed (e_platform e)). apply (done_met _ _ lib).
  pose proof (size_nonneg s) as SN.
  assert (P : room v s = size s -> (forall c, v <> VChar c) -> (let* f := Format e v in f_jsonify e f) = Ok s ->
    done (let! f := lift (Format e v) in m_f_jsonify has lib e f) (fun t => t_bytes t = s /\ fits lib t)).
  { intros RS N F. intros k'. destruct (plain_jsonify has lib e (Format e v) k' (format_not_char e v N)) as [A A2]. rewrite A2 in F.
    rewrite A. apply (string_done has lib OK MO (size s)); auto; rewrite <- ?RS; auto; lia. }
  destruct v as [|b|c|t n|u|u|x|u n|off|src|src]; try (apply P; [reflexivity|discriminate|exact E]).
  - change (m_jsonify_of has lib e (VChar c)) with (let! t := t_new has lib [c] in m_quoted has lib cs (t_bytes t)).
    cbn [room] in *.
    apply (converted_done has lib OK MO _ R HB (m_quoted has lib cs)); [change (size [c]) with 1; lia|].
    apply (quoted_done has lib OK MO _ R HB); [exact E|lia|]. apply double_le; auto. change (size [c]) with 1. lia.
  - cbn [room m_jsonify_of] in *. apply (quoted_done has lib OK MO _ R HB); [exact E|lia|]. apply double_le; auto. lia.
  - cbn [room m_jsonify_of] in *. pose proof (size_nonneg (c_str_of src)).
    apply (converted_done has lib OK MO _ R HB (m_quoted has lib cs)); [lia|].
    apply (quoted_done has lib OK MO _ R HB); [exact E|lia|]. apply double_le; auto. lia.
Qed.

(** [lexi] asks for the one block that holds the text. *)
Lemma blocks_lexi has lib e v s k : lexi e v = Ok s -> size s <= sl_max lib ->
  m_lexi has lib e v k =
    if size s <=? sl_inside lib then (Ok (Text s (sl_inside lib)), k)
    else if has k (sl_exact lib (size s) + 1) then (Ok (Text s (sl_exact lib (size s))), k + 1)
    else (Throw bad_alloc, k + 1).
Proof.
  intros E L.
  assert (N : t_new has lib s k = if size s <=? sl_inside lib then (Ok (Text s (sl_inside lib)), k)
    else if has k (sl_exact lib (size s) + 1) then (Ok (Text s (sl_exact lib (size s))), k + 1) else (Throw bad_alloc, k + 1)).
  { unfold t_new. change (Z.of_nat (length s)) with (size s). destruct (Z.ltb_spec (sl_max lib) (size s)); [lia|].
    destruct (size s <=? sl_inside lib); [reflexivity|]. unfold then_, allocate. destruct (has k _); reflexivity. }
  rewrite <- N. assert (P : (let* f := Format e v in f_string f) = Ok s -> (let! f := lift (Format e v) in m_string has lib f) k = t_new has lib s k).
  { intros F. destruct (Format e v) as [f| | |]; try discriminate F. cbn [bind] in F. unfold then_, lift, m_string. rewrite F. reflexivity. }
  destruct v as [|b|c|t n|u|u|x|u n|off|src|src]; try (apply P; exact E); injection E as <-; reflexivity.
Qed.

Lemma libraries_moderate bits : 8 <= bits -> moderate (libstdcxx bits) /\ moderate (libcxx bits) /\ moderate (microsoft bits).
Proof.
  intros B. unfold moderate, libstdcxx, libcxx, microsoft. cbn [sl_exact sl_grow sl_max]. repeat split; intros; try lia.
  - pose proof (lor15 n). lia.
  - pose proof (lor15 (Z.max n (2 * c))). lia.
  - pose proof (lor15 n). lia.
  - pose proof (lor15 n). assert (c / 2 <= c) by (Z.to_euclidean_division_equations; lia). lia.
Qed.

(** The message of an exception. *)
Lemma blocks_message has lib e point T s w k : extract e point T s = Throw w ->
  m_extract has lib e point T s k =
    if sl_error lib then if has k (size (str w) + 1) then (Throw w, k + 1) else (Throw bad_alloc, k + 1) else (Throw w, k).
Proof.
  intros E. unfold m_extract. rewrite E. destruct (sl_error lib); [|reflexivity].
  unfold then_, allocate, size. destruct (has k _); reflexivity.
Qed.

(** In the length of a string argument. *)
Lemma blocks_source has lib e v src k : library_ok lib -> moderate lib -> source v = Some src ->
  (2 * size src + 1 <= sl_max lib -> blocks (4 * size src + 18) has ->
    exists s t k', escape_of e v = Ok s /\ m_escape_of has lib e v k = (Ok t, k') /\ t_bytes t = s) /\
  (6 * size src + 2 <= sl_max lib -> blocks (12 * size src + 20) has ->
    exists s t k', jsonify_of e v = Ok s /\ m_jsonify_of has lib e v k = (Ok t, k') /\ t_bytes t = s).
Proof.
  intros OK MO S. set (cs := char_signed (e_platform e)). pose proof (size_nonneg src) as SN.
  assert (RM : forall s, room v s = Z.max (size s) (2 * size src + 1)).
  { intros s. destruct v; try discriminate S; injection S as <-; reflexivity. }
  split; intros L HB.
  - set (s := escape cs src). assert (E : escape_of e v = Ok s).
    { destruct v; try discriminate S; injection S as <-; reflexivity. }
    assert (B : size s <= 2 * size src) by (unfold s; rewrite escape_flat; apply flat_map_bound, eenc_bound).
    destruct (blocks_escape has lib e v s k OK MO E) as (t & k' & A & C); [rewrite RM; lia| |exists s, t, k'; auto].
    intros j m H. apply HB. rewrite RM in H. lia.
  - set (s := [chr 34] ++ flat_map jenc src ++ [chr 34]). assert (E : jsonify_of e v = Ok s).
    { destruct v; try discriminate S; injection S as <-; cbn [jsonify_of]; unfold quoted_jsonify; rewrite jsonify_eq; reflexivity. }
    assert (B : size s <= 6 * size src + 2).
    { pose proof (flat_map_bound jenc 6 src jenc_bound). unfold s. rewrite !size_app. change (size [chr 34]) with 1. lia. }
    destruct (blocks_jsonify has lib e v s k OK MO E) as (t & k' & A & C); [rewrite RM; lia| |exists s, t, k'; auto].
    intros j m H. apply HB. rewrite RM in H. lia.
Qed.
Lemma blocks_large has lib e v s k : library_ok lib -> moderate lib ->
  (escape_of e v = Ok s -> room v s <= sl_max lib -> blocks (2 * room v s + 16) has ->
    exists t k', m_escape_of has lib e v k = (Ok t, k') /\ t_bytes t = s) /\
  (jsonify_of e v = Ok s -> room v s <= sl_max lib -> blocks (2 * room v s + 16) has ->
    exists t k', m_jsonify_of has lib e v k = (Ok t, k') /\ t_bytes t = s).
Proof. intros OK MO. split; intros; [apply blocks_escape|apply blocks_jsonify]; auto. Qed.

(** [shrink_to_fit] keeps the text, and fails only in a library in which it throws. *)
Theorem blocks_shrink has lib t k :
  (exists t' k', t_shrink_to_fit has lib t k = (Ok t', k') /\ t_bytes t' = t_bytes t) \/
  (sl_shrink lib = Throwing /\ has k (sl_exact lib (size (t_bytes t)) + 1) = false /\
   t_shrink_to_fit has lib t k = (Throw bad_alloc, k + 1)).
Proof.
  unfold t_shrink_to_fit, returns. change (t_size t) with (size (t_bytes t)).
  destruct (sl_shrink lib); [left; exists t, k; auto| |];
    (destruct (t_capacity t <=? sl_inside lib); [left; exists t, k; auto|];
     destruct (size (t_bytes t) <=? sl_inside lib); [left; eexists _, k; split; reflexivity|];
     destruct (t_capacity t <=? _); [left; exists t, k; auto|];
     unfold allocate; destruct (has k _) eqn:HA; [left; eexists _, (k + 1); split; reflexivity|]).
  - right. auto.
  - left. eexists _, _. split; reflexivity.
Qed.
