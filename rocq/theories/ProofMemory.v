(** The public functions under memory exhaustion. *)
From Coq Require Import Psatz.
From Verif Require Import Machine LibMachine SpecString SpecMemory ModelItoa ModelInt ModelString ModelText ModelIeee ModelDiyfp
  ModelDtoa ModelFloat ModelLexi ModelMemory ProofString ProofBig2.
From Verif Require SpecMore ProofText ProofMore3.
Ltac Zify.zify_post_hook ::= idtac.

Lemma Ok_inj {A} (a b : A) : Ok a = Ok b -> a = b.
Proof. congruence. Qed.

(** ** Counting computations *)

Definition wp {A} (m : counting A) (Q : A -> Z -> Prop) (E : string -> Z -> Prop) (k : Z) : Prop :=
  match m k with
  | (Ok a, k') => Q a k'
  | (Throw w, k') => E w k'
  | _ => False
  end.

Lemma wp_then {A B} (m : counting A) (f : A -> counting B) Q E k :
  wp m (fun a => wp (f a) Q E) E k -> wp (then_ m f) Q E k.
Proof. unfold wp, then_. destruct (m k) as [[a|w|w|] k']; auto. Qed.

Lemma wp_mono {A} (m : counting A) (Q Q' : A -> Z -> Prop) (E E' : string -> Z -> Prop) k :
  wp m Q E k -> (forall a k', Q a k' -> Q' a k') -> (forall w k', E w k' -> E' w k') -> wp m Q' E' k.
Proof. unfold wp. destruct (m k) as [[a|w|w|] k']; auto. Qed.

Lemma size_app a b : size (a ++ b) = size a + size b.
Proof. unfold size. rewrite app_length. lia. Qed.
Lemma size_nonneg a : 0 <= size a.
Proof. unfold size. lia. Qed.

Lemma flat_map_bound (enc : ascii -> bytes) b s : (forall c, size (enc c) <= b) -> size (flat_map enc s) <= b * size s.
Proof.
  intros B. induction s as [|c s IH]; cbn [flat_map]; [cbn; lia|].
  rewrite size_app. specialize (B c). unfold size in *. cbn [length]. lia.
Qed.
Definition eenc (cs : bool) (c : ascii) : bytes := if escape_needed cs c then ["\"%char; c] else [c].

Lemma escape_flat cs s : escape cs s = flat_map (eenc cs) s.
Proof.
  unfold escape. assert (G : forall dst, fold_left (escape_step cs) s dst = dst ++ flat_map (eenc cs) s).
  { induction s as [|c s IH]; intros dst; cbn [fold_left flat_map]; [rewrite app_nil_r; reflexivity|].
    rewrite IH. unfold escape_step, eenc. destruct (escape_needed cs c); rewrite <- !app_assoc; reflexivity. }
  apply (G []).
Qed.

Lemma eenc_bound cs c : size (eenc cs c) <= 2.
Proof. unfold eenc. destruct (escape_needed cs c); cbn; lia. Qed.
Lemma jenc_bound c : size (jenc c) <= 6.
Proof. all_chars c; vm_compute; discriminate. Qed.

Section Memory.
Context (has : Z -> Z -> bool) (lib : string_library) (OK : library_ok lib).

(** Exceptions: [I k c] relates the number of allocations to the capacity. *)
Definition fails (I : Z -> Z -> Prop) (long : Prop) (w : string) (k' : Z) : Prop :=
  (w = bad_alloc /\ (exists n, has (k' - 1) n = false) /\ (exists c, I (k' - 1) c) /\ exists c, I k' c) \/ (w = length_error /\ long /\ exists c, I k' c).

(** [I] is kept when a text grows to at most [limit]. *)
Definition kept (I : Z -> Z -> Prop) (limit : Z) : Prop :=
  forall k c n, I k c -> 0 <= c < n -> n <= limit -> n <= sl_max lib -> I (k + 1) (sl_grow lib c n).

Definition fits (t : text) : Prop := size (t_bytes t) <= t_capacity t /\ t_capacity t <= sl_max lib.

Lemma reserve_ok I limit t n k : kept I limit -> fits t -> I k (t_capacity t) -> n <= limit ->
  wp (t_reserve has lib t n) (fun t' k' => t_bytes t' = t_bytes t /\ n <= t_capacity t' /\ fits t' /\ I k' (t_capacity t'))
    (fails I (sl_max lib < n)) k.
Proof.
  intros KI [F1 F2] HI L. unfold t_reserve, wp.
  destruct (Z.leb_spec n (t_capacity t)) as [H|H]; [cbn; unfold fits; auto|].
  destruct (Z.ltb_spec (sl_max lib) n) as [H2|H2]; [right; eauto|].
  pose proof (size_nonneg (t_bytes t)). destruct OK as (_ & _ & _ & G). destruct (G (t_capacity t) n ltac:(lia) H2) as [G1 G2].
  unfold then_, allocate. destruct (has k _) eqn:HA.
  - cbn. unfold fits. cbn. repeat split; try lia. apply KI; auto; lia.
  - left. replace (k + 1 - 1) with k by lia. split; [reflexivity|]. split; [eauto|]. split; [eauto|].
    eexists. apply (KI k (t_capacity t) n); auto; lia.
Qed.

Lemma append_ok I limit t s k : kept I limit -> fits t -> I k (t_capacity t) -> size (t_bytes t) + size s <= limit ->
  wp (t_append has lib t s) (fun t' k' => t_bytes t' = t_bytes t ++ s /\ fits t' /\ I k' (t_capacity t'))
    (fails I (sl_max lib < size (t_bytes t) + size s)) k.
Proof.
  intros KI F HI L. unfold t_append. apply wp_then. eapply wp_mono; [apply (reserve_ok I limit); eauto| |auto].
  intros t' k' (E & C & F' & HI'). unfold wp, returns. cbn. rewrite E. split; [reflexivity|]. split; [|exact HI'].
  unfold fits in *. cbn. rewrite size_app. unfold t_size, size in *. lia.
Qed.

Lemma prepend_ok I limit t s k : kept I limit -> fits t -> I k (t_capacity t) -> size (t_bytes t) + size s <= limit ->
  wp (t_prepend has lib s t) (fun t' k' => t_bytes t' = s ++ t_bytes t /\ fits t' /\ I k' (t_capacity t'))
    (fails I (sl_max lib < size (t_bytes t) + size s)) k.
Proof.
  intros KI F HI L. unfold t_prepend. apply wp_then. eapply wp_mono; [apply (reserve_ok I limit); eauto| |auto].
  intros t' k' (E & C & F' & HI'). unfold wp, returns. cbn. rewrite E. split; [reflexivity|]. split; [|exact HI'].
  unfold fits in *. cbn. rewrite size_app. unfold t_size, size in *. lia.
Qed.

Definition step_ok (step : text -> ascii -> counting text) (enc : ascii -> bytes) : Prop :=
  forall I limit dst c k, kept I limit -> fits dst -> I k (t_capacity dst) -> size (t_bytes dst) + size (enc c) <= limit ->
  wp (step dst c) (fun t' k' => t_bytes t' = t_bytes dst ++ enc c /\ fits t' /\ I k' (t_capacity t'))
    (fails I (sl_max lib < size (t_bytes dst) + size (enc c))) k.

Lemma fails_weaken I (P Q : Prop) w k : (P -> Q) -> fails I P w k -> fails I Q w k.
Proof. unfold fails. intuition. Qed.

Lemma escape_step_ok cs : step_ok (m_escape_step has lib cs) (eenc cs).
Proof.
  intros I limit dst c k KI F HI L. unfold m_escape_step, eenc in *. apply wp_then. destruct (escape_needed cs c).
  - eapply wp_mono; [apply (append_ok I limit); auto; unfold size in *; cbn [length] in *; lia| |].
    + intros t' k' (E & F' & HI'). eapply wp_mono; [apply (append_ok I limit); auto; rewrite E, size_app; unfold size in *; cbn [length] in *; lia| |].
      * intros t2 k2 (E2 & F2 & HI2). rewrite E2, E, <- app_assoc. auto.
      * intros w k2. apply fails_weaken. rewrite E, size_app. unfold size. cbn [length]. lia.
    + intros w k2. apply fails_weaken. unfold size. cbn [length]. lia.
  - unfold wp at 1. cbn. apply (append_ok I limit); auto.
Qed.

Lemma two_ok I limit dst a b k : kept I limit -> fits dst -> I k (t_capacity dst) -> size (t_bytes dst) + size (a ++ b) <= limit ->
  wp (let! dst := t_append has lib dst a in t_append has lib dst b)
    (fun t' k' => t_bytes t' = t_bytes dst ++ a ++ b /\ fits t' /\ I k' (t_capacity t'))
    (fails I (sl_max lib < size (t_bytes dst) + size (a ++ b))) k.
Proof.
  intros KI F HI L. rewrite size_app in *. pose proof (size_nonneg a). pose proof (size_nonneg b). apply wp_then.
  eapply wp_mono; [apply (append_ok I limit); auto; lia| |].
  - intros t' k' (E & F' & HI'). eapply wp_mono; [apply (append_ok I limit); auto; rewrite E, size_app; lia| |].
    + intros t2 k2 (E2 & F2 & HI2). rewrite E2, E, <- app_assoc. auto.
    + intros w k2. apply fails_weaken. rewrite E, size_app. lia.
  - intros w k2. apply fails_weaken. lia.
Qed.

Lemma jsonify_step_ok cs : step_ok (m_jsonify_step has lib cs) jenc.
Proof.
  intros I limit dst c k KI F HI L. pose proof (jsonify_step_nil cs c) as J. unfold jsonify_step in J. unfold m_jsonify_step.
  set (x := char_value cs c) in *. set (j := jenc c) in *. clearbody j.
  destruct (x =? 8); [injection J as <-; apply (two_ok I limit _ ["\"%char] _); auto|].
  destruct (x =? 12); [injection J as <-; apply (two_ok I limit _ ["\"%char] _); auto|].
  destruct (x =? 10); [injection J as <-; apply (two_ok I limit _ ["\"%char] _); auto|].
  destruct (x =? 13); [injection J as <-; apply (two_ok I limit _ ["\"%char] _); auto|].
  destruct (x =? 9); [injection J as <-; apply (two_ok I limit _ ["\"%char] _); auto|].
  destruct (x =? 92); [injection J as <-; apply (two_ok I limit _ ["\"%char] _); auto|].
  destruct (x =? 34); [injection J as <-; apply (two_ok I limit _ ["\"%char] _); auto|].
  destruct ((x >=? 0) && (x <=? 31)); [|injection J as <-; apply (append_ok I limit); auto].
  destruct (hex_at (Z.shiftr x 4)) as [h|w|w|]; try discriminate J. cbn [bind] in J.
  destruct (hex_at (Z.land x 15)) as [l|w|w|]; try discriminate J. cbn [bind] in J. injection J as <-.
  cbn [app] in *. change (str "\u00") with (["\"; "u"; "0"; "0"])%char in *. cbn [app] in *.
  set (a := ["\"; "u"; "0"; "0"]%char) in *. change ("\" :: "u" :: "0" :: "0" :: [h; l])%char with (a ++ [h] ++ [l]) in *.
  rewrite !size_app in *. pose proof (size_nonneg a). change (size [h]) with 1 in *. change (size [l]) with 1 in *.
  apply wp_then. eapply wp_mono; [apply (append_ok I limit); auto; lia| |intros w k2; apply fails_weaken; lia].
  intros t' k' (E & F' & HI'). apply wp_then. unfold wp at 1. cbn [lift].
  apply wp_then. eapply wp_mono; [apply (append_ok I limit); auto; rewrite E, size_app; change (size [h]) with 1; lia| |].
  - intros t2 k2 (E2 & F2 & HI2). apply wp_then. unfold wp at 1. cbn [lift].
    eapply wp_mono; [apply (append_ok I limit); auto; rewrite E2, E, !size_app; change (size [h]) with 1; change (size [l]) with 1; lia| |].
    + intros t3 k3 (E3 & F3 & HI3). rewrite E3, E2, E, <- !app_assoc. auto.
    + intros w k3. apply fails_weaken. rewrite E2, E, !size_app. change (size [h]) with 1. change (size [l]) with 1. lia.
  - intros w k2. apply fails_weaken. rewrite E, size_app. change (size [h]) with 1. lia.
Qed.

Lemma loop_ok step enc I limit src : step_ok step enc -> forall dst k, kept I limit -> fits dst -> I k (t_capacity dst) ->
  size (t_bytes dst) + size (flat_map enc src) <= limit ->
  wp (loop_chars step src dst) (fun t' k' => t_bytes t' = t_bytes dst ++ flat_map enc src /\ fits t' /\ I k' (t_capacity t'))
    (fails I (sl_max lib < size (t_bytes dst) + size (flat_map enc src))) k.
Proof.
  intros SO. induction src as [|c src IH]; intros dst k KI F HI L; cbn [loop_chars flat_map] in *.
  - unfold wp. cbn. rewrite app_nil_r. auto.
  - rewrite size_app in *. pose proof (size_nonneg (enc c)). pose proof (size_nonneg (flat_map enc src)).
    apply wp_then. eapply wp_mono; [apply (SO I limit); auto; lia| |].
    + intros t' k' (E & F' & HI'). eapply wp_mono; [apply IH; auto; rewrite E, size_app; lia| |].
      * intros t2 k2 (E2 & F2 & HI2). rewrite E2, E, <- app_assoc. auto.
      * intros w k2. apply fails_weaken. rewrite E, size_app. lia.
    + intros w k2. apply fails_weaken. lia.
Qed.

(** [shrink_to_fit] allocates once at most. *)
Lemma shrink_ok t k : fits t -> 0 <= sl_inside lib ->
  wp (t_shrink_to_fit has lib t) (fun t' k' => t_bytes t' = t_bytes t /\ fits t' /\ k <= k' <= k + 1)
    (fun w k' => w = bad_alloc /\ k' = k + 1 /\ exists n, has k n = false) k.
Proof.
  intros [F1 F2] NI. unfold t_shrink_to_fit, wp. destruct OK as ((_ & IM) & _ & X & _).
  pose proof (size_nonneg (t_bytes t)). change (t_size t) with (size (t_bytes t)).
  assert (T : t_bytes t = t_bytes t /\ fits t /\ k <= k <= k + 1) by (unfold fits; repeat split; auto; lia).
  specialize (X (size (t_bytes t)) ltac:(lia)).
  destruct (sl_shrink lib); [exact T| |];
    (destruct (Z.leb_spec (t_capacity t) (sl_inside lib)); [exact T|];
     destruct (Z.leb_spec (size (t_bytes t)) (sl_inside lib)); [cbn; unfold fits; cbn; repeat split; auto; lia|];
     destruct (Z.leb_spec (t_capacity t) (sl_exact lib (size (t_bytes t)))); [exact T|];
     unfold allocate; destruct (has k _) eqn:HA; [cbn; unfold fits; cbn; repeat split; auto; lia|]).
  - split; [reflexivity|]. split; [reflexivity|]. eauto.
  - unfold fits. repeat split; auto; lia.
Qed.

(** ** The whole functions *)

(** [m] makes the text [s] or fails, with [count] allocations at most if [small]. *)
Definition yields (m : counting text) (s : bytes) (long small : Prop) (count k : Z) : Prop :=
  wp m (fun t k' => t_bytes t = s /\ fits t /\ k <= k' /\ (small -> k' <= k + count))
    (fun w k' => k <= k' /\ (small -> k' <= k + count) /\
      ((w = bad_alloc /\ exists j n, k <= j < k' /\ has j n = false) \/ (w = length_error /\ long))) k.

Lemma yields_then m f s s2 (long long1 long2 small : Prop) c1 c2 k :
  yields m s long1 small c1 k -> (long1 -> long) -> (long2 -> long) -> 0 <= c2 ->
  (forall t k, t_bytes t = s -> fits t -> yields (f t) s2 long2 small c2 k) ->
  yields (then_ m f) s2 long small (c1 + c2) k.
Proof.
  intros H L1 L2 C2 N. apply wp_then. eapply wp_mono; [exact H| |].
  - intros t k' (E & F & K & KC). eapply wp_mono; [apply (N t k' E F)| |].
    + intros t2 k2 (E2 & F2 & K2 & KC2). split; [auto|]. split; [exact F2|]. split; [lia|]. intros S. specialize (KC S). specialize (KC2 S). lia.
    + intros w k2 (K2 & KC2 & D). split; [lia|]. split; [intros S; specialize (KC S); specialize (KC2 S); lia|].
      destruct D as [[-> (j & n & J & HA)]|[-> L]]; [left|right; auto]. split; [reflexivity|]. exists j, n. split; [lia|auto].
  - intros w k2 (K2 & KC2 & D). split; [lia|]. split; [intros S; specialize (KC2 S); lia|].
    destruct D as [[-> (j & n & J & HA)]|[-> L]]; [left; split; [reflexivity|]; exists j, n; auto|right; auto].
Qed.

Lemma yields_weaken m s (long long' small small' : Prop) c c' k :
  yields m s long small c k -> (long -> long') -> (small' -> small) -> c <= c' -> yields m s long' small' c' k.
Proof.
  intros H L S C. eapply wp_mono; [exact H| |].
  - intros t k' (A & B & K & D). repeat split; auto; try apply B. intros S'. specialize (D (S S')). lia.
  - intros w k' (K & D & G). split; [lia|]. split; [intros S'; specialize (D (S S')); lia|]. intuition.
Qed.

Lemma new_yields s k : yields (t_new has lib s) s (sl_max lib < size s) True 1 k.
Proof.
  unfold t_new, yields, wp. change (Z.of_nat (length s)) with (size s). pose proof (size_nonneg s).
  destruct OK as ((IN & IM) & _ & X & _).
  destruct (Z.ltb_spec (sl_max lib) (size s)); [cbn; split; [lia|]; split; [lia|right; auto]|].
  destruct (Z.leb_spec (size s) (sl_inside lib)); [cbn; unfold fits; cbn; repeat split; auto; lia|].
  specialize (X (size s) ltac:(lia)). unfold then_, allocate. destruct (has k _) eqn:HA.
  - cbn. unfold fits. cbn. repeat split; auto; lia.
  - split; [lia|]. split; [lia|]. left. split; [reflexivity|]. exists k. eexists. split; [lia|exact HA].
Qed.

Lemma reserve_yields t n k : fits t ->
  wp (t_reserve has lib t n) (fun t' k' => t_bytes t' = t_bytes t /\ n <= t_capacity t' /\ fits t' /\ k <= k' <= k + 1)
    (fun w k' => k <= k' <= k + 1 /\
      ((w = bad_alloc /\ exists j n, k <= j < k' /\ has j n = false) \/ (w = length_error /\ sl_max lib < n))) k.
Proof.
  intros [F1 F2]. unfold t_reserve, wp. pose proof (size_nonneg (t_bytes t)).
  destruct (Z.leb_spec n (t_capacity t)); [cbn; unfold fits; repeat split; auto; lia|].
  destruct (Z.ltb_spec (sl_max lib) n); [cbn; split; [lia|right; auto]|].
  destruct OK as (_ & _ & _ & G). destruct (G (t_capacity t) n ltac:(lia) ltac:(lia)) as [G1 G2].
  unfold then_, allocate. destruct (has k _) eqn:HA.
  - cbn. unfold fits. cbn. repeat split; auto; lia.
  - split; [lia|]. left. split; [reflexivity|]. exists k. eexists. split; [lia|exact HA].
Qed.

Lemma append_yields t b k : fits t -> yields (t_append has lib t b) (t_bytes t ++ b) (sl_max lib < size (t_bytes t ++ b)) True 1 k.
Proof.
  intros F. unfold t_append, t_size. change (Z.of_nat (length (t_bytes t))) with (size (t_bytes t)). change (Z.of_nat (length b)) with (size b).
  rewrite size_app. apply wp_then. eapply wp_mono; [apply (reserve_yields t _ k F)| |].
  - intros t' k' (E & C & F' & K). unfold wp, returns. cbn. rewrite E. unfold fits in *. cbn. rewrite !size_app in *. repeat split; auto; lia.
  - intros w k' (K & D). split; [lia|]. split; [lia|]. exact D.
Qed.
Lemma prepend_yields t a k : fits t -> yields (t_prepend has lib a t) (a ++ t_bytes t) (sl_max lib < size (a ++ t_bytes t)) True 1 k.
Proof.
  intros F. unfold t_prepend, t_size. change (Z.of_nat (length (t_bytes t))) with (size (t_bytes t)). change (Z.of_nat (length a)) with (size a).
  rewrite size_app, Z.add_comm. apply wp_then. eapply wp_mono; [apply (reserve_yields t _ k F)| |].
  - intros t' k' (E & C & F' & K). unfold wp, returns. cbn. rewrite E. unfold fits in *. cbn. rewrite !size_app in *. repeat split; auto; lia.
  - intros w k' (K & D). split; [lia|]. split; [lia|]. exact D.
Qed.

Lemma shrink_yields t k : fits t -> yields (t_shrink_to_fit has lib t) (t_bytes t) False True 1 k.
Proof.
  intros F. eapply wp_mono; [apply (shrink_ok t k F)| |].
  - apply OK.
  - intros t' k' (E & F' & K). repeat split; auto; try apply F'; lia.
  - intros w k' (-> & -> & n & HA). split; [lia|]. split; [lia|]. left. split; [reflexivity|]. exists k, n. split; [lia|exact HA].
Qed.

(** The invariants of the loops. *)
Definition inv_escape (n k1 : Z) (small : Prop) (k c : Z) : Prop := k1 <= k /\ (small -> k = k1 /\ 2 * n <= c).
Lemma inv_escape_kept n k1 small : kept (inv_escape n k1 small) (2 * n).
Proof. intros k c m (K & S) C L M. split; [lia|]. intros H. destruct (S H). lia. Qed.

Definition inv_jsonify (n k1 : Z) (small : Prop) (k c : Z) : Prop := k1 <= k /\
  (small -> (k = k1 /\ Z.min (sl_max lib) (2 * n + 1) <= c) \/ (k = k1 + 1 /\ Z.min (sl_max lib) (3 * n + 1) <= c) \/
    (k = k1 + 2 /\ Z.min (sl_max lib) (4 * n + 1) <= c) \/ (k = k1 + 3 /\ Z.min (sl_max lib) (6 * n) <= c)).
Lemma inv_jsonify_kept n k1 small : 0 <= n -> kept (inv_jsonify n k1 small) (6 * n).
Proof.
  intros N k c m (K & S) C L M. split; [lia|]. intros H. specialize (S H).
  destruct OK as (_ & _ & _ & G). destruct (G c m C M) as [_ G2].
  pose proof (Z.div_mod c 2 ltac:(lia)). pose proof (Z.mod_pos_bound c 2 ltac:(lia)).
  destruct S as [[-> S]|[[-> S]|[[-> S]|[-> S]]]]; [right; left|right; right; left|right; right; right|]; lia.
Qed.

Lemma whole_ok step enc b (I : Z -> Z -> Prop -> Z -> Z -> Prop) j src k :
  step_ok step enc -> size (flat_map enc src) <= b * size src ->
  (forall n k1 small, 0 <= n -> kept (I n k1 small) (b * n)) ->
  (forall n k1 (small : Prop) c, 0 <= n -> (small -> 2 * n + 1 <= c) -> I n k1 small k1 c) ->
  (forall n k1 (small : Prop) k c, I n k1 small k c -> k1 <= k /\ (small -> k <= k1 + j)) ->
  yields (let! dst := t_reserve has lib (t_empty lib) (double_size lib src) in
          let! dst := loop_chars step src dst in t_shrink_to_fit has lib dst)
    (flat_map enc src) (sl_max lib < (2 * size src + 1) mod 2 ^ sl_bits lib \/ sl_max lib < size (flat_map enc src))
    (2 * size src + 1 < 2 ^ sl_bits lib) (j + 2) k.
Proof.
  intros SO BL KI I0 IC. pose proof (size_nonneg src) as N.
  pose proof (proj1 OK) as [IN IM].
  assert (D : double_size lib src = (2 * size src + 1) mod 2 ^ sl_bits lib).
  { unfold double_size, uwrap, size. f_equal. lia. }
  set (small := 2 * size src + 1 < 2 ^ sl_bits lib) in *.
  assert (DS : small -> double_size lib src = 2 * size src + 1).
  { intros S. rewrite D. apply Z.mod_small. unfold small in S. lia. }
  assert (J : 0 <= j).
  { pose proof (IC 0 0 True 0 1 (I0 0 0 True 1 ltac:(lia) ltac:(lia))) as [_ H]. specialize (H Logic.I). lia. }
  replace (j + 2) with (1 + (j + 1)) by lia.
  apply wp_then. eapply wp_mono; [apply (reserve_yields (t_empty lib) _ k)| |].
  - unfold fits, t_empty. cbn. lia.
  - intros t k1 (E & C & F & K1).
    apply wp_then. eapply wp_mono;
      [apply (loop_ok step enc (I (size src) k1 small) (b * size src) src SO t k1); auto| |].
    + apply I0; [lia|]. intros S. specialize (DS S). lia.
    + rewrite E. cbn [t_empty t_bytes]. change (size []) with 0. lia.
    + intros t2 k2 (E2 & F2 & HI). apply IC in HI. destruct HI as [H1 H2]. eapply wp_mono; [apply (shrink_yields t2 k2 F2)| |].
      * intros t3 k3 (E3 & F3 & K3 & KC3). specialize (KC3 Logic.I). rewrite E3, E2, E.
        split; [reflexivity|]. split; [exact F3|]. split; [lia|]. intros S. specialize (H2 S). lia.
      * intros w k3 (K3 & KC3 & DD). specialize (KC3 Logic.I). split; [lia|]. split; [intros S; specialize (H2 S); lia|].
        destruct DD as [[-> (i & n & Hi & HA)]|[_ []]]. left. split; [reflexivity|]. exists i, n. split; [lia|auto].
    + intros w k2 [(-> & [n HA] & [c1 HI1] & [c2 HI2])|(-> & LG & [c2 HI2])]; apply IC in HI2; destruct HI2 as [H1 H2].
      * apply IC in HI1. destruct HI1 as [H3 _]. split; [lia|]. split; [intros S; specialize (H2 S); lia|].
        left. split; [reflexivity|]. exists (k2 - 1), n. split; [lia|exact HA].
      * split; [lia|]. split; [intros S; specialize (H2 S); lia|]. right. split; [reflexivity|]. right. rewrite E in LG. exact LG.
  - intros w k1 (K1 & DD). split; [lia|]. split; [lia|]. destruct DD as [DD|[-> LG]]; [left; exact DD|right; split; [reflexivity|]].
    left. rewrite <- D. exact LG.
Qed.

Lemma escape_yields cs src k : yields (m_escape has lib cs src) (escape cs src)
  (sl_max lib < (2 * size src + 1) mod 2 ^ sl_bits lib \/ sl_max lib < size (escape cs src))
  (2 * size src + 1 < 2 ^ sl_bits lib) 2 k.
Proof.
  rewrite escape_flat. apply (whole_ok _ _ 2 inv_escape 0).
  - apply escape_step_ok.
  - apply flat_map_bound, eenc_bound.
  - intros. apply inv_escape_kept.
  - intros n k1 small c N S. split; [lia|]. intros H. specialize (S H). lia.
  - intros n k1 small k' c (K & S). split; [lia|]. intros H. specialize (S H). lia.
Qed.

Lemma jsonify_yields cs src k : yields (m_jsonify has lib cs src) (flat_map jenc src)
  (sl_max lib < (2 * size src + 1) mod 2 ^ sl_bits lib \/ sl_max lib < size (flat_map jenc src))
  (2 * size src + 1 < 2 ^ sl_bits lib) 5 k.
Proof.
  apply (whole_ok _ _ 6 inv_jsonify 3).
  - apply jsonify_step_ok.
  - apply flat_map_bound, jenc_bound.
  - intros. apply inv_jsonify_kept. assumption.
  - intros n k1 small c N S. split; [lia|]. intros H. specialize (S H). left. lia.
  - intros n k1 small k' c (K & S). split; [lia|]. intros H. specialize (S H). lia.
Qed.

(** A short result has no long escapes. *)
Lemma short_escapes src : size (flat_map jenc src) <= 3 -> size (flat_map jenc src) <= 2 * size src.
Proof.
  induction src as [|c src IH]; [intros _; cbn; lia|]. cbn [flat_map]. rewrite size_app.
  pose proof (size_nonneg (flat_map jenc src)). intros H3. specialize (IH ltac:(pose proof (size_nonneg (jenc c)); lia)).
  assert (C : size (jenc c) <= 2).
  { revert H3. clear -H. generalize dependent (flat_map jenc src). intros l H H3. revert H3. all_chars c; cbn [jenc]; vm_compute (size (jenc _)); lia. }
  replace (size (c :: src)) with (1 + size src) by (unfold size; cbn [length]; lia). lia.
Qed.
Lemma short_yields cs src k : size (flat_map jenc src) <= 3 -> yields (m_jsonify has lib cs src) (flat_map jenc src)
  (sl_max lib < (2 * size src + 1) mod 2 ^ sl_bits lib \/ sl_max lib < size (flat_map jenc src))
  (2 * size src + 1 < 2 ^ sl_bits lib) 2 k.
Proof.
  intros H. apply (whole_ok _ _ 2 inv_escape 0).
  - apply jsonify_step_ok.
  - apply short_escapes, H.
  - intros. apply inv_escape_kept.
  - intros n k1 small c N S. split; [lia|]. intros X. specialize (S X). lia.
  - intros n k1 small k' c (K & S). split; [lia|]. intros X. specialize (S X). lia.
Qed.
(** Quotes around four characters or more take one allocation. *)
Lemma quotes_yields t k : fits t -> 4 <= size (t_bytes t) ->
  yields (let! t := t_prepend has lib [chr 34] t in t_append has lib t [chr 34]) ([chr 34] ++ t_bytes t ++ [chr 34])
    (sl_max lib < 1 + (size (t_bytes t) + 1)) True 1 k.
Proof.
  intros F S4. set (m := size (t_bytes t)) in *.
  set (I := fun k' c => (k' = k /\ m <= c) \/ (k' = k + 1 /\ Z.min (sl_max lib) (m + 2) <= c)).
  assert (KI : kept I (m + 2)).
  { intros k' c n HI C L M. destruct OK as (_ & _ & _ & G). destruct (G c n C M) as [G1 G2].
    pose proof (Z.div_mod c 2 ltac:(lia)). pose proof (Z.mod_pos_bound c 2 ltac:(lia)). unfold I in *. lia. }
  assert (B : forall w k' (P : Prop), (P -> sl_max lib < 1 + (m + 1)) -> fails I P w k' ->
    k <= k' /\ (True -> k' <= k + 1) /\ ((w = bad_alloc /\ exists j n, k <= j < k' /\ has j n = false) \/ (w = length_error /\ sl_max lib < 1 + (m + 1)))).
  { intros w k' P PP [(-> & [n HA] & [c1 H1] & [c2 H2])|(-> & LG & [c2 H2])]; unfold I in *.
    - split; [lia|]. split; [lia|]. left. split; [reflexivity|]. exists (k' - 1), n. split; [lia|exact HA].
    - split; [lia|]. split; [lia|]. right. auto. }
  apply wp_then. eapply wp_mono; [apply (prepend_ok I (m + 2)); [exact KI|exact F|left; split; [reflexivity|apply F]|]| |].
  - change (size [chr 34]) with 1. fold m. lia.
  - intros t1 k1 (E1 & F1 & H1). eapply wp_mono; [apply (append_ok I (m + 2)); [exact KI|exact F1|exact H1|]| |].
    + rewrite E1, size_app. change (size [chr 34]) with 1. fold m. lia.
    + intros t2 k2 (E2 & F2 & H2). rewrite E2, E1, <- app_assoc. split; [reflexivity|]. split; [exact F2|]. unfold I in H2. lia.
    + intros w k2. apply B. rewrite E1, size_app. change (size [chr 34]) with 1. fold m. lia.
  - intros w k2. apply B. change (size [chr 34]) with 1. fold m. lia.
Qed.

Lemma quoted_yields cs src k : yields (m_quoted has lib cs src) ([chr 34] ++ flat_map jenc src ++ [chr 34])
  (sl_max lib < (2 * size src + 1) mod 2 ^ sl_bits lib \/ sl_max lib < size ([chr 34] ++ flat_map jenc src ++ [chr 34]))
  (2 * size src + 1 < 2 ^ sl_bits lib) 6 k.
Proof.
  unfold m_quoted. rewrite !size_app. change (size [chr 34]) with 1.
  destruct (Z.le_gt_cases (size (flat_map jenc src)) 3) as [H3|H3].
  - eapply yields_weaken; [|exact (fun x => x)|exact (fun x => x)|instantiate (1 := 2 + (1 + 1)); lia].
    eapply (yields_then _ _ (flat_map jenc src) _ _ _ (sl_max lib < 1 + (size (flat_map jenc src) + 1)));
      [apply short_yields, H3|intros [H|H]; [auto|right; lia]|auto|lia|].
    intros t k1 E F. rewrite <- E.
    eapply (yields_then _ _ ([chr 34] ++ t_bytes t) _ _ _ (sl_max lib < 1 + (size (t_bytes t) + 1)));
      [eapply yields_weaken; [apply prepend_yields; exact F|exact (fun x => x)|trivial|lia]|
       rewrite size_app; change (size [chr 34]) with 1; lia|auto|lia|].
    intros t2 k2 E2 F2. rewrite app_assoc, <- E2.
    eapply yields_weaken; [apply append_yields; exact F2| |trivial|lia].
    rewrite E2, !size_app. change (size [chr 34]) with 1. lia.
  - change 6 with (5 + 1).
    eapply (yields_then _ _ (flat_map jenc src) _ _ _ (sl_max lib < 1 + (size (flat_map jenc src) + 1)));
      [apply jsonify_yields|intros [H|H]; [auto|right; lia]|auto|lia|].
    intros t k1 E F. rewrite <- E. eapply yields_weaken; [apply quotes_yields; [exact F|rewrite E; lia]|auto|trivial|lia].
Qed.

(** ** The public functions *)

Definition outcome_ok (m : counting text) (X : outcome bytes) (long small : Prop) (count k : Z) : Prop :=
  under_memory has is_text X k long (m k) /\ (small -> snd (m k) <= k + count).

Lemma yields_outcome m s (long small : Prop) count k : yields m s long small count k -> outcome_ok m (Ok s) long small count k.
Proof.
  unfold yields, wp, outcome_ok, under_memory, is_text. destruct (m k) as [[t|w|w|] k']; cbn [fst snd]; [| |contradiction|contradiction].
  - intros (E & _ & K & C). split; [split; [exact K|]; exists s; auto|exact C].
  - intros (K & C & D). split; [split; [exact K|]; right; exact D|exact C].
Qed.

Lemma outcome_weaken m X (long long' small small' : Prop) c c' k :
  outcome_ok m X long small c k -> (long -> long') -> (small' -> small) -> c <= c' -> outcome_ok m X long' small' c' k.
Proof.
  intros [[K U] C] L S CC. split.
  - split; [exact K|]. destruct (fst (m k)); auto. intuition.
  - intros H. specialize (C (S H)). lia.
Qed.

Lemma string_outcome (o : outcome formatter) k :
  outcome_ok (let! f := lift o in m_string has lib f) (let* f := o in f_string f)
    (result_too_long lib (let* f := o in f_string f)) True 1 k.
Proof.
  assert (B : k <= k /\ (True -> k <= k + 1)) by lia. destruct B as [B1 B2].
  unfold m_string. destruct o as [f|w|w|]; cbn [bind]; try (split; [split; [exact B1|]; cbn; auto|exact B2]).
  destruct (f_string f) as [s|w|w|] eqn:E;
    try (unfold outcome_ok, under_memory; cbv [then_ lift]; rewrite E; cbn [fst snd]; split; [split; [exact B1|]; auto|exact B2]).
  replace ((let! f0 := lift (Ok f) in let! s0 := lift (f_string f0) in t_new has lib s0) k) with (t_new has lib s k)
    by (cbv [then_ lift]; rewrite E; reflexivity).
  pose proof (yields_outcome _ _ _ _ _ _ (new_yields s k)) as [U C]. split.
  - unfold then_, lift. rewrite E. destruct U as [K U]. split; [exact K|]. destruct (fst _); auto.
    destruct U as [U|[U|[U1 U2]]]; auto. right. right. split; [exact U1|]. exists s. auto.
  - unfold then_, lift. rewrite E. exact C.
Qed.

Lemma lexi_outcome e v k : outcome_ok (m_lexi has lib e v) (lexi e v) (result_too_long lib (lexi e v)) True 1 k.
Proof.
  destruct v; try apply (string_outcome (Format e _) k).
  - apply (outcome_weaken _ _ (sl_max lib < size s) _ True _ 1); auto; [|intros; exists s; auto|lia]. apply yields_outcome, new_yields.
  - apply (outcome_weaken _ _ (sl_max lib < size (c_str_of s)) _ True _ 1); auto; [|intros; exists (c_str_of s); auto|lia]. apply yields_outcome, new_yields.
Qed.

Lemma char_string c : FormatChar_new c = Ok (MkFormatText [Some c; Some NUL] 1).
Proof. reflexivity. Qed.

(** A text and its conversion by [f]. *)
Lemma converted_yields (m : counting text) (f : bytes -> counting text) s s2 (long1 long2 small : Prop) c k :
  yields m s long1 True 1 k -> 0 <= c -> (forall k, yields (f s) s2 long2 small c k) ->
  yields (let! t := m in f (t_bytes t)) s2 (long1 \/ long2) small (1 + c) k.
Proof.
  intros H C N. apply (yields_then _ _ s _ _ long1 long2); auto; [|intros t k1 E F; rewrite E; apply N].
  eapply yields_weaken; [exact H|auto|auto|lia].
Qed.

Lemma outcome_eq m m' X X' (long small : Prop) c k : m k = m' k -> X = X' -> outcome_ok m' X' long small c k -> outcome_ok m X long small c k.
Proof. unfold outcome_ok. intros -> ->. auto. Qed.

(** The classes other than FormatChar. *)
Definition not_char (o : outcome formatter) : Prop := match o with Ok (FChar _) => False | _ => True end.
Lemma plain_escape e o k : not_char o -> (let! f := lift o in m_f_escape has lib e f) k = (let! f := lift o in m_string has lib f) k /\
  (let* f := o in f_escape e f) = (let* f := o in f_string f).
Proof. destruct o as [[]|w|w|]; intros []; split; reflexivity. Qed.
Lemma plain_jsonify e o k : not_char o -> (let! f := lift o in m_f_jsonify has lib e f) k = (let! f := lift o in m_string has lib f) k /\
  (let* f := o in f_jsonify e f) = (let* f := o in f_string f).
Proof. destruct o as [[]|w|w|]; intros []; split; reflexivity. Qed.
Lemma format_not_char e v : (forall c, v <> VChar c) -> not_char (Format e v).
Proof.
  intros N. destruct v; try (exfalso; apply (N c); reflexivity); cbn [Format]; try exact Logic.I;
    match goal with |- not_char (let* _ := ?o in _) => destruct o; exact Logic.I end.
Qed.

Lemma plain_escape_outcome e v k : (forall c, v <> VChar c) ->
  outcome_ok (let! f := lift (Format e v) in m_f_escape has lib e f) (let* f := Format e v in f_escape e f)
    (result_too_long lib (let* f := Format e v in f_escape e f)) True 1 k.
Proof.
  intros N. destruct (plain_escape e (Format e v) k (format_not_char e v N)) as [A B]. rewrite B.
  eapply outcome_eq; [exact A|reflexivity|apply string_outcome].
Qed.
Lemma plain_jsonify_outcome e v k : (forall c, v <> VChar c) ->
  outcome_ok (let! f := lift (Format e v) in m_f_jsonify has lib e f) (let* f := Format e v in f_jsonify e f)
    (result_too_long lib (let* f := Format e v in f_jsonify e f)) True 1 k.
Proof.
  intros N. destruct (plain_jsonify e (Format e v) k (format_not_char e v N)) as [A B]. rewrite B.
  eapply outcome_eq; [exact A|reflexivity|apply string_outcome].
Qed.

Lemma escape_outcome e v k : outcome_ok (m_escape_of has lib e v) (escape_of e v)
  (reserve_too_long lib v \/ result_too_long lib (escape_of e v)) (no_wrap lib v) 3 k.
Proof.
  set (cs := char_signed (e_platform e)).
  destruct v as [|b|c|t n|u|u|x|u n|off|s|s];
    try (eapply outcome_weaken; [apply (plain_escape_outcome e _ k); discriminate|auto|auto|lia]).
  - eapply outcome_weaken; [apply (yields_outcome (m_escape_of has lib e (VChar c)) (escape cs [c]))| | |].
    + apply (converted_yields (t_new has lib [c]) (m_escape has lib cs) [c]); [apply new_yields| |]; [|intros; apply escape_yields]. lia.
    + intros [H|[H|H]]; [left|left|right; eexists; split; [reflexivity|exact H]].
      * unfold reserve_too_long. change (size [c]) with 1 in H. lia.
      * unfold reserve_too_long. change (2 * size [c] + 1) with 3 in H.
        destruct OK as (_ & M & _). pose proof (Z.mod_le 3 (2 ^ sl_bits lib)). lia.
    + unfold no_wrap. change (2 * size [c] + 1) with 3. auto.
    + lia.
  - eapply outcome_weaken; [apply (yields_outcome (m_escape_of has lib e (VString s)) (escape cs s)), escape_yields| | |lia].
    + intros [H|H]; [left; exists s; auto|right; eexists; split; [reflexivity|exact H]].
    + intros H. apply H. reflexivity.
  - eapply outcome_weaken; [apply (yields_outcome (m_escape_of has lib e (VCString s)) (escape cs (c_str_of s)))| | |].
    + apply (converted_yields (t_new has lib _) (m_escape has lib cs) (c_str_of s)); [apply new_yields| |]; [|intros; apply escape_yields]. lia.
    + intros [H|[H|H]]; [left; exists (c_str_of s); auto|left; exists (c_str_of s); auto|right; eexists; split; [reflexivity|exact H]].
    + intros H. apply H. reflexivity.
    + lia.
Qed.

Lemma jsonify_outcome e v k : outcome_ok (m_jsonify_of has lib e v) (jsonify_of e v)
  (reserve_too_long lib v \/ result_too_long lib (jsonify_of e v)) (no_wrap lib v) 7 k.
Proof.
  set (cs := char_signed (e_platform e)).
  assert (Q : forall s, quoted_jsonify cs s = Ok ([chr 34] ++ flat_map jenc s ++ [chr 34])).
  { intros s. unfold quoted_jsonify. rewrite jsonify_eq. reflexivity. }
  destruct v as [|b|c|t n|u|u|x|u n|off|s|s];
    try (eapply outcome_weaken; [apply (plain_jsonify_outcome e _ k); discriminate|auto|auto|lia]).
  - change (jsonify_of e (VChar c)) with (quoted_jsonify cs [c]). rewrite Q.
    eapply outcome_weaken; [apply (yields_outcome (m_jsonify_of has lib e (VChar c)))| | |].
    + apply (converted_yields (t_new has lib [c]) (m_quoted has lib cs) [c]); [apply new_yields| |]; [|intros; apply quoted_yields]. lia.
    + intros [H|[H|H]]; [left|left|right; eexists; split; [reflexivity|exact H]].
      * unfold reserve_too_long. change (size [c]) with 1 in H. lia.
      * unfold reserve_too_long. change (2 * size [c] + 1) with 3 in H.
        destruct OK as (_ & M & _). pose proof (Z.mod_le 3 (2 ^ sl_bits lib)). lia.
    + unfold no_wrap. change (2 * size [c] + 1) with 3. auto.
    + lia.
  - change (jsonify_of e (VString s)) with (quoted_jsonify cs s). rewrite Q.
    eapply outcome_weaken; [apply (yields_outcome (m_jsonify_of has lib e (VString s))), quoted_yields| | |lia].
    + intros [H|H]; [left; exists s; auto|right; eexists; split; [reflexivity|exact H]].
    + intros H. apply H. reflexivity.
  - change (jsonify_of e (VCString s)) with (quoted_jsonify cs (c_str_of s)). rewrite Q.
    eapply outcome_weaken; [apply (yields_outcome (m_jsonify_of has lib e (VCString s)))| | |].
    + apply (converted_yields (t_new has lib _) (m_quoted has lib cs) (c_str_of s)); [apply new_yields| |]; [|intros; apply quoted_yields]. lia.
    + intros [H|[H|H]]; [left; exists (c_str_of s); auto|left; exists (c_str_of s); auto|right; eexists; split; [reflexivity|exact H]].
    + intros H. apply H. reflexivity.
    + lia.
Qed.

(** Extraction. *)
Lemma extract_outcome e point T s k :
  under_memory has eq (extract e point T s) k False (m_extract has lib e point T s k) /\ snd (m_extract has lib e point T s k) <= k + 1 /\
  (forall x, extract e point T s = Ok x -> m_extract has lib e point T s k = (Ok x, k)).
Proof.
  unfold m_extract. destruct (extract e point T s) as [x|w|w|] eqn:E; unfold under_memory; cbn [fst snd].
  - repeat split; try lia; [exists x; auto|]. intros y [= ->]. reflexivity.
  - destruct (sl_error lib); cbn [fst snd]; [|repeat split; try lia; auto; discriminate].
    unfold then_, allocate. destruct (has k _) eqn:HA; cbn [lift fst snd]; (split; [split; [lia|]|split; [lia|discriminate]]); auto.
    right. left. split; [reflexivity|]. exists k. eexists. split; [lia|exact HA].
  - repeat split; try lia; auto; discriminate.
  - repeat split; try lia; auto; discriminate.
Qed.

Lemma extract_cstr_outcome e point T s k :
  under_memory has eq (extract_cstr e point T s) k (sl_max lib < size (c_str_of s)) (m_extract_cstr has lib e point T s k) /\
  snd (m_extract_cstr has lib e point T s k) <= k + 2.
Proof.
  unfold m_extract_cstr, extract_cstr, then_. pose proof (new_yields (c_str_of s) k) as H. unfold yields, wp in H.
  destruct (t_new has lib (c_str_of s) k) as [[t|w|w|] k1]; try contradiction.
  - destruct H as (E & _ & K & C). specialize (C Logic.I). rewrite E.
    destruct (extract_outcome e point T (c_str_of s) k1) as ([K2 U] & C2 & _). split; [|lia]. split; [lia|].
    destruct (fst _); auto. destruct U as [U|[[-> (j & n & J & HA)]|[_ []]]]; auto.
    right. left. split; [reflexivity|]. exists j, n. split; [lia|exact HA].
  - destruct H as (K & C & D). specialize (C Logic.I). cbn [fst snd]. unfold under_memory. cbn [fst snd]. split; [|lia]. split; [lia|]. right. exact D.
Qed.

(** ** Texts inside the object *)

Lemma new_inside s k : size s <= sl_inside lib -> t_new has lib s k = (Ok (Text s (sl_inside lib)), k).
Proof.
  intros H. unfold t_new. change (Z.of_nat (length s)) with (size s). pose proof (proj1 OK).
  destruct (Z.ltb_spec (sl_max lib) (size s)); [lia|]. destruct (Z.leb_spec (size s) (sl_inside lib)); [reflexivity|lia].
Qed.

Lemma lexi_inside e v s k : lexi e v = Ok s -> size s <= sl_inside lib -> m_lexi has lib e v k = (Ok (Text s (sl_inside lib)), k).
Proof.
  assert (G : (let* f := Format e v in f_string f) = Ok s -> size s <= sl_inside lib ->
    (let! f := lift (Format e v) in m_string has lib f) k = (Ok (Text s (sl_inside lib)), k)).
  { intros E S. unfold then_, lift, m_string. destruct (Format e v) as [f| | |]; try discriminate E. cbn [bind] in E.
    cbv [then_ lift]. rewrite E. apply new_inside, S. }
  destruct v; try exact G.
  - intros E S. injection E as ->. apply new_inside, S.
  - intros E S. injection E as <-. apply new_inside, S.
Qed.

Definition inv_inside (k0 k c : Z) : Prop := k = k0 /\ c = sl_inside lib.
Lemma inv_inside_kept k0 limit : limit <= sl_inside lib -> kept (inv_inside k0) limit.
Proof. intros H k c n [-> ->] C L. lia. Qed.

Lemma whole_inside step enc src k : step_ok step enc -> 2 * size src + 1 <= sl_inside lib -> size (flat_map enc src) <= sl_inside lib ->
  (let! dst := t_reserve has lib (t_empty lib) (double_size lib src) in
   let! dst := loop_chars step src dst in t_shrink_to_fit has lib dst) k = (Ok (Text (flat_map enc src) (sl_inside lib)), k).
Proof.
  intros SO S1 S2. pose proof (size_nonneg src) as N. destruct OK as ((IN & IM) & M & _).
  assert (D : double_size lib src = 2 * size src + 1).
  { unfold double_size, uwrap. rewrite Z.mod_small; unfold size in *; lia. }
  unfold then_. unfold t_reserve. cbn [t_empty t_capacity]. rewrite D. destruct (Z.leb_spec (2 * size src + 1) (sl_inside lib)); [|lia].
  unfold returns at 1.
  assert (H1 : wp (loop_chars step src (t_empty lib)) (fun t' k' => t_bytes t' = t_bytes (t_empty lib) ++ flat_map enc src /\ fits t' /\ inv_inside k k' (t_capacity t'))
    (fails (inv_inside k) (sl_max lib < size (t_bytes (t_empty lib)) + size (flat_map enc src))) k).
  { apply (loop_ok step enc (inv_inside k) (sl_inside lib)); auto.
    - apply inv_inside_kept. lia.
    - unfold fits, t_empty. cbn. lia.
    - split; reflexivity. }
  unfold wp in H1. change (size (t_bytes (t_empty lib))) with 0 in H1.
  destruct (loop_chars step src (t_empty lib) k) as [[t|w|w|] k']; try contradiction.
  - destruct H1 as (E & _ & [-> C]). destruct t as [b c]. cbn [t_bytes t_capacity] in *. subst.
    unfold t_shrink_to_fit. cbn [t_capacity]. rewrite Z.leb_refl. destruct (sl_shrink lib); reflexivity.
  - destruct H1 as [(_ & _ & [c [A _]] & [c' [B _]])|(_ & L & _)]; exfalso; lia.
Qed.

Lemma escape_inside cs src k : 2 * size src + 1 <= sl_inside lib ->
  m_escape has lib cs src k = (Ok (Text (escape cs src) (sl_inside lib)), k).
Proof.
  intros S. rewrite escape_flat. apply whole_inside; [apply escape_step_ok|exact S|].
  pose proof (flat_map_bound (eenc cs) 2 src (eenc_bound cs)). lia.
Qed.

Lemma quoted_inside cs src k s : quoted_jsonify cs src = Ok s -> 2 * size src + 1 <= sl_inside lib -> size s <= sl_inside lib ->
  m_quoted has lib cs src k = (Ok (Text s (sl_inside lib)), k).
Proof.
  intros Q S1 S2. unfold quoted_jsonify in Q. rewrite jsonify_eq in Q. cbn [bind] in Q. injection Q as <-.
  set (r := flat_map jenc src) in *. 
  assert (S3 : size r + 2 <= sl_inside lib).
  { unfold size in *. cbn [length app] in S2. rewrite app_length in S2. cbn [length] in S2. lia. }
  assert (J : m_jsonify has lib cs src k = (Ok (Text r (sl_inside lib)), k)).
  { apply whole_inside; [apply jsonify_step_ok|exact S1|]. fold r. lia. }
  unfold m_quoted, then_ at 1. rewrite J. unfold t_prepend, t_append, t_reserve, t_size, then_. cbn [t_bytes t_capacity].
  unfold size in *. cbn [length app].
  replace (Z.of_nat (length r) + Z.of_nat 1 <=? sl_inside lib) with true by (symmetry; apply Z.leb_le; lia).
  unfold returns. cbn [t_bytes t_capacity length].
  replace (Z.of_nat (S (length r)) + Z.of_nat 1 <=? sl_inside lib) with true by (symmetry; apply Z.leb_le; lia).
  reflexivity.
Qed.
End Memory.

(** ** The libraries *)

Lemma lor15 n : 0 <= n -> n <= Z.lor n 15 <= n + 15.
Proof.
  intros H. pose proof (Z.div_mod n 16 ltac:(lia)) as D. pose proof (Z.mod_pos_bound n 16 ltac:(lia)) as B.
  set (q := n / 16) in *. set (r := n mod 16) in *. clearbody q r. subst n.
  assert (R : Z.lor r 15 = 15).
  { change 15 with (Z.ones 4). apply Z.lor_ones_low; [lia|]. destruct (Z.eq_dec r 0) as [->|]; [reflexivity|]. apply Z.log2_lt_pow2; lia. }
  replace (16 * q + r) with (q * 2 ^ 4 + r) by lia. rewrite <- (lor_add q r 4) by lia. rewrite <- Z.lor_assoc, R, !lor_add by lia. lia.
Qed.

Lemma libstdcxx_ok bits : 8 <= bits -> library_ok (libstdcxx bits).
Proof.
  intros B. pose proof (Z.pow_le_mono_r 2 7 (bits - 1) ltac:(lia) ltac:(lia)). change (2 ^ 7) with 128 in *.
  assert (2 ^ bits = 2 * 2 ^ (bits - 1)) by (rewrite <- Z.pow_succ_r by lia; f_equal; lia).
  unfold library_ok, libstdcxx. cbn [sl_inside sl_max sl_bits sl_exact sl_grow]. repeat split; try lia.
  all: Z.to_euclidean_division_equations; lia.
Qed.

Lemma libcxx_ok bits : 8 <= bits -> library_ok (libcxx bits).
Proof.
  intros B. pose proof (Z.pow_le_mono_r 2 8 bits ltac:(lia) ltac:(lia)). change (2 ^ 8) with 256 in *.
  unfold library_ok, libcxx. cbn [sl_inside sl_max sl_bits sl_exact sl_grow]. split; [lia|]. split; [lia|]. split.
  - intros n N. pose proof (lor15 n). lia.
  - intros c n C N. pose proof (lor15 (Z.max n (2 * c))). Z.to_euclidean_division_equations. lia.
Qed.

Lemma microsoft_ok bits : 8 <= bits -> library_ok (microsoft bits).
Proof.
  intros B. pose proof (Z.pow_le_mono_r 2 7 (bits - 1) ltac:(lia) ltac:(lia)). change (2 ^ 7) with 128 in *.
  assert (2 ^ bits = 2 * 2 ^ (bits - 1)) by (rewrite <- Z.pow_succ_r by lia; f_equal; lia).
  unfold library_ok, microsoft. cbn [sl_inside sl_max sl_bits sl_exact sl_grow]. split; [lia|]. split; [lia|]. split.
  - intros n N. pose proof (lor15 n). lia.
  - intros c n C N. pose proof (lor15 n). lia.
Qed.

(** ** The theorems *)

Lemma memory_lexi has lib e v k : library_ok lib ->
  under_memory has is_text (lexi e v) k (result_too_long lib (lexi e v)) (m_lexi has lib e v k) /\ snd (m_lexi has lib e v k) <= k + 1.
Proof. intros OK. destruct (lexi_outcome has lib OK e v k) as [A B]. auto. Qed.

Lemma memory_escape has lib e v k : library_ok lib ->
  under_memory has is_text (escape_of e v) k (reserve_too_long lib v \/ result_too_long lib (escape_of e v)) (m_escape_of has lib e v k).
Proof. intros OK. apply (escape_outcome has lib OK e v k). Qed.
Lemma memory_jsonify has lib e v k : library_ok lib ->
  under_memory has is_text (jsonify_of e v) k (reserve_too_long lib v \/ result_too_long lib (jsonify_of e v)) (m_jsonify_of has lib e v k).
Proof. intros OK. apply (jsonify_outcome has lib OK e v k). Qed.

Lemma memory_inside has lib e v s k : library_ok lib -> size s <= sl_inside lib -> 15 <= sl_inside lib ->
  (lexi e v = Ok s -> m_lexi has lib e v k = (Ok (Text s (sl_inside lib)), k)) /\
  (escape_of e v = Ok s -> (forall src, source v = Some src -> 2 * size src + 1 <= sl_inside lib) ->
    m_escape_of has lib e v k = (Ok (Text s (sl_inside lib)), k)) /\
  (jsonify_of e v = Ok s -> (forall src, source v = Some src -> 2 * size src + 1 <= sl_inside lib) ->
    m_jsonify_of has lib e v k = (Ok (Text s (sl_inside lib)), k)).
Proof.
  intros OK S B. split; [|split].
  - intros E. apply lexi_inside; auto.
  - intros E SRC. set (cs := char_signed (e_platform e)).
    assert (P : (forall c, v <> VChar c) -> (let* f := Format e v in f_escape e f) = Ok s ->
      (let! f := lift (Format e v) in m_f_escape has lib e f) k = (Ok (Text s (sl_inside lib)), k)).
    { intros N F. destruct (plain_escape has lib e (Format e v) k (format_not_char e v N)) as [A A2]. rewrite A2 in F.
      etransitivity; [exact A|]. unfold m_string. cbv [then_ lift]. destruct (Format e v) as [f| | |]; try discriminate F.
      cbn [bind] in F. rewrite F. apply new_inside; auto. }
    destruct v as [|b|c|t n|u|u|x|u n|off|src|src]; try (apply P; [discriminate|exact E]).
    + change (m_escape_of has lib e (VChar c) k) with ((let! t := t_new has lib [c] in m_escape has lib cs (t_bytes t)) k).
      unfold then_. rewrite (new_inside has lib OK [c] k) by (change (size [c]) with 1; lia). cbn [t_bytes].
      change (escape_of e (VChar c)) with (Ok (escape cs [c])) in E. injection E as <-. apply escape_inside; [exact OK|].
      change (2 * size [c] + 1) with 3. lia.
    + injection E as <-. apply escape_inside; [exact OK|]. apply SRC. reflexivity.
    + injection E as <-. specialize (SRC _ eq_refl). pose proof (size_nonneg (c_str_of src)).
      change (m_escape_of has lib e (VCString src) k) with ((let! t := t_new has lib (c_str_of src) in m_escape has lib cs (t_bytes t)) k).
      unfold then_. rewrite (new_inside has lib OK (c_str_of src) k) by lia. cbn [t_bytes]. apply escape_inside; auto.
  - intros E SRC. set (cs := char_signed (e_platform e)).
    assert (P : (forall c, v <> VChar c) -> (let* f := Format e v in f_jsonify e f) = Ok s ->
      (let! f := lift (Format e v) in m_f_jsonify has lib e f) k = (Ok (Text s (sl_inside lib)), k)).
    { intros N F. destruct (plain_jsonify has lib e (Format e v) k (format_not_char e v N)) as [A A2]. rewrite A2 in F.
      etransitivity; [exact A|]. unfold m_string. cbv [then_ lift]. destruct (Format e v) as [f| | |]; try discriminate F.
      cbn [bind] in F. rewrite F. apply new_inside; auto. }
    destruct v as [|b|c|t n|u|u|x|u n|off|src|src]; try (apply P; [discriminate|exact E]).
    + change (m_jsonify_of has lib e (VChar c) k) with ((let! t := t_new has lib [c] in m_quoted has lib cs (t_bytes t)) k).
      unfold then_. rewrite (new_inside has lib OK [c] k) by (change (size [c]) with 1; lia). cbn [t_bytes].
      apply quoted_inside; auto. change (2 * size [c] + 1) with 3. lia.
    + apply quoted_inside; auto.
    + specialize (SRC _ eq_refl). pose proof (size_nonneg (c_str_of src)).
      change (m_jsonify_of has lib e (VCString src) k) with ((let! t := t_new has lib (c_str_of src) in m_quoted has lib cs (t_bytes t)) k).
      unfold then_. rewrite (new_inside has lib OK (c_str_of src) k) by lia. cbn [t_bytes]. apply quoted_inside; auto.
Qed.

Lemma short_size e v s : platform_ok (e_platform e) -> short_value e v ->
  lexi e v = Ok s \/ escape_of e v = Ok s \/ jsonify_of e v = Ok s -> size s <= 15.
Proof.
  intros HP SV H.
  assert (T : forall o n, ft_size o = n -> FormatText_string o = Ok s -> size s = Z.of_nat (Z.to_nat n)).
  { intros o n <- R. unfold FormatText_string, FormatText_size in R. apply ProofText.buf_read_n_length in R. unfold size. lia. }
  assert (TN : forall lit, (let* f := let* o := FormatNull_new lit in Ok (FNull o) in f_string f) = Ok s -> size s <= 15).
  { intros lit R. unfold FormatNull_new in R. destruct (buf_strncpy_literal _ _ _) as [m| | |]; try discriminate R. cbn [bind f_string] in R.
    apply (T _ 4) in R; [lia|reflexivity]. }
  assert (TB : forall lit b, (let* f := let* o := FormatBool_new lit b in Ok (FBool o) in f_string f) = Ok s -> size s <= 15).
  { intros lit b R. unfold FormatBool_new in R. destruct b; destruct (buf_strncpy_literal _ _ _) as [m| | |]; try discriminate R; cbn [bind f_string] in R.
    - apply (T _ 4) in R; [lia|reflexivity].
    - apply (T _ 5) in R; [lia|reflexivity]. }
  destruct v as [|b|c|t n| | | | | | | ]; try contradiction SV.
  - destruct H as [H|[H|H]]; apply (TN (e_lit e)).
    + exact H.
    + rewrite <- H. cbn [escape_of]. symmetry. apply (plain_escape (fun _ _ => true) (libstdcxx 64) e _ 0 (format_not_char e VNull ltac:(discriminate))).
    + rewrite <- H. cbn [jsonify_of]. symmetry. apply (plain_jsonify (fun _ _ => true) (libstdcxx 64) e _ 0 (format_not_char e VNull ltac:(discriminate))).
  - destruct H as [H|[H|H]]; apply (TB (e_lit e) b).
    + exact H.
    + rewrite <- H. cbn [escape_of]. symmetry. apply (plain_escape (fun _ _ => true) (libstdcxx 64) e _ 0 (format_not_char e (VBool b) ltac:(discriminate))).
    + rewrite <- H. cbn [jsonify_of]. symmetry. apply (plain_jsonify (fun _ _ => true) (libstdcxx 64) e _ 0 (format_not_char e (VBool b) ltac:(discriminate))).
  - set (cs := char_signed (e_platform e)). destruct H as [H|[H|H]].
    + change (lexi e (VChar c)) with (Ok [c]) in H. injection H as <-. cbn. lia.
    + change (escape_of e (VChar c)) with (Ok (escape cs [c])) in H. injection H as <-. rewrite escape_flat.
      pose proof (flat_map_bound (eenc cs) 2 [c] (eenc_bound cs)) as B. change (size [c]) with 1 in B. lia.
    + change (jsonify_of e (VChar c)) with (quoted_jsonify cs [c]) in H. unfold quoted_jsonify in H. rewrite jsonify_eq in H. cbn [bind] in H.
      apply Ok_inj in H. subst s. rewrite !size_app. pose proof (flat_map_bound jenc 6 [c] jenc_bound) as B. change (size [c]) with 1 in B.
      change (size [chr 34]) with 1. lia.
  - destruct SV as [HV BITS].
    assert (L : lexi e (VInt t n) = Ok s).
    { destruct H as [H|[H|H]]; [exact H| |]; rewrite <- H; cbn [escape_of jsonify_of lexi]; symmetry.
      - apply (plain_escape (fun _ _ => true) (libstdcxx 64) e _ 0 (format_not_char e (VInt t n) ltac:(discriminate))).
      - apply (plain_jsonify (fun _ _ => true) (libstdcxx 64) e _ 0 (format_not_char e (VInt t n) ltac:(discriminate))). }
    pose proof (ProofMore3.integer_size e t n s HP HV L) as [_ S]. unfold size.
    assert (G : (SpecMore.integer_limit (int_bits (e_platform e) t) (int_signed t) <= 11)%nat).
    { destruct HP as [P _]. destruct t; cbn [int_bits int_signed] in *; try (exfalso; lia); try (vm_compute; lia);
        (destruct P as [P|[P _]]; rewrite P in BITS |- *; [vm_compute; lia|exfalso; lia]). }
    lia.
Qed.

Lemma memory_short has lib e v s k : library_ok lib -> 15 <= sl_inside lib -> platform_ok (e_platform e) -> short_value e v ->
  (lexi e v = Ok s -> m_lexi has lib e v k = (Ok (Text s (sl_inside lib)), k)) /\
  (escape_of e v = Ok s -> m_escape_of has lib e v k = (Ok (Text s (sl_inside lib)), k)) /\
  (jsonify_of e v = Ok s -> m_jsonify_of has lib e v k = (Ok (Text s (sl_inside lib)), k)).
Proof.
  intros OK I HP SV. assert (N : forall src, source v = Some src -> 2 * size src + 1 <= sl_inside lib).
  { intros src. destruct v; try contradiction SV; discriminate. }
  split; [|split]; intros H; (assert (S : size s <= 15) by (apply (short_size e v s HP SV); auto));
    destruct (memory_inside has lib e v s k OK ltac:(lia) I) as (A & B & C); auto.
Qed.

(** With memory for everything, only the lengths matter. *)
Lemma memory_enough lib e v k : library_ok lib ->
  (forall s, lexi e v = Ok s -> size s <= sl_max lib -> exists t k', m_lexi plenty lib e v k = (Ok t, k') /\ t_bytes t = s) /\
  (forall s, escape_of e v = Ok s -> size s <= sl_max lib -> ~ reserve_too_long lib v ->
     exists t k', m_escape_of plenty lib e v k = (Ok t, k') /\ t_bytes t = s) /\
  (forall s, jsonify_of e v = Ok s -> size s <= sl_max lib -> ~ reserve_too_long lib v ->
     exists t k', m_jsonify_of plenty lib e v k = (Ok t, k') /\ t_bytes t = s).
Proof.
  intros OK.
  assert (G : forall X long (r : outcome text * Z) s, X = Ok s -> under_memory plenty is_text X k long r -> ~ long ->
    exists t k', r = (Ok t, k') /\ t_bytes t = s).
  { intros X long [o k'] s -> [_ U] L. cbn [fst snd] in U. destruct o as [t|w|w|]; try discriminate U.
    - destruct U as (a & A & B). apply Ok_inj in A. subst a. exists t, k'. auto.
    - destruct U as [U|[(_ & j & n & _ & U)|[_ U]]]; [discriminate U|discriminate U|contradiction]. }
  assert (R : forall X s, X = Ok s -> size s <= sl_max lib -> ~ result_too_long lib X).
  { intros X s -> S (s' & E & L). apply Ok_inj in E. subst s'. lia. }
  split; [|split]; intros s E S.
  - apply (G _ _ _ _ E (proj1 (memory_lexi plenty lib e v k OK))). eapply R; eauto.
  - intros N. apply (G _ _ _ _ E (memory_escape plenty lib e v k OK)). intros [H|H]; [auto|]. eapply R in H; eauto.
  - intros N. apply (G _ _ _ _ E (memory_jsonify plenty lib e v k OK)). intros [H|H]; [auto|]. eapply R in H; eauto.
Qed.

Lemma escape_plain cs n : escape cs (repeat "a"%char n) = repeat "a"%char n.
Proof.
  rewrite escape_flat. induction n as [|n IH]; [reflexivity|]. cbn [repeat flat_map]. rewrite IH.
  replace (eenc cs "a"%char) with ["a"%char] by (destruct cs; reflexivity). reflexivity.
Qed.

(** A string of more than half of max_size() characters cannot be escaped. *)
Lemma length_error_seen has lib e k : library_ok lib -> 1 <= sl_max lib -> sl_max lib + 2 < 2 ^ sl_bits lib ->
  exists src s, escape_of e (VString src) = Ok s /\ size s <= sl_max lib /\ m_escape_of has lib e (VString src) k = (Throw length_error, k).
Proof.
  intros OK M W. set (n := (sl_max lib + 1) / 2). assert (N : sl_max lib + 1 <= 2 * n + 1 <= sl_max lib + 2).
  { unfold n. Z.to_euclidean_division_equations. lia. }
  set (src := repeat "a"%char (Z.to_nat n)). exists src, src.
  assert (S : size src = n) by (unfold src, size; rewrite repeat_length; lia).
  split; [cbn [escape_of]; unfold src; rewrite escape_plain; reflexivity|]. split; [lia|].
  cbn [m_escape_of]. unfold m_escape, then_, t_reserve. cbn [t_empty t_capacity].
  assert (D : double_size lib src = 2 * n + 1).
  { unfold double_size, uwrap. rewrite Z.mod_small; unfold size in S; lia. }
  rewrite D. destruct OK as ((IN & IM) & _). destruct (Z.leb_spec (2 * n + 1) (sl_inside lib)); [lia|].
  destruct (Z.ltb_spec (sl_max lib) (2 * n + 1)); [reflexivity|lia].
Qed.

Lemma libraries_ok bits : 8 <= bits -> library_ok (libstdcxx bits) /\ library_ok (libcxx bits) /\ library_ok (microsoft bits).
Proof. intros B. split; [|split]; [apply libstdcxx_ok|apply libcxx_ok|apply microsoft_ok]; exact B. Qed.
Lemma memory_lexi1 has lib e v k : library_ok lib ->
  under_memory has is_text (lexi e v) k (result_too_long lib (lexi e v)) (m_lexi has lib e v k).
Proof. intros OK. apply (memory_lexi has lib e v k OK). Qed.
Lemma memory_extract_cstr has lib e point T s k : library_ok lib ->
  under_memory has eq (extract_cstr e point T s) k (sl_max lib < size (c_str_of s)) (m_extract_cstr has lib e point T s k) /\
  snd (m_extract_cstr has lib e point T s k) <= k + 2.
Proof. intros OK. apply extract_cstr_outcome. exact OK. Qed.

Lemma allocations_lexi has lib e v k : library_ok lib -> k <= snd (m_lexi has lib e v k) <= k + 1.
Proof. intros OK. destruct (memory_lexi has lib e v k OK) as [[A _] B]. lia. Qed.

Lemma yields_count has lib m s long (small : Prop) c k : yields has lib m s long small c k -> small -> snd (m k) <= k + c.
Proof. intros H S. apply (yields_outcome has lib) in H. destruct H as [_ H]. auto. Qed.

Lemma allocations_escape has lib e v k : library_ok lib -> no_wrap lib v ->
  k <= snd (m_escape_of has lib e v k) <= k + match v with VString _ => 2 | VChar _ | VCString _ => 3 | _ => 1 end.
Proof.
  intros OK N. destruct (escape_outcome has lib OK e v k) as [[A _] B]. specialize (B N). split; [exact A|].
  destruct v as [|b|c|t n|u|u|x|u n|off|s|s]; try lia;
    try (match goal with |- context [m_escape_of _ _ _ ?v _] => destruct (plain_escape_outcome has lib OK e v k ltac:(discriminate)) as [_ P] end; exact (P I)).
  eapply yields_count; [apply (escape_yields has lib OK)|]. apply N. reflexivity.
Qed.
Lemma allocations_jsonify has lib e v k : library_ok lib -> no_wrap lib v ->
  k <= snd (m_jsonify_of has lib e v k) <= k + match v with VString _ => 6 | VChar _ | VCString _ => 7 | _ => 1 end.
Proof.
  intros OK N. destruct (jsonify_outcome has lib OK e v k) as [[A _] B]. specialize (B N). split; [exact A|].
  destruct v as [|b|c|t n|u|u|x|u n|off|s|s]; try lia;
    try (match goal with |- context [m_jsonify_of _ _ _ ?v _] => destruct (plain_jsonify_outcome has lib OK e v k ltac:(discriminate)) as [_ P] end; exact (P I)).
  eapply yields_count; [apply (quoted_yields has lib OK)|]. apply N. reflexivity.
Qed.

(** Without any memory, what does not fit into the object cannot be made. *)
Lemma new_outside lib s k : sl_inside lib < size s <= sl_max lib -> t_new (fun _ _ => false) lib s k = (Throw bad_alloc, k + 1).
Proof.
  intros S. unfold t_new. change (Z.of_nat (length s)) with (size s).
  destruct (Z.ltb_spec (sl_max lib) (size s)); [lia|]. destruct (Z.leb_spec (size s) (sl_inside lib)); [lia|reflexivity].
Qed.
Lemma reserve_outside lib src k : sl_inside lib < (2 * size src + 1) mod 2 ^ sl_bits lib <= sl_max lib ->
  t_reserve (fun _ _ => false) lib (t_empty lib) (double_size lib src) k = (Throw bad_alloc, k + 1).
Proof.
  intros S. assert (D : double_size lib src = (2 * size src + 1) mod 2 ^ sl_bits lib).
  { unfold double_size, uwrap, size. f_equal. lia. }
  rewrite <- D in S. unfold t_reserve. cbn [t_empty t_capacity].
  destruct (Z.leb_spec (double_size lib src) (sl_inside lib)); [lia|].
  destruct (Z.ltb_spec (sl_max lib) (double_size lib src)); [lia|reflexivity].
Qed.

Lemma memory_outside lib e v s k : library_ok lib -> 
  (lexi e v = Ok s -> sl_inside lib < size s <= sl_max lib -> m_lexi (fun _ _ => false) lib e v k = (Throw bad_alloc, k + 1)) /\
  (forall src, v = VString src -> sl_inside lib < (2 * size src + 1) mod 2 ^ sl_bits lib <= sl_max lib ->
    m_escape_of (fun _ _ => false) lib e v k = (Throw bad_alloc, k + 1) /\
    m_jsonify_of (fun _ _ => false) lib e v k = (Throw bad_alloc, k + 1)).
Proof.
  intros OK. split.
  - assert (G : (let* f := Format e v in f_string f) = Ok s -> sl_inside lib < size s <= sl_max lib ->
      (let! f := lift (Format e v) in m_string (fun _ _ => false) lib f) k = (Throw bad_alloc, k + 1)).
    { intros E S. unfold m_string. cbv [then_ lift]. destruct (Format e v) as [f| | |]; try discriminate E. cbn [bind] in E.
      rewrite E. apply new_outside, S. }
    destruct v; try exact G; intros E S; injection E as E; subst; apply new_outside, S.
  - intros src -> S. cbn [m_escape_of m_jsonify_of]. unfold m_quoted, m_escape, m_jsonify, then_. rewrite (reserve_outside lib src k S). auto.
Qed.
