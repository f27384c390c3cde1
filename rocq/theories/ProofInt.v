(** Proofs about int.cpp, enum.hpp and strtoull *)
From Verif Require Import Machine SpecDecimal SpecInt LibMachine ModelItoa ModelInt ProofItoa.
Ltac Zify.zify_post_hook ::= Z.div_mod_to_equations.

Lemma is_digit_not_NUL l : Forall is_digit l -> Forall (fun c => c <> NUL) l.
Proof.
  apply Forall_impl. intros c H E. subst. unfold is_digit in H. rewrite code_NUL in H. lia.
Qed.

Lemma canonical_integer_not_NUL l v : canonical_integer l v -> Forall (fun c => c <> NUL) l.
Proof.
  intros [[_ H]|[_ (r & -> & H)]].
  - apply is_digit_not_NUL, H.
  - constructor; [discriminate|]. apply is_digit_not_NUL, H.
Qed.

(** What it means for a FormatInt object to hold the text [s]. *)
Definition FormatInt_holds (o : FormatInt) (s : bytes) : Prop :=
  FormatInt_string o = Ok s /\ FormatInt_c_str o = Ok s /\
  FormatInt_size o = Z.of_nat (length s) /\ length (fi_buffer o) = INTEGER_SIZE.

Lemma FormatInt_body_holds xtoa v ok :
  writes 21 (xtoa v) ok ->
  (forall s, ok s -> Forall (fun c => c <> NUL) s) ->
  exists o s, FormatInt_body xtoa v = Ok o /\ ok s /\ FormatInt_holds o s.
Proof.
  intros W Hnul. unfold FormatInt_body.
  destruct (W [] (new_buf INTEGER_SIZE)) as (s & t & E & Hok & Hl & Hn).
  { cbn. lia. }
  change (Cursor (new_buf INTEGER_SIZE) 0) with (at_end [] (new_buf INTEGER_SIZE)).
  rewrite E. cbn [bind app].
  assert (Hlen : length (new_buf INTEGER_SIZE) = 22%nat) by reflexivity.
  destruct t as [|x t]; [cbn [length] in Hl; lia|].
  unfold at_end; cbn [cbuf cpos].
  replace (Z.of_nat (length s)) with (Z.of_nat (length (map (@Some ascii) s)))
    by (rewrite map_length; reflexivity).
  rewrite buf_write_app. cbn [bind].
  eexists _, s. split; [reflexivity|]. split; [exact Hok|].
  unfold FormatInt_holds, FormatInt_string, FormatInt_c_str, FormatInt_size; cbn [fi_buffer fi_first fi_last].
  rewrite !map_length, Z.sub_0_r, Nat2Z.id. repeat split.
  - apply (buf_read_n_app []).
  - apply (buf_c_string_app _ []); [apply Hnul; exact Hok|].
    rewrite app_length, map_length. cbn [length]. lia.
  - rewrite app_length, map_length. cbn [length] in *. unfold INTEGER_SIZE. lia.
Qed.

Lemma canonical_natural_integer l v : 0 <= v -> canonical_natural l v -> canonical_integer l v.
Proof. intros H C. left. split; assumption. Qed.

Lemma writes_impl n w (P Q : bytes -> Prop) : (forall s, P s -> Q s) -> writes n w P -> writes n w Q.
Proof.
  intros H W out tail Ht. destruct (W out tail Ht) as (ds & t & E & Hok & R).
  exists ds, t. split; [exact E|]. split; [apply H; exact Hok|exact R].
Qed.

Lemma swrap_id w v : 0 < w -> - 2 ^ (w - 1) <= v < 2 ^ (w - 1) -> swrap w v = v.
Proof.
  intros Hw Hv. unfold swrap.
  assert (E : 2 ^ w = 2 * 2 ^ (w - 1)) by (rewrite <- Z.pow_succ_r by lia; f_equal; lia).
  rewrite E. set (m := 2 ^ (w - 1)) in *. clearbody m.
  destruct (Z.ltb_spec (v mod (2 * m)) m).
  - destruct (Z_lt_le_dec v 0).
    + exfalso. assert (v mod (2 * m) = v + 2 * m).
      { symmetry. apply Z.mod_unique_pos with (q := -1); lia. } lia.
    + apply Z.mod_small. lia.
  - destruct (Z_lt_le_dec v 0).
    + assert (v mod (2 * m) = v + 2 * m).
      { symmetry. apply Z.mod_unique_pos with (q := -1); lia. } lia.
    + rewrite Z.mod_small in H by lia. lia.
Qed.

Lemma uwrap_id w v : 0 <= v < 2 ^ w -> uwrap w v = v.
Proof. intros. apply Z.mod_small. assumption. Qed.

Lemma body_i32 v : - 2 ^ 31 <= v < 2 ^ 31 ->
  exists o s, FormatInt_body i32toa (swrap 32 v) = Ok o /\ canonical_integer s v /\ FormatInt_holds o s.
Proof.
  intros H. rewrite swrap_id by (cbn; lia).
  apply FormatInt_body_holds.
  - eapply writes_weaken; [|apply i32toa_correct]; lia.
  - intros s. apply canonical_integer_not_NUL.
Qed.

Lemma body_u32 v : 0 <= v < 2 ^ 32 ->
  exists o s, FormatInt_body u32toa (uwrap 32 v) = Ok o /\ canonical_integer s v /\ FormatInt_holds o s.
Proof.
  intros H. rewrite uwrap_id by lia.
  apply FormatInt_body_holds.
  - eapply writes_weaken; [|eapply writes_impl; [|apply u32toa_correct]]; try lia.
    intros s. apply canonical_natural_integer. lia.
  - intros s. apply canonical_integer_not_NUL.
Qed.

Lemma body_i64 v : - 2 ^ 63 <= v < 2 ^ 63 ->
  exists o s, FormatInt_body i64toa (swrap 64 v) = Ok o /\ canonical_integer s v /\ FormatInt_holds o s.
Proof.
  intros H. rewrite swrap_id by (cbn; lia).
  apply FormatInt_body_holds.
  - apply i64toa_correct; lia.
  - intros s. apply canonical_integer_not_NUL.
Qed.

Lemma body_u64 v : 0 <= v < 2 ^ 64 ->
  exists o s, FormatInt_body u64toa (uwrap 64 v) = Ok o /\ canonical_integer s v /\ FormatInt_holds o s.
Proof.
  intros H. rewrite uwrap_id by lia.
  apply FormatInt_body_holds.
  - eapply writes_weaken; [|eapply writes_impl; [|apply u64toa_correct]]; try lia.
    intros s. apply canonical_natural_integer. lia.
  - intros s. apply canonical_integer_not_NUL.
Qed.

Lemma FormatInt_new_holds p t v : platform_ok p -> has_int_type p t v ->
  exists o s, FormatInt_new p t v = Ok o /\ canonical_integer s v /\ FormatInt_holds o s.
Proof.
  intros [Hp _] Hv. unfold has_int_type, int_bits in Hv.
  destruct t; cbn [int_signed FormatInt_new] in *;
    try (apply body_i32; cbn in *; lia); try (apply body_u32; cbn in *; lia);
    try (apply body_i64; cbn in *; lia); try (apply body_u64; cbn in *; lia).
  - destruct Hp as [Hp|[Hp Hs]]; rewrite Hp in Hv.
    + destruct (sys64 p); [apply body_i64|apply body_i32]; cbn in *; lia.
    + rewrite Hs. apply body_i64; cbn in *; lia.
  - destruct Hp as [Hp|[Hp Hs]]; rewrite Hp in Hv.
    + destruct (sys64 p); [apply body_u64|apply body_u32]; cbn in *; lia.
    + rewrite Hs. apply body_u64; cbn in *; lia.
Qed.

(** ** strtoull *)

Lemma c_isdigit_iff c : c_isdigit c = true <-> is_digit c.
Proof. unfold c_isdigit, is_digit. lia. Qed.

Lemma c_isspace_iff c : c_isspace c = true <-> is_space c.
Proof. unfold c_isspace, is_space. lia. Qed.

Lemma scan_digits_spec ds rest a :
  Forall is_digit ds -> ~ starts_with is_digit rest ->
  scan_digits (ds ++ rest) a = fold_left (fun a c => 10 * a + digit_value c) ds a.
Proof.
  intros HF Hr. revert a. induction ds as [|c ds IH]; intros a; cbn [app fold_left].
  - destruct rest as [|c rest]; [reflexivity|]. cbn [scan_digits].
    destruct (c_isdigit c) eqn:E; [|reflexivity]. exfalso. apply Hr. apply c_isdigit_iff. exact E.
  - inversion HF as [|? ? Hc HF']; subst. cbn [scan_digits].
    rewrite (proj2 (c_isdigit_iff c) Hc). apply IH. exact HF'.
Qed.

Lemma skip_space_spec ws r :
  Forall is_space ws -> ~ starts_with is_space r -> skip_space (ws ++ r) = r.
Proof.
  intros HF Hr. induction ws as [|c ws IH]; cbn [app].
  - destruct r as [|c r]; [reflexivity|]. cbn [skip_space].
    destruct (c_isspace c) eqn:E; [|reflexivity]. exfalso. apply Hr, c_isspace_iff, E.
  - inversion HF as [|? ? Hc HF']; subst. cbn [skip_space].
    rewrite (proj2 (c_isspace_iff c) Hc). apply IH, HF'.
Qed.

Lemma c_str_of_app l r : Forall (fun c => code c <> 0) l -> c_str_of (l ++ r) = l ++ c_str_of r.
Proof.
  intros H. induction H as [|c l Hc _ IH]; [reflexivity|]. cbn [app c_str_of].
  rewrite (proj2 (Z.eqb_neq _ _) Hc), IH. reflexivity.
Qed.

Lemma starts_with_c_str (P : ascii -> Prop) r : starts_with P (c_str_of r) -> starts_with P r.
Proof.
  destruct r as [|c r]; cbn; [auto|]. destruct (code c =? 0); cbn; [tauto|auto].
Qed.

Lemma take_sign_none r : ~ starts_with is_sign r -> take_sign r = (false, r).
Proof.
  destruct r as [|c r]; [reflexivity|]. cbn [starts_with]. unfold is_sign. intros H.
  destruct c as [[] [] [] [] [] [] [] []]; try reflexivity; exfalso; apply H; auto.
Qed.

Lemma starts_with_app P a b : starts_with P (a ++ b) <-> starts_with P a \/ (a = [] /\ starts_with P b).
Proof.
  destruct a; cbn; split.
  - auto.
  - intros [[]|[_ H]]; exact H.
  - auto.
  - intros [H|[H _]]; [exact H|discriminate H].
Qed.

Lemma integer_prefix_exists s : exists neg ds, integer_prefix s neg ds.
Proof.
  assert (S1 : forall (P : ascii -> Prop) (D : forall c, {P c} + {~ P c}) l,
            exists a b, l = a ++ b /\ Forall P a /\ ~ starts_with P b).
  { intros P D l. induction l as [|c l (a & b & E & H1 & H2)].
    - exists [], []. repeat split; [constructor|auto].
    - destruct (D c).
      + exists (c :: a), b. subst. repeat split; [constructor|]; assumption.
      + exists [], (c :: l). repeat split; [constructor|assumption]. }
  assert (D1 : forall c, {is_space c} + {~ is_space c}).
  { intros c. destruct (c_isspace c) eqn:E; [left|right]; rewrite <- c_isspace_iff, E; congruence. }
  assert (D2 : forall c, {is_digit c} + {~ is_digit c}).
  { intros c. destruct (c_isdigit c) eqn:E; [left|right]; rewrite <- c_isdigit_iff, E; congruence. }
  destruct (S1 is_space D1 s) as (ws & r & E & Hws & Hr).
  destruct r as [|c r].
  - exists false, [], ws, [], []. rewrite E. cbn. repeat split; auto.
  - destruct (ascii_dec c "+"%char) as [->|Np].
    { destruct (S1 is_digit D2 r) as (ds & rest & E2 & H1 & H2).
      exists false, ds, ws, ["+"%char], rest. subst. repeat split; auto. }
    destruct (ascii_dec c "-"%char) as [->|Nm].
    { destruct (S1 is_digit D2 r) as (ds & rest & E2 & H1 & H2).
      exists true, ds, ws, ["-"%char], rest. subst. repeat split; auto. }
    destruct (S1 is_digit D2 (c :: r)) as (ds & rest & E2 & H1 & H2).
    exists false, ds, ws, [], rest. subst. cbn [app]. rewrite <- E2.
    repeat split; auto. right. right. repeat split. cbn. unfold is_sign. tauto.
Qed.

Lemma strtoull_prefix s neg ds : integer_prefix s neg ds ->
  strtoull s = if ULLONG_MAX <? numeral_value ds then ULLONG_MAX
               else if neg then u64 (- numeral_value ds) else numeral_value ds.
Proof.
  intros (ws & sg & rest & E & Hws & Hns & Hsg & Hds & Hrest).
  unfold strtoull. rewrite E.
  assert (Hd0 : Forall (fun c => code c <> 0) ds).
  { eapply Forall_impl; [|exact Hds]. unfold is_digit. intros; lia. }
  assert (Hw0 : Forall (fun c => code c <> 0) ws).
  { eapply Forall_impl; [|exact Hws]. unfold is_space. intros; lia. }
  assert (Hs0 : Forall (fun c => code c <> 0) sg).
  { destruct Hsg as [[_ ->]|[[_ ->]|[_ [-> _]]]]; repeat constructor; discriminate. }
  rewrite !c_str_of_app by assumption.
  assert (Hrest' : ~ starts_with is_digit (c_str_of rest)).
  { intros C. apply Hrest. apply starts_with_c_str. exact C. }
  rewrite skip_space_spec; [|exact Hws|].
  2:{ intros C. apply Hns. rewrite !starts_with_app in *.
      destruct C as [C|[-> [C|[-> C]]]]; auto. right. split; auto. right. split; auto.
      apply starts_with_c_str. exact C. }
  destruct Hsg as [[-> ->]|[[-> ->]|[-> [-> Hns2]]]]; cbn [app take_sign].
  - rewrite scan_digits_spec by assumption. fold (numeral_value ds). reflexivity.
  - rewrite scan_digits_spec by assumption. fold (numeral_value ds). reflexivity.
  - rewrite take_sign_none.
    + rewrite scan_digits_spec by assumption. fold (numeral_value ds). reflexivity.
    + intros C. apply Hns2. rewrite starts_with_app in *. destruct C as [C|[-> C]]; auto.
      right. split; auto. apply starts_with_c_str. exact C.
Qed.

(** ** Conversions *)

Lemma swrap_spec w x : 0 < w ->
  - 2 ^ (w - 1) <= swrap w x < 2 ^ (w - 1) /\ congruent w (swrap w x) x.
Proof.
  intros Hw. unfold swrap, congruent.
  assert (E : 2 ^ w = 2 * 2 ^ (w - 1)) by (rewrite <- Z.pow_succ_r by lia; f_equal; lia).
  assert (P : 0 < 2 ^ (w - 1)) by (apply Z.pow_pos_nonneg; lia).
  rewrite E. set (m := 2 ^ (w - 1)) in *. clearbody m.
  pose proof (Z.mod_pos_bound x (2 * m) ltac:(lia)) as B.
  pose proof (Z.div_mod x (2 * m) ltac:(lia)) as D.
  destruct (Z.ltb_spec (x mod (2 * m)) m).
  - split; [lia|]. exists (- (x / (2 * m))). lia.
  - split; [lia|]. exists (- (x / (2 * m)) - 1). lia.
Qed.

Lemma uwrap_spec w x : 0 <= w -> 0 <= uwrap w x < 2 ^ w /\ congruent w (uwrap w x) x.
Proof.
  intros Hw. unfold uwrap, congruent.
  assert (P : 0 < 2 ^ w) by (apply Z.pow_pos_nonneg; lia).
  split; [apply Z.mod_pos_bound; exact P|].
  exists (- (x / 2 ^ w)). pose proof (Z.div_mod x (2 ^ w) ltac:(lia)). lia.
Qed.

Lemma congruent_trans w a b c : congruent w a b -> congruent w b c -> congruent w a c.
Proof. intros [q Hq] [r Hr]. exists (q + r). lia. Qed.

Lemma congruent_sym w a b : congruent w a b -> congruent w b a.
Proof. intros [q Hq]. exists (- q). lia. Qed.

Lemma congruent_refl w a : congruent w a a.
Proof. exists 0. lia. Qed.

Lemma congruent_weaken v w a b : 0 <= w <= v -> congruent v a b -> congruent w a b.
Proof.
  intros H [q Hq]. exists (q * 2 ^ (v - w)).
  rewrite <- Z.mul_assoc, <- Z.pow_add_r by lia. replace (v - w + w) with v by lia. exact Hq.
Qed.

Lemma int_bits_range p t : platform_ok p -> 8 <= int_bits p t <= 64.
Proof. intros [Hp _]. destruct t; cbn; lia. Qed.

Lemma congruent_unique_signed w a b : 0 < w ->
  - 2 ^ (w - 1) <= a < 2 ^ (w - 1) -> - 2 ^ (w - 1) <= b < 2 ^ (w - 1) -> congruent w a b -> a = b.
Proof.
  intros Hw Ha Hb [q Hq].
  assert (E : 2 ^ w = 2 * 2 ^ (w - 1)) by (rewrite <- Z.pow_succ_r by lia; f_equal; lia).
  rewrite E in Hq. set (m := 2 ^ (w - 1)) in *. clearbody m. clear E.
  assert (q = 0) by nia. subst. lia.
Qed.

Lemma congruent_unique_unsigned w a b :
  0 <= a < 2 ^ w -> 0 <= b < 2 ^ w -> congruent w a b -> a = b.
Proof.
  intros Ha Hb [q Hq]. set (m := 2 ^ w) in *. clearbody m.
  assert (q = 0) by nia. subst. lia.
Qed.

Lemma has_int_type_unique p t a b : platform_ok p ->
  has_int_type p t a -> has_int_type p t b -> congruent (int_bits p t) a b -> a = b.
Proof.
  intros Hp Ha Hb C. pose proof (int_bits_range p t Hp) as R. unfold has_int_type in *.
  destruct (int_signed t).
  - eapply congruent_unique_signed; [|exact Ha|exact Hb|exact C]. lia.
  - eapply congruent_unique_unsigned; eassumption.
Qed.

Lemma ExtractInt_to_spec p t x : platform_ok p ->
  has_int_type p t (ExtractInt_to p t x) /\ congruent (int_bits p t) (ExtractInt_to p t x) x.
Proof.
  intros Hp. pose proof (int_bits_range p t Hp) as R.
  assert (S : forall w, 8 <= w <= 64 ->
     (- 2 ^ (w - 1) <= swrap w (swrap 64 x) < 2 ^ (w - 1)) /\ congruent w (swrap w (swrap 64 x)) x).
  { intros w Hw. destruct (swrap_spec w (swrap 64 x) ltac:(lia)) as [B C]. split; [exact B|].
    eapply congruent_trans; [exact C|]. apply (congruent_weaken 64); [lia|].
    apply swrap_spec. lia. }
  unfold has_int_type, ExtractInt_to, to_int_type.
  destruct t; cbn [int_signed]; first [apply S; exact R | apply uwrap_spec; lia].
Qed.

(** ** Canonical numerals are read back *)

Lemma canonical_prefix s v : canonical_integer s v ->
  exists ds neg, integer_prefix s neg ds /\ v = if neg then - numeral_value ds else numeral_value ds.
Proof.
  intros [[Hv C]|[Hv (r & -> & C)]]; destruct C as (Hne & HF & Hval & _).
  - exists s, false. split; [|lia]. exists [], [], []. rewrite !app_nil_r. cbn [app].
    assert (Hd : starts_with is_digit s).
    { destruct s as [|c s]; [congruence|]. inversion HF; assumption. }
    repeat split; auto.
    + destruct s as [|c s]; cbn in *; unfold is_space, is_digit in *; lia.
    + right. right. repeat split. destruct s as [|c s]; cbn in *; [tauto|].
      unfold is_sign, is_digit in *. intros [-> | ->]; cbn in Hd; lia.
  - exists r, true. split; [|lia]. exists [], ["-"%char], []. rewrite !app_nil_r. cbn [app].
    repeat split; auto. cbn. unfold is_space. cbn. lia.
Qed.

Lemma canonical_strtoull s v : canonical_integer s v -> - 2 ^ 63 <= v < 2 ^ 64 ->
  congruent 64 (strtoull s) v.
Proof.
  intros C R. destruct (canonical_prefix s v C) as (ds & neg & P & E).
  rewrite (strtoull_prefix s neg ds P).
  destruct (Z.ltb_spec ULLONG_MAX (numeral_value ds)) as [L|L].
  - exfalso. unfold ULLONG_MAX in L. destruct P as (ws & sg & rest & _ & _ & _ & _ & HF & _).
    pose proof (numeral_value_bounds ds HF). destruct neg; lia.
  - destruct neg.
    + rewrite E. apply (uwrap_spec 64). lia.
    + rewrite E. apply congruent_refl.
Qed.

Lemma has_int_type_range p t v : platform_ok p -> has_int_type p t v -> - 2 ^ 63 <= v < 2 ^ 64.
Proof.
  intros Hp Hv. pose proof (int_bits_range p t Hp) as R. unfold has_int_type in Hv.
  destruct (int_signed t).
  - assert (2 ^ (int_bits p t - 1) <= 2 ^ 63) by (apply Z.pow_le_mono_r; lia). lia.
  - assert (2 ^ (int_bits p t) <= 2 ^ 64) by (apply Z.pow_le_mono_r; lia). lia.
Qed.

Lemma ExtractInt_canonical p t s v : platform_ok p -> has_int_type p t v ->
  canonical_integer s v -> ExtractInt_to p t (strtoull s) = v.
Proof.
  intros Hp Hv C. destruct (ExtractInt_to_spec p t (strtoull s) Hp) as [T G].
  apply (has_int_type_unique p t); auto.
  eapply congruent_trans; [exact G|].
  apply (congruent_weaken 64); [pose proof (int_bits_range p t Hp); lia|].
  apply canonical_strtoull; [exact C|]. eapply has_int_type_range; eassumption.
Qed.

(** ** Enumerations *)

Lemma promoted_has p u v : platform_ok p -> underlying_has p u v -> has_int_type p (promoted p u) v.
Proof.
  intros [Hp Hw] H. unfold has_int_type.
  destruct u; cbn [promoted underlying_has] in *.
  - exact H.
  - cbn. lia.
  - cbn. destruct (char_signed p); lia.
  - destruct Hw as [Hw|Hw]; rewrite Hw in *; destruct (wchar_signed p); cbn in *; lia.
  - cbn. lia.
  - cbn. lia.
Qed.

Lemma underlying_read p u s v : platform_ok p -> underlying_has p u v -> canonical_integer s v ->
  to_underlying p u (strtoull s) = v.
Proof.
  intros Hp Hv C.
  assert (R : - 2 ^ 63 <= v < 2 ^ 64)
    by (eapply has_int_type_range; [exact Hp|apply promoted_has; eassumption]).
  pose proof (canonical_strtoull s v C R) as G.
  assert (U : forall w, 0 <= w <= 64 -> 0 <= v < 2 ^ w -> uwrap w (strtoull s) = v).
  { intros w Hw Hr. destruct (uwrap_spec w (strtoull s) ltac:(lia)) as [B D].
    eapply congruent_unique_unsigned; [exact B|exact Hr|].
    eapply congruent_trans; [exact D|]. apply (congruent_weaken 64); [lia|exact G]. }
  assert (S : forall w, 0 < w <= 64 -> - 2 ^ (w - 1) <= v < 2 ^ (w - 1) -> swrap w (strtoull s) = v).
  { intros w Hw Hr. destruct (swrap_spec w (strtoull s) ltac:(lia)) as [B D].
    eapply (congruent_unique_signed w); [lia|exact B|exact Hr|].
    eapply congruent_trans; [exact D|]. apply (congruent_weaken 64); [lia|exact G]. }
  destruct u; cbn [to_underlying underlying_has] in *.
  - unfold to_int_type. unfold has_int_type in Hv. pose proof (int_bits_range p t Hp).
    destruct (int_signed t); [apply S|apply U]; try exact Hv; lia.
  - specialize (U 64 ltac:(lia) ltac:(lia)). unfold uwrap in U.
    assert (B : 0 <= strtoull s < 2 ^ 64).
    { unfold strtoull, ULLONG_MAX, u64. destruct (take_sign _) as [ng r].
      assert (0 <= scan_digits r 0).
      { assert (Q : forall l a, 0 <= a -> 0 <= scan_digits l a).
        { clear. induction l as [|c l IH]; intros a Ha; cbn [scan_digits]; [exact Ha|].
          destruct (c_isdigit c) eqn:E; [|exact Ha]. apply IH. unfold c_isdigit in E. lia. }
        apply Q. lia. }
      destruct (Z.ltb_spec (2 ^ 64 - 1) (scan_digits r 0)); [lia|]. destruct ng; lia. }
    rewrite Z.mod_small in U by exact B. rewrite U. destruct Hv as [-> | ->]; reflexivity.
  - destruct (char_signed p); [apply S|apply U]; cbn; lia.
  - destruct Hp as [_ Hw]. destruct (wchar_signed p); [apply S|apply U]; try exact Hv; lia.
  - apply U; lia.
  - apply U; lia.
Qed.
