(** Enumerations and stream positions read from arbitrary texts. *)
From Verif Require Import Machine LibMachine SpecApi SpecDecimal SpecInt SpecMore ModelItoa ModelInt ModelText ModelLexi ProofInt ProofApi.
Open Scope Z_scope.

Lemma numeral_nonneg ds : Forall is_digit ds -> 0 <= numeral_value ds.
Proof.
  unfold numeral_value. assert (G : forall a, 0 <= a -> Forall is_digit ds -> 0 <= fold_left (fun a c => 10 * a + digit_value c) ds a).
  { induction ds as [|c r IH]; intros a A F; [exact A|]. inversion F; subst. cbn [fold_left]. apply IH; [|assumption].
    unfold is_digit, digit_value in *. lia. }
  intros F. apply G; [lia|exact F].
Qed.

Lemma enum_extract e point u s neg ds : platform_ok (e_platform e) -> integer_prefix s neg ds ->
  exists r, extract e point (TEnum u) s = Ok (XEnum r) /\
    converted (e_platform e) u r
      (if 2 ^ 64 - 1 <? numeral_value ds then 2 ^ 64 - 1
       else if neg then - numeral_value ds else numeral_value ds).
Proof.
  intros Hp P. exists (to_underlying (e_platform e) u (strtoull s)). split; [reflexivity|].
  assert (N : 0 <= numeral_value ds).
  { apply numeral_nonneg. destruct P as (ws & sg & rest & _ & _ & _ & _ & D & _). exact D. }
  rewrite (strtoull_prefix s neg ds P). unfold ULLONG_MAX.
  set (x := if 2 ^ 64 - 1 <? numeral_value ds then 2 ^ 64 - 1 else if neg then - numeral_value ds else numeral_value ds).
  set (d := if 2 ^ 64 - 1 <? numeral_value ds then _ else _).
  assert (C : congruent 64 d x).
  { unfold d, x. destruct (_ <? _); [apply congruent_refl|]. destruct neg; [|apply congruent_refl]. apply (uwrap_spec 64). lia. }
  assert (Z0 : d = 0 <-> x = 0).
  { unfold d, x. destruct (Z.ltb_spec (2 ^ 64 - 1) (numeral_value ds)) as [L|L]; [reflexivity|]. destruct neg; [|reflexivity].
    unfold u64. destruct (Z.eq_dec (numeral_value ds) 0) as [->|X]; [split; reflexivity|]. split; [|lia]. intros E. exfalso.
    apply Z.mod_divide in E; [|lia]. destruct E as [q E]. nia. }
  clearbody d x.
  assert (U : forall w, 0 <= w <= 64 -> (0 <= uwrap w d < 2 ^ w) /\ congruent w (uwrap w d) x).
  { intros w W. destruct (uwrap_spec w d ltac:(lia)) as [B G]. split; [exact B|]. eapply congruent_trans; [exact G|]. apply (congruent_weaken 64); [lia|exact C]. }
  assert (S : forall w, 0 < w <= 64 -> (- 2 ^ (w - 1) <= swrap w d < 2 ^ (w - 1)) /\ congruent w (swrap w d) x).
  { intros w W. destruct (swrap_spec w d ltac:(lia)) as [B G]. split; [exact B|]. eapply congruent_trans; [exact G|]. apply (congruent_weaken 64); [lia|exact C]. }
  destruct Hp as [Hp Hw].
  destruct u as [t| | | | |]; unfold converted; cbn [to_underlying underlying_has underlying_bits].
  - unfold has_int_type, to_int_type. pose proof (int_bits_range (e_platform e) t (conj Hp Hw)) as R.
    destruct (int_signed t); [apply S|apply U]; lia.
  - destruct (Z.eqb_spec d 0) as [E|E]; (split; [auto|]); rewrite <- Z0; intuition lia.
  - destruct (char_signed (e_platform e)); [apply (S 8)|apply (U 8)]; lia.
  - destruct (wchar_signed (e_platform e)); [apply S|apply U]; lia.
  - apply (U 16). lia.
  - apply (U 32). lia.
Qed.

Lemma fpos_extract e point s neg ds : platform_ok (e_platform e) -> integer_prefix s neg ds ->
  exists r, extract e point TFpos s = Ok (XFpos r) /\ - 2 ^ 63 <= r < 2 ^ 63 /\
    congruent 64 r (if 2 ^ 64 - 1 <? numeral_value ds then 2 ^ 64 - 1
       else if neg then - numeral_value ds else numeral_value ds).
Proof.
  intros Hp P. destruct (integer_extract e point (streamoff_type (e_platform e)) s neg ds Hp P) as (r & E & T & C).
  exists r. cbn [extract ExtractInt bind] in *. split; [injection E as <-; reflexivity|].
  destruct Hp as [Hp _]. unfold streamoff_type, has_int_type in *.
  destruct (Z.eqb_spec (long_bits (e_platform e)) 64) as [L|L]; cbn [int_bits int_signed] in *; rewrite ?L in *; split; assumption.
Qed.
