(** Proofs about the conversion to enumerations. *)
From Coq Require Import Lia.
From Verif Require Import Machine LibMachine SpecDecimal SpecInt ModelItoa ModelInt ModelDiyfp ModelDtoa ModelFloat ModelLexi ModelPlatforms SpecMore SpecEnum ModelEnum ProofInt ProofApi ProofMore4.
Open Scope Z_scope.

Lemma need_nonneg x : 0 <= enum_need x.
Proof. unfold enum_need. destruct (Z.ltb_spec x 0); lia. Qed.

Lemma need_fold l : forall a, a <= fold_left (fun a x => Z.max a (enum_need x)) l a /\
  Forall (fun x => enum_need x <= fold_left (fun a x => Z.max a (enum_need x)) l a) l /\
  (fold_left (fun a x => Z.max a (enum_need x)) l a = a \/ Exists (fun x => fold_left (fun a x => Z.max a (enum_need x)) l a = enum_need x) l).
Proof.
  induction l as [|x l IH]; intros a; cbn [fold_left].
  - split; [lia|]. split; [constructor|left; reflexivity].
  - destruct (IH (Z.max a (enum_need x))) as (A & B & C). split; [lia|]. split.
    + constructor; [lia|exact B].
    + destruct C as [C|C]; [|right; right; exact C]. rewrite C.
      destruct (Z.max_spec a (enum_need x)) as [[? M]|[? M]]; [right; left; lia|left; lia].
Qed.

Lemma need_bits sign M x : 0 <= M -> (sign \/ 0 <= x) -> (bits_hold sign M x <-> enum_need x < 2 ^ M).
Proof. intros M0 S. unfold bits_hold, enum_need. destruct (Z.ltb_spec x 0); split; intros; try (split; [lia|exact S]); lia. Qed.

Lemma enum_bits_nonneg l : 0 <= enum_bits l.
Proof. unfold enum_bits. destruct (Z.eqb_spec (fold_left (fun a x => Z.max a (enum_need x)) l 0) 0); [lia|]. pose proof (Z.log2_nonneg (fold_left (fun a x => Z.max a (enum_need x)) l 0)). lia. Qed.

(** [enum_bits] is enough for all enumerators, and no less is. *)
Lemma enum_bits_hold l : Forall (fun x => enum_need x < 2 ^ enum_bits l) l.
Proof.
  destruct (need_fold l 0) as (A & B & _). unfold enum_bits. set (m := fold_left _ l 0) in *.
  eapply Forall_impl; [|exact B]. intros x Hx. cbv beta in Hx.
  destruct (Z.eqb_spec m 0) as [->|N]; [change (2 ^ 0) with 1; lia|].
  pose proof (Z.log2_spec m ltac:(lia)) as L. unfold Z.succ in L. lia.
Qed.

Lemma enum_bits_least l M : 0 <= M -> Forall (fun x => enum_need x < 2 ^ M) l -> enum_bits l <= M.
Proof.
  intros M0 F. destruct (need_fold l 0) as (A & _ & C). unfold enum_bits. set (m := fold_left _ l 0) in *.
  destruct (Z.eqb_spec m 0) as [|N]; [lia|]. destruct C as [C|C]; [lia|].
  apply Exists_exists in C. destruct C as (x & I & E). pose proof (proj1 (Forall_forall _ l) F x I) as Hx. cbv beta in Hx. rewrite <- E in Hx.
  pose proof (proj1 (Z.log2_lt_pow2 m M ltac:(lia)) Hx). lia.
Qed.

Lemma negative_exists l : existsb (fun x => x <? 0) l = true <-> Exists (fun x => x < 0) l.
Proof.
  rewrite existsb_exists, Exists_exists. split; intros (x & I & H); exists x; (split; [exact I|]); [apply Z.ltb_lt|apply Z.ltb_lt]; exact H.
Qed.

Lemma members_hold l M : 0 <= M -> (Forall (bits_hold (Exists (fun x => x < 0) l) M) l <-> Forall (fun x => enum_need x < 2 ^ M) l).
Proof.
  intros M0. rewrite !Forall_forall. split; intros H x I; specialize (H x I).
  - apply (need_bits (Exists (fun x => x < 0) l) M x M0); [apply H|exact H].
  - apply need_bits; [exact M0| |exact H]. destruct (Z.lt_ge_cases x 0); [left; apply Exists_exists; exists x; split; assumption|right; assumption].
Qed.

(** The computed range is that of the specification. *)
Lemma range_value p u l v : enum_value p (Enumeration u false l) v <-> enum_min l <= v <= enum_max l.
Proof.
  unfold enum_value. cbn [en_fixed en_list]. set (sign := Exists (fun x => x < 0) l). pose proof (enum_bits_nonneg l) as B0.
  assert (K : bits_hold sign (enum_bits l) v <-> enum_min l <= v <= enum_max l).
  { unfold bits_hold, enum_min, enum_max. destruct (existsb (fun x => x <? 0) l) eqn:EX.
    - apply negative_exists in EX. fold sign in EX. split; [lia|intros; split; [lia|left; exact EX]].
    - assert (NS : ~ sign) by (intros S; apply negative_exists in S; congruence).
      split; [intros [H [S|S]]; [contradiction|lia]|]. intros H. split; [lia|right; lia]. }
  rewrite <- K. split.
  - intros H. apply H; [exact B0|]. apply members_hold; [exact B0|apply enum_bits_hold].
  - intros H M M0 F. apply members_hold in F; [|exact M0]. pose proof (enum_bits_least l M M0 F) as L.
    pose proof (Z.pow_le_mono_r 2 _ _ ltac:(reflexivity) L) as P. destruct H as [H S]. split; [lia|exact S].
Qed.

Lemma enum_cast_exactly p E v : underlying_has p (en_type E) v ->
  (enum_value p E v -> enum_cast E v = Ok v) /\ (~ enum_value p E v -> exists w, enum_cast E v = UB w).
Proof.
  intros U. destruct E as [u fixed l]. unfold enum_cast. cbn [en_fixed en_list en_type] in *. destruct fixed; cbn [orb].
  - split; [reflexivity|]. intros N. exfalso. apply N. exact U.
  - rewrite range_value. destruct (Z.leb_spec (enum_min l) v); destruct (Z.leb_spec v (enum_max l)); cbn [andb];
    (split; [intros; try reflexivity; lia|intros N; try (exfalso; lia); eexists; reflexivity]).
Qed.

(** The values of an enumeration are values of its underlying type. *)
Lemma below_pow k M l : 0 <= k -> Forall (fun x => enum_need x < 2 ^ k) l -> M = enum_bits l -> 2 ^ M <= 2 ^ k.
Proof. intros K F ->. apply Z.pow_le_mono_r; [reflexivity|]. apply enum_bits_least; assumption. Qed.

Definition type_bits (p : platform) (u : enum_underlying) : bool * Z :=
  match u with
  | EInt t => (int_signed t, if int_signed t then int_bits p t - 1 else int_bits p t)
  | EBool => (false, 1)
  | EChar => (char_signed p, if char_signed p then 7 else 8)
  | EWchar => (wchar_signed p, if wchar_signed p then wchar_bits p - 1 else wchar_bits p)
  | EChar16 => (false, 16)
  | EChar32 => (false, 32)
  end.

Lemma type_bits_ok p u : platform_ok p -> 0 <= snd (type_bits p u) /\
  forall v, underlying_has p u v <-> (if fst (type_bits p u) then - 2 ^ snd (type_bits p u) <= v < 2 ^ snd (type_bits p u) else 0 <= v < 2 ^ snd (type_bits p u)).
Proof.
  intros [L Wc]. destruct u as [t| | | | |]; cbn [type_bits fst snd underlying_has].
  - split; [|intros v; unfold has_int_type; destruct (int_signed t); reflexivity].
    destruct t; cbn [int_signed int_bits]; lia.
  - split; [lia|]. intros v. change (2 ^ 1) with 2. lia.
  - destruct (char_signed p); (split; [lia|]); intros v; [change (2 ^ 7) with 128|change (2 ^ 8) with 256]; reflexivity.
  - destruct (wchar_signed p); (split; [lia|]); intros v; reflexivity.
  - split; [lia|]. reflexivity.
  - split; [lia|]. reflexivity.
Qed.

Lemma value_of_type p E v : platform_ok p -> enum_ok p E -> enum_value p E v -> underlying_has p (en_type E) v.
Proof.
  intros P OK V. destruct E as [u fixed l]. destruct fixed; [exact V|]. unfold enum_ok in OK. cbn [en_type en_list] in *.
  destruct (type_bits_ok p u P) as [K T]. apply T. set (k := snd (type_bits p u)) in *.
  unfold enum_value in V. cbn [en_fixed en_list] in V. destruct (V k K) as [H S].
  - rewrite Forall_forall in OK |- *. intros x I. specialize (OK x I). apply T in OK. unfold bits_hold.
    pose proof (Z.pow_pos_nonneg 2 k ltac:(reflexivity) K). destruct (fst (type_bits p u)); [|split; [lia|right; lia]].
    split; [lia|]. destruct (Z.lt_ge_cases x 0); [left; apply Exists_exists; exists x; split; assumption|right; assumption].
  - destruct (fst (type_bits p u)) eqn:F; [exact H|]. split; [|apply H]. destruct S as [S|S]; [|exact S].
    apply Exists_exists in S. destruct S as (x & I & N). rewrite Forall_forall in OK. specialize (OK x I). apply T in OK. lia.
Qed.

Lemma enumerator_value p E v : enum_ok p E -> In v (en_list E) -> enum_value p E v.
Proof.
  intros OK I. destruct E as [u fixed l]. unfold enum_value, enum_ok in *. cbn [en_fixed en_list en_type] in *. destruct fixed.
  - rewrite Forall_forall in OK. apply OK. exact I.
  - intros M _ F. rewrite Forall_forall in F. apply F. exact I.
Qed.

Lemma underlying_extracted e point u s : platform_ok (e_platform e) -> exists r, extract e point (TEnum u) s = Ok (XEnum r) /\
  (let* d := ExtractEnum s in Ok (ExtractEnum_to (e_platform e) u d)) = Ok r /\ underlying_has (e_platform e) u r.
Proof.
  intros P. destruct (integer_prefix_exists s) as (neg & ds & IP). destruct (enum_extract e point u s neg ds P IP) as (r & A & B).
  exists r. split; [exact A|]. split; [|apply B]. cbn [extract] in A. unfold ExtractEnum, ExtractInt in *. cbn [bind] in *. congruence.
Qed.

Lemma enumeration_extracted e point E s r : platform_ok (e_platform e) -> extract e point (TEnum (en_type E)) s = Ok (XEnum r) ->
  (enum_value (e_platform e) E r -> extract_enum e E s = Ok r) /\
  (~ enum_value (e_platform e) E r -> exists w, extract_enum e E s = UB w).
Proof.
  intros P X. destruct (underlying_extracted e point (en_type E) s P) as (r' & A & B & U). rewrite A in X. injection X as ->.
  unfold extract_enum. unfold ExtractEnum, ExtractInt in *. cbn [bind] in *. injection B as ->. apply enum_cast_exactly. exact U.
Qed.

Lemma fixed_extracted e E s : platform_ok (e_platform e) -> en_fixed E = true ->
  exists r, extract_enum e E s = Ok r /\ enum_value (e_platform e) E r.
Proof.
  intros P F. destruct (underlying_extracted e "."%char (en_type E) s P) as (r & A & _ & U). exists r.
  assert (V : enum_value (e_platform e) E r) by (unfold enum_value; rewrite F; exact U).
  split; [|exact V]. apply (enumeration_extracted e "."%char E s r P A). exact V.
Qed.

Lemma enumeration_round_trip e E v : platform_ok (e_platform e) -> enum_ok (e_platform e) E -> enum_value (e_platform e) E v ->
  (let* s := lexi e (VEnum (en_type E) v) in extract_enum e E s) = Ok v.
Proof.
  intros P OK V. pose proof (value_of_type _ E v P OK V) as U. pose proof (enum_round_trip e "."%char (en_type E) v P U) as R.
  destruct (lexi e (VEnum (en_type E) v)) as [s|w|w|]; cbn [bind] in R |- *; try discriminate R.
  apply (enumeration_extracted e "."%char E s v P R). exact V.
Qed.

Lemma unfixed_refuted : exists e E s w, platform_ok (e_platform e) /\ enum_ok (e_platform e) E /\ extract_enum e E s = UB w.
Proof.
  exists (linux_x86_64 Strict), (Enumeration (EInt UInt) false [0; 1; 2]), (str "4"). eexists. split; [split; [right; split; reflexivity|right; reflexivity]|].
  split; [|vm_compute; reflexivity]. unfold enum_ok. cbn. repeat (constructor; [split; [discriminate|reflexivity]|]). constructor.
Qed.

(** In terms of the number that the text begins with. *)
Lemma enumeration_number e E s neg ds : platform_ok (e_platform e) -> integer_prefix s neg ds ->
  let n := if 2 ^ 64 - 1 <? numeral_value ds then 2 ^ 64 - 1 else if neg then - numeral_value ds else numeral_value ds in
  exists r, converted (e_platform e) (en_type E) r n /\
    (extract_enum e E s = Ok r <-> enum_value (e_platform e) E r) /\ ((exists w, extract_enum e E s = UB w) <-> ~ enum_value (e_platform e) E r).
Proof.
  intros P IP n. destruct (enum_extract e "."%char (en_type E) s neg ds P IP) as (r & A & B). fold n in B. exists r. split; [exact B|].
  destruct (enumeration_extracted e "."%char E s r P A) as [C D].
  assert (Dec : enum_value (e_platform e) E r \/ ~ enum_value (e_platform e) E r).
  { destruct E as [u [] l]; [left; apply B|]. rewrite range_value. lia. }
  destruct Dec as [V|V].
  - rewrite (C V). split; split; intros; try assumption; try reflexivity; [destruct H as [w H]; discriminate H|contradiction].
  - destruct (D V) as [w Ew]. rewrite Ew. split; split; intros; try assumption; [discriminate H|contradiction|exists w; reflexivity].
Qed.
