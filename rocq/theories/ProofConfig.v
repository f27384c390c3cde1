(** Proofs about the conditional compilation. *)
From Coq Require Import Reals.
From Verif Require Import Machine LibMachine SpecApi SpecDecimal SpecInt SpecString SpecMore SpecConfig ModelItoa ModelInt ModelString ModelText ModelIeee ModelDiyfp ModelDtoa
  ModelFloat ModelLexi ModelPlatforms ModelConfig ProofInt ProofString ProofText ProofApi ProofFloat ProofFloat4.
Open Scope Z_scope.

Lemma architecture_values m a : SYSTEM_ARCHITECTURE m = Some a -> a = 32 \/ a = 64.
Proof.
  unfold SYSTEM_ARCHITECTURE, architecture_definitions, windows_architecture, gnu_architecture.
  destruct (holds (m_WIN64 m)) eqn:E64, (holds (m_WIN32 m)) eqn:E32, (holds (m_GNUC m));
    cbn [orb app]; try (destruct (_ || _)%bool); cbn; intros H; inversion H; auto.
Qed.
Lemma windows_dec m : for_windows m \/ ~ for_windows m.
Proof.
  unfold for_windows. destruct (m_WIN32 m) as [v|]; [|right; discriminate].
  destruct (Z.eq_dec v 1) as [->|]; [left; reflexivity|right; congruence].
Qed.
Lemma gnu_dec m : gnu_compatible m \/ ~ gnu_compatible m.
Proof.
  unfold gnu_compatible. destruct (m_GNUC m) as [v|]; [|right; intros (w & H & _); discriminate].
  destruct (Z_lt_dec 0 v); [left; eauto|right; intros (w & H & ?); inversion H; lia].
Qed.
Lemma gnu_holds m : gnu_compatible m -> holds (m_GNUC m) = true.
Proof. intros (v & E & L). unfold holds. rewrite E. cbn. destruct (Z.eqb_spec v 0); [lia|reflexivity]. Qed.

Lemma architecture_once m lb : describes m lb -> gnu_windows_ok m -> architecture_legal m = true.
Proof.
  intros (_ & _ & NW & _ & NG) GW.
  unfold architecture_legal, architecture_definitions, windows_architecture, gnu_architecture.
  destruct (gnu_dec m) as [G|G].
  - rewrite (gnu_holds m G). destruct (windows_dec m) as [W|W].
    + specialize (GW W G). unfold for_windows in W. rewrite W.
      destruct GW as [[E [X|X]]|(E & E1 & E2 & E3 & E4 & E5 & E6 & E7 & E8 & E9)].
      * rewrite E, X. reflexivity.
      * rewrite E, X. cbn. rewrite ?Bool.orb_true_r. reflexivity.
      * rewrite E, E1, E2, E3, E4, E5, E6, E7, E8, E9. reflexivity.
    + destruct (NW W) as [E E']. rewrite E, E'. cbn. destruct (_ || _)%bool; reflexivity.
  - rewrite (NG G). cbn. destruct (holds (m_WIN64 m)), (holds (m_WIN32 m)); reflexivity.
Qed.

(** The choice in int.cpp is right for the compilers considered. *)
Lemma long_chosen m lb : describes m lb -> for_windows m \/ gnu_compatible m -> lb = 32 \/ long_is_64 m = true.
Proof.
  intros ([L|L] & W & NW & G & _) D; [left; exact L|right].
  destruct (windows_dec m) as [X|X]; [apply W in X; lia|]. destruct D as [D|D]; [contradiction|].
  destruct (NW X) as [E E']. pose proof (proj1 (G D) L) as LP.
  unfold long_is_64, SYSTEM_ARCHITECTURE, architecture_definitions, windows_architecture, gnu_architecture.
  rewrite E, E', (gnu_holds m D), LP. cbn. rewrite ?Bool.orb_true_r. reflexivity.
Qed.
Lemma supported_platform m lb cs ws wb : describes m lb -> for_windows m \/ gnu_compatible m -> wb = 16 \/ wb = 32 ->
  platform_ok (compiled_platform m lb cs ws wb).
Proof.
  intros D S Wb. split; [|exact Wb]. cbn. destruct (long_chosen m lb D S); [left; assumption|].
  destruct D as ([L|L] & _); [left|right]; auto.
Qed.
Lemma long_prints m e lb cs ws wb t v : e_platform e = compiled_platform m lb cs ws wb -> describes m lb ->
  for_windows m \/ gnu_compatible m -> wb = 16 \/ wb = 32 -> has_int_type (e_platform e) t v ->
  exists s, lexi e (VInt t v) = Ok s /\ canonical_integer s v.
Proof.
  intros E D S Wb H. destruct (integer_formats e t v) as (s & L & _ & _ & _ & C); eauto.
  rewrite E. apply supported_platform; assumption.
Qed.

(** What the 32-bit routines print for a 64-bit long. *)
Lemma long_cut e (sg : bool) v : sys64 (e_platform e) = false ->
  exists s z, lexi e (VInt (if sg then Long else ULong) v) = Ok s /\ canonical_integer s z /\ congruent 32 z v /\
    if sg then - 2 ^ 31 <= z < 2 ^ 31 else 0 <= z < 2 ^ 32.
Proof.
  intros S. destruct sg.
  - destruct (swrap_spec 32 v ltac:(lia)) as [R C]. change (2 ^ (32 - 1)) with (2 ^ 31) in R.
    destruct (body_i32 (swrap 32 v) R) as (o & s & B & C' & Ho & _).
    exists s, (swrap 32 v). split; [|auto]. unfold lexi, Format, FormatInt_new. rewrite S.
    rewrite (swrap_id 32 (swrap 32 v)) in B by (try exact R; lia). rewrite B. exact Ho.
  - destruct (uwrap_spec 32 v ltac:(lia)) as [R C].
    destruct (body_u32 (uwrap 32 v) R) as (o & s & B & C' & Ho & _).
    exists s, (uwrap 32 v). split; [|auto]. unfold lexi, Format, FormatInt_new. rewrite S.
    rewrite (uwrap_id 32 (uwrap 32 v)) in B by exact R. rewrite B. exact Ho.
Qed.

Lemma canonical_number_unique s v w : canonical_integer s v -> canonical_integer s w -> v = w.
Proof.
  intros [[P (N & D & V & _)]|[P (r & E & N & D & V & _)]] [[Q (N' & D' & V' & _)]|[Q (r' & E' & N' & D' & V' & _)]].
  - congruence.
  - rewrite E' in D. inversion D as [|? ? B]. unfold is_digit in B. change (code "-") with 45 in B. lia.
  - rewrite E in D'. inversion D' as [|? ? B]. unfold is_digit in B. change (code "-") with 45 in B. lia.
  - assert (r = r') by congruence. subst r'. lia.
Qed.
Lemma long_exact m e lb cs ws wb : e_platform e = compiled_platform m lb cs ws wb -> lb = 32 \/ lb = 64 -> wb = 16 \/ wb = 32 ->
  ((forall v, has_int_type (e_platform e) Long v -> exists s, lexi e (VInt Long v) = Ok s /\ canonical_integer s v) <->
   lb = 32 \/ (m_WIN32 m = None /\ SYSTEM_ARCHITECTURE m = Some 64)).
Proof.
  intros E L W.
  assert (C : long_is_64 m = true <-> m_WIN32 m = None /\ SYSTEM_ARCHITECTURE m = Some 64).
  { unfold long_is_64. destruct (m_WIN32 m); cbn [is_defined negb andb]; [split; [discriminate|intros [? _]; discriminate]|].
    destruct (SYSTEM_ARCHITECTURE m) as [a|]; cbn [macro_value].
    - rewrite Z.eqb_eq. split; [intros ->; auto|intros [_ H]; inversion H; reflexivity].
    - split; [discriminate|intros [_ H]; discriminate]. }
  rewrite <- C. split.
  - intros H. destruct L as [L|L]; [left; exact L|right]. destruct (long_is_64 m) eqn:S; [reflexivity|exfalso].
    specialize (H (2 ^ 31)). destruct H as (s & P & K).
    { rewrite E. unfold has_int_type. cbn. rewrite L. cbn. lia. }
    destruct (long_cut e true (2 ^ 31)) as (s' & z & P' & K' & _ & B); [rewrite E; exact S|].
    rewrite P in P'. injection P' as <-. rewrite <- (canonical_number_unique _ _ _ K K') in B. lia.
  - intros H v V. destruct (integer_formats e Long v) as (s & P & _ & _ & _ & K); [|exact V|eauto].
    rewrite E. split; [|exact W]. cbn. destruct L as [L|L]; [left; exact L|]. destruct H as [H|H]; [lia|right; auto].
Qed.

(** The four functions give the same for every value and every compiler. *)
Lemma escape_same cs1 cs2 s : escape cs1 s = escape cs2 s.
Proof. eapply inserted_fun; apply escape_inserted. Qed.
Lemma quoted_same cs1 cs2 s : quoted_jsonify cs1 s = quoted_jsonify cs2 s.
Proof. rewrite !quoted_jsonify_eq. reflexivity. Qed.

Lemma float_views e v : floating_ok e v ->
  string_of e v = lexi e v /\ escape_of e v = lexi e v /\ jsonify_of e v = lexi e v.
Proof. intros H. destruct v; try contradiction; cbn; repeat split;
  match goal with |- context[let* o := ?k in Ok (FFloat o)] => destruct k; reflexivity end. Qed.
Lemma same_results e1 e2 v : platform_ok (e_platform e1) -> platform_ok (e_platform e2) ->
  nan_ok (e_float e1) -> nan_ok (e_float e2) -> e_lit e1 = e_lit e2 ->
  tc_policy (fe_tc (e_float e1)) = tc_policy (fe_tc (e_float e2)) -> argument_ok e1 v -> argument_ok e2 v ->
  lexi e1 v = lexi e2 v /\ string_of e1 v = string_of e2 v /\ escape_of e1 v = escape_of e2 v /\
  jsonify_of e1 v = jsonify_of e2 v.
Proof.
  intros P1 P2 N1 N2 L T A1 A2.
  assert (I : forall (s1 s2 : bytes) n, canonical_integer s1 n -> canonical_integer s2 n -> s1 = s2)
    by (intros; eapply canonical_integer_unique; eassumption).
  assert (F : floating_ok e1 v -> floating_ok e2 v -> lexi e1 v = lexi e2 v ->
    lexi e1 v = lexi e2 v /\ string_of e1 v = string_of e2 v /\ escape_of e1 v = escape_of e2 v /\
    jsonify_of e1 v = jsonify_of e2 v).
  { intros X1 X2 E. destruct (float_views e1 v X1) as (-> & -> & ->). destruct (float_views e2 v X2) as (-> & -> & ->). auto. }
  destruct v.
  - unfold lexi, string_of, escape_of, jsonify_of, Format. rewrite L. destruct (FormatNull_new _); auto.
  - unfold lexi, string_of, escape_of, jsonify_of, Format. rewrite L. destruct (FormatBool_new _ _); auto.
  - destruct (char_views e1 c) as (f1 & _ & _ & E1 & J1). destruct (char_views e2 c) as (f2 & _ & _ & E2 & J2).
    rewrite E1, E2, J1, J2. destruct (char_formats e1 c) as [-> ->]. destruct (char_formats e2 c) as [-> ->]. cbn -[escape quoted_jsonify].
    rewrite (escape_same _ (char_signed (e_platform e2))), (quoted_same _ (char_signed (e_platform e2))). auto.
  - destruct (integer_formats e1 t v P1 A1) as (s1 & -> & -> & -> & -> & K1).
    destruct (integer_formats e2 t v P2 A2) as (s2 & -> & -> & -> & -> & K2). rewrite (I _ _ _ K1 K2). auto.
  - apply F; auto. apply (same_text e1 e2 N1 N2 L T); assumption.
  - apply F; auto. apply (same_text e1 e2 N1 N2 L T); assumption.
  - apply F; auto. apply (same_text e1 e2 N1 N2 L T); assumption.
  - destruct (enum_formats e1 u v P1 A1) as (s1 & -> & -> & -> & -> & K1).
    destruct (enum_formats e2 u v P2 A2) as (s2 & -> & -> & -> & -> & K2). rewrite (I _ _ _ K1 K2). auto.
  - destruct (fpos_formats e1 off P1 A1) as (s1 & -> & -> & -> & -> & K1).
    destruct (fpos_formats e2 off P2 A2) as (s2 & -> & -> & -> & -> & K2). rewrite (I _ _ _ K1 K2). auto.
  - cbn -[escape quoted_jsonify]. rewrite (escape_same _ (char_signed (e_platform e2))), (quoted_same _ (char_signed (e_platform e2))). auto.
  - cbn -[escape quoted_jsonify]. rewrite (escape_same _ (char_signed (e_platform e2))), (quoted_same _ (char_signed (e_platform e2))). auto.
Qed.

(** The same values are read. *)
Lemma integer_same e1 e2 p1 p2 t s : platform_ok (e_platform e1) -> platform_ok (e_platform e2) ->
  int_bits (e_platform e1) t = int_bits (e_platform e2) t -> extract e1 p1 (TInt t) s = extract e2 p2 (TInt t) s.
Proof.
  intros P1 P2 B. cbn. unfold ExtractInt_to, to_int_type. rewrite B. reflexivity.
Qed.
Lemma fpos_same e1 e2 p1 p2 s : platform_ok (e_platform e1) -> platform_ok (e_platform e2) ->
  extract e1 p1 TFpos s = extract e2 p2 TFpos s.
Proof.
  intros P1 P2. cbn. do 2 f_equal. unfold streamoff_type.
  destruct P1 as [[A|[A _]] _], P2 as [[B|[B _]] _]; rewrite A, B; cbn [Z.eqb Pos.eqb];
    unfold ExtractInt_to, to_int_type, int_signed, int_bits; rewrite ?A, ?B; reflexivity.
Qed.

(** The compilers of SpecConfig. *)
Ltac described :=
  unfold for_windows, gnu_compatible; cbn; split; [|split; [|split]];
  [intros H; try discriminate; reflexivity
  |intros H; try (exfalso; apply H; reflexivity); split; reflexivity
  |intros H; try (destruct H as (? & ? & ?); discriminate); split; intros; try discriminate; reflexivity
  |intros H; first [reflexivity|exfalso; apply H; eexists; split; [reflexivity|lia]]].
Lemma xlc_described : describes xlc_aix 64.
Proof. split; [right; reflexivity|]. described. Qed.
Lemma zero_canonical : canonical_integer (str "0") 0.
Proof.
  left. split; [lia|]. split; [discriminate|]. split; [|split; [reflexivity|intros r H; injection H as <-; reflexivity]].
  repeat constructor; cbn; lia.
Qed.
Lemma compilers_described : map long_is_64 [gcc_linux; clang_macos; gcc_arm; gcc_aarch64; msvc_x64; mingw_x64; xlc_aix] =
    [true; true; false; true; false; false; false] /\
  map mul_branch [gcc_linux; clang_macos; gcc_arm; gcc_aarch64; msvc_x64; mingw_x64; xlc_aix] =
    [GNUC64; Generic; Generic; Generic; MSVC64; GNUC64; Generic] /\
  map norm_branch [gcc_linux; clang_macos; gcc_arm; gcc_aarch64; msvc_x64; mingw_x64; xlc_aix] =
    [GNUC64; GNUC64; GNUC64; GNUC64; MSVC64; GNUC64; Generic] /\
  map unreachable_branch [gcc_linux; clang_macos; msvc_x64] = [BuiltinUnreachable; AssignZero; Assume0] /\
  describes gcc_linux 64 /\ describes clang_macos 64 /\ describes gcc_arm 32 /\ describes gcc_aarch64 64 /\
  describes msvc_x64 32 /\ describes mingw_x64 32 /\ gnu_windows_ok mingw_x64.
Proof.
  do 4 (split; [reflexivity|]).
  split; [split; [right; reflexivity|]; described|]. split; [split; [right; reflexivity|]; described|].
  split; [split; [left; reflexivity|]; described|]. split; [split; [right; reflexivity|]; described|].
  split; [split; [left; reflexivity|]; described|]. split; [split; [left; reflexivity|]; described|].
  intros _ _. left. split; [reflexivity|left; reflexivity].
Qed.

(** ** The branches, exactly *)
Lemma defined_iff : forall M : option Z, is_defined M = true <-> M <> None.
Proof. intros [v|]; cbn; split; congruence. Qed.
Lemma visual_iff : forall m, msvc_amd64 m = true <-> visual_x64 m.
Proof. intros m. unfold msvc_amd64, visual_x64. rewrite andb_true_iff, !defined_iff. tauto. Qed.
Lemma since_iff : forall m minor, 0 < minor -> gnuc_since_4 m minor = true <-> gcc_version_from 4 minor m.
Proof.
  intros m minor Hm. unfold gnuc_since_4, gcc_version_from. rewrite orb_true_iff, andb_true_iff, Z.ltb_lt, Z.eqb_eq, Z.leb_le.
  destruct (m_GNUC m) as [a|]; cbn [macro_value].
  - split.
    + intros H. exists a, (macro_value (m_GNUC_MINOR m)). split; [reflexivity|]. split.
      * destruct (m_GNUC_MINOR m); cbn; auto.
      * lia.
    + intros (a' & b & [= <-] & Hb & H). assert (macro_value (m_GNUC_MINOR m) = b) as -> by
        (destruct Hb as [-> | [-> ->]]; reflexivity). lia.
  - split; [lia|]. intros (? & ? & [=] & _).
Qed.
Lemma int128_iff : forall m, (gnuc_since_4 m 6 && is_defined (m_x86_64 m)) = true <-> has_int128 m.
Proof. intros m. unfold has_int128. rewrite andb_true_iff, defined_iff, since_iff by lia. tauto. Qed.

Lemma branches_exact : forall m,
  ((mul_branch m = MSVC64 <-> visual_x64 m) /\ (mul_branch m = GNUC64 <-> ~ visual_x64 m /\ has_int128 m)) /\
  ((mulAdd_branch m = MSVC64 <-> visual_x64 m) /\ (mulAdd_branch m = GNUC64 <-> ~ visual_x64 m /\ has_int128 m)) /\
  ((norm_branch m = MSVC64 <-> visual_x64 m) /\ (norm_branch m = GNUC64 <-> ~ visual_x64 m /\ m_GNUC m <> None)) /\
  ((boundary_branch m = MSVC64 <-> visual_x64 m) /\ boundary_branch m <> GNUC64) /\
  ((unreachable_branch m = Assume0 <-> m_MSC_VER m <> None) /\
   (unreachable_branch m = BuiltinUnreachable <-> m_MSC_VER m = None /\ gcc_version_from 4 5 m)).
Proof.
  intros m. pose proof (visual_iff m) as V. pose proof (int128_iff m) as I. pose proof (defined_iff (m_GNUC m)) as G.
  pose proof (defined_iff (m_MSC_VER m)) as M. pose proof (since_iff m 5 ltac:(lia)) as S5.
  unfold mul_branch, mulAdd_branch, norm_branch, boundary_branch, unreachable_branch.
  destruct (msvc_amd64 m), (gnuc_since_4 m 6 && is_defined (m_x86_64 m)), (is_defined (m_GNUC m)).
  all: repeat (match goal with |- _ /\ _ => split end); try (split; intros; intuition congruence); try congruence.
  all: destruct (is_defined (m_MSC_VER m)) eqn:EM, (gnuc_since_4 m 5); split; intros; try congruence.
  all: destruct (m_MSC_VER m); cbn in EM; intuition congruence.
Qed.

(** ** SYSTEM_ARCHITECTURE *)
Lemma holds_true M : holds M = true <-> true_macro M.
Proof.
  unfold holds, true_macro, macro_value. destruct M as [v|].
  - rewrite negb_true_iff, Z.eqb_neq. split; [eauto|]. intros (w & E & N). injection E as <-. exact N.
  - split; [discriminate|]. intros (w & E & _). discriminate E.
Qed.
Definition sixty_four_b (m : macros) : bool :=
  holds (m_x86_64 m) || holds (m_ppc64 m) || holds (m_amd64 m) || holds (m_LP64 m) || holds (m_M_X64 m) ||
  holds (m_ia64 m) || holds (m_M_IA64 m) || holds (m_aarch64 m) || holds (m_powerpc64 m).
Lemma sixty_four_true m : sixty_four_b m = true <-> sixty_four m.
Proof.
  unfold sixty_four_b, sixty_four. rewrite !orb_true_iff, !holds_true. rewrite !Exists_cons, Exists_nil. tauto.
Qed.

Lemma architecture_exact m :
  (SYSTEM_ARCHITECTURE m = None <-> ~ windows_macro m /\ ~ true_macro (m_GNUC m)) /\
  (SYSTEM_ARCHITECTURE m = Some 64 <-> true_macro (m_WIN64 m) \/ (~ windows_macro m /\ true_macro (m_GNUC m) /\ sixty_four m)) /\
  (architecture_legal m = true <-> (windows_macro m -> true_macro (m_GNUC m) -> (true_macro (m_WIN64 m) <-> sixty_four m))).
Proof.
  unfold windows_macro. rewrite <- sixty_four_true, <- !holds_true.
  unfold architecture_legal, SYSTEM_ARCHITECTURE, architecture_definitions, windows_architecture, gnu_architecture. fold (sixty_four_b m).
  destruct (holds (m_WIN64 m)), (holds (m_WIN32 m)), (holds (m_GNUC m)), (sixty_four_b m); cbn; intuition congruence.
Qed.
