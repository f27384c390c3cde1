(** Proofs about texts escaped and cut in pieces. *)
From Coq Require Import Lia.
From Verif Require Import Machine LibMachine SpecString SpecMemory SpecPieces ModelString ModelItoa ModelInt ModelText ModelLexi ProofString.
Open Scope Z_scope.

(** A cut of a text made of codes is between two of them or inside one. *)
Lemma cut_codes (enc : ascii -> bytes) : forall s p q, flat_map enc s = p ++ q ->
  (exists s1 s2, s = s1 ++ s2 /\ p = flat_map enc s1 /\ q = flat_map enc s2) \/
  (exists s1 c s2 p' q', s = s1 ++ c :: s2 /\ p = flat_map enc s1 ++ p' /\ enc c = p' ++ q' /\ p' <> [] /\ q' <> []).
Proof.
  induction s as [|c s IH]; intros p q E; cbn [flat_map] in E.
  - symmetry in E. apply app_eq_nil in E as [-> ->]. left. exists [], []. auto.
  - apply app_eq_app in E as (l & [[E1 E2]|[E1 E2]]).
    + (* the cut is inside of the first code, or at an end of it *)
      destruct p as [|x p].
      * left. exists [], (c :: s). cbn in E1. subst. auto.
      * destruct l as [|y l].
        -- left. exists [c], s. rewrite app_nil_r in E1. cbn. rewrite app_nil_r. auto.
        -- right. exists [], c, s, (x :: p), (y :: l). repeat split; auto; discriminate.
    + destruct (IH l q E2) as [(s1 & s2 & -> & -> & ->)|(s1 & d & s2 & p' & q' & -> & -> & H)].
      * left. exists (c :: s1), s2. cbn. auto.
      * right. exists (c :: s1), d, s2, p', q'. cbn. rewrite <- app_assoc. auto.
Qed.

(** ** escape *)
Definition eenc (c : ascii) : bytes := if escape_needed false c then [BACKSLASH; c] else [c].

Lemma escape_eenc cs s : escape cs s = flat_map eenc s.
Proof.
  apply (inserted_fun escaped_class s); [apply escape_inserted|].
  induction s as [|c s IH]; cbn [flat_map]; [constructor|].
  unfold eenc. destruct (escape_needed false c) eqn:E; cbn [app].
  - apply ins_esc; [apply (escape_needed_iff false); exact E|exact IH].
  - apply ins_raw; [rewrite <- (escape_needed_iff false), E; discriminate|exact IH].
Qed.

Lemma unescape_eenc c r : unescape (eenc c ++ r) = option_map (cons c) (unescape r).
Proof. all_chars c; reflexivity. Qed.

Lemma unescape_flat s r : unescape (flat_map eenc s ++ r) = option_map (app s) (unescape r).
Proof.
  induction s as [|c s IH]; cbn [flat_map app].
  - destruct (unescape r); reflexivity.
  - rewrite <- app_assoc, unescape_eenc, IH. destruct (unescape r); reflexivity.
Qed.

Lemma unescape_inside c p q : eenc c = p ++ q -> p <> [] -> q <> [] -> unescape p = None.
Proof.
  unfold eenc. intros E P Q. destruct p as [|x p]; [congruence|].
  destruct (escape_needed false c).
  - destruct p as [|y p]; [injection E as <- _; reflexivity|].
    destruct p; [|discriminate]. destruct q; [congruence|discriminate].
  - destruct p; [|discriminate]. destruct q; [congruence|discriminate].
Qed.

Theorem pieces_escape : forall e a b, exists x y, escape_of e (VString a) = Ok x /\ escape_of e (VString b) = Ok y /\
  escape_of e (VString (a ++ b)) = Ok (x ++ y).
Proof.
  intros e a b. cbn [escape_of]. rewrite !escape_eenc, flat_map_app. eauto.
Qed.

Theorem pieces_cut : forall e s t p q, escape_of e (VString s) = Ok t -> t = p ++ q ->
  (unescape p = None /\ (forall r, escape_of e (VString r) <> Ok p)) \/
  (exists s1 s2, s = s1 ++ s2 /\ escape_of e (VString s1) = Ok p /\ escape_of e (VString s2) = Ok q).
Proof.
  intros e s t p q [= E] ->. cbn [escape_of]. rewrite escape_eenc in E.
  destruct (cut_codes eenc s p q E) as [(s1 & s2 & -> & -> & ->)|(s1 & c & s2 & p' & q' & -> & -> & EC & P & Q)].
  - right. exists s1, s2. rewrite !escape_eenc. auto.
  - left. pose proof (unescape_inside c p' q' EC P Q) as N.
    assert (U : unescape (flat_map eenc s1 ++ p') = None) by (rewrite unescape_flat, N; reflexivity).
    split; [exact U|]. intros r [= R]. rewrite <- R, (inserted_unescape r) in U by apply escape_inserted. discriminate U.
Qed.

Lemma escape_inj cs a b : escape cs a = escape cs b -> a = b.
Proof.
  intros E. pose proof (inserted_unescape _ _ (escape_inserted cs a)) as A.
  rewrite E, (inserted_unescape _ _ (escape_inserted cs b)) in A. congruence.
Qed.

Theorem pieces_begin : forall e a b x y, escape_of e (VString a) = Ok x -> escape_of e (VString b) = Ok y ->
  (begins x y <-> begins a b).
Proof.
  intros e a b x y A B. split.
  - intros [r R]. destruct (pieces_cut e b y x r B R) as [[_ N]|(s1 & s2 & -> & S1 & _)]; [destruct (N a A)|].
    cbn [escape_of] in A, S1. assert (I : escape (char_signed (e_platform e)) a = escape (char_signed (e_platform e)) s1) by congruence.
    apply escape_inj in I as ->. exists s2. reflexivity.
  - intros [r ->]. destruct (pieces_escape e a r) as (x' & y' & A' & _ & B'). exists y'. congruence.
Qed.

(** ** jsonify *)
Theorem pieces_json : forall e a b, exists x y,
  jsonify_of e (VString a) = Ok ([QUOTE] ++ x ++ [QUOTE]) /\ jsonify_of e (VString b) = Ok ([QUOTE] ++ y ++ [QUOTE]) /\
  jsonify_of e (VString (a ++ b)) = Ok ([QUOTE] ++ (x ++ y) ++ [QUOTE]).
Proof.
  intros e a b. cbn [jsonify_of]. rewrite !quoted_jsonify_eq, flat_map_app. eauto.
Qed.

Lemma json_flat s r : json_chars (flat_map jenc s ++ r) = option_map (app s) (json_chars r).
Proof.
  induction s as [|c s IH]; cbn [flat_map app].
  - destruct (json_chars r); reflexivity.
  - rewrite <- app_assoc, json_chars_jenc, IH. destruct (json_chars r); reflexivity.
Qed.

Lemma json_firstn c k : (0 < k < length (jenc c))%nat ->
  json_chars (firstn k (jenc c)) = None /\ json_chars (firstn k (jenc c) ++ [QUOTE]) = None.
Proof.
  all_chars c; destruct k as [|[|[|[|[|[|k]]]]]]; intros H; try (split; reflexivity); vm_compute in H; lia.
Qed.

Lemma json_inside c p q : jenc c = p ++ q -> p <> [] -> q <> [] -> json_chars p = None /\ json_chars (p ++ [QUOTE]) = None.
Proof.
  intros E P Q. assert (F : p = firstn (length p) (jenc c)) by (rewrite E, firstn_app, firstn_all, Nat.sub_diag, app_nil_r; reflexivity).
  rewrite F. apply json_firstn. rewrite E, app_length. destruct p, q; cbn; try congruence; lia.
Qed.

Theorem pieces_prefix_free : forall e s t p q, jsonify_of e (VString s) = Ok t -> t = p ++ q -> q <> [] -> json_string_decode p = None.
Proof.
  intros e s t p q. cbn [jsonify_of]. rewrite quoted_jsonify_eq. intros [= E] -> Q.
  destruct p as [|c p]; [reflexivity|]. cbn [app] in E. injection E as <- E.
  cbn [json_string_decode]. change (code QUOTE =? 34) with true. cbn iota.
  destruct (exists_last Q) as (q1 & z & ->). rewrite app_assoc in E. apply app_inj_tail in E as [E _].
  destruct (cut_codes jenc s p q1 E) as [(s1 & s2 & -> & -> & _)|(s1 & c & s2 & p' & q' & -> & -> & EC & P & Q')].
  - rewrite <- (app_nil_r (flat_map jenc s1)), json_flat. reflexivity.
  - rewrite json_flat, (proj1 (json_inside c p' q' EC P Q')). reflexivity.
Qed.

Theorem pieces_close : forall e s p q, jsonify_of e (VString s) = Ok ([QUOTE] ++ (p ++ q) ++ [QUOTE]) ->
  match json_string_decode ([QUOTE] ++ p ++ [QUOTE]) with
  | Some s1 => exists s2, s = s1 ++ s2 /\ jsonify_of e (VString s1) = Ok ([QUOTE] ++ p ++ [QUOTE]) /\
                 jsonify_of e (VString s2) = Ok ([QUOTE] ++ q ++ [QUOTE])
  | None => forall s1, jsonify_of e (VString s1) <> Ok ([QUOTE] ++ p ++ [QUOTE])
  end.
Proof.
  intros e s p q. cbn [jsonify_of]. rewrite quoted_jsonify_eq. intros H.
  injection H as E. change ([QUOTE] ++ p ++ [QUOTE]) with (QUOTE :: p ++ [QUOTE]).
  apply app_inj_tail in E as [E _].
  destruct (cut_codes jenc s p q E) as [(s1 & s2 & -> & -> & ->)|(s1 & c & s2 & p' & q' & -> & -> & EC & P & Q')].
  - change (QUOTE :: flat_map jenc s1 ++ [QUOTE]) with ([QUOTE] ++ flat_map jenc s1 ++ [QUOTE]).
    rewrite quoted_decodes. exists s2. rewrite !quoted_jsonify_eq. auto.
  - cbn [json_string_decode]. change (code QUOTE =? 34) with true. cbn iota.
    assert (N : json_chars ((flat_map jenc s1 ++ p') ++ [QUOTE]) = None)
      by (rewrite <- app_assoc, json_flat, (proj2 (json_inside c p' q' EC P Q')); reflexivity).
    rewrite N. intros r. rewrite quoted_jsonify_eq. intros [= R].
    apply app_inj_tail in R as [R _]. rewrite <- R, json_decode_flat in N. discriminate N.
Qed.

(** ** Sizes *)
Lemma inserted_counted P s t : inserted P s t -> counted P s (size t - size s).
Proof.
  unfold size. induction 1 as [|c s t Hc H IH|c s t Hc H IH]; [constructor| |].
  - replace (Z.of_nat (length (BACKSLASH :: c :: t)) - Z.of_nat (length (c :: s))) with (Z.of_nat (length t) - Z.of_nat (length s) + 1)
      by (cbn [length]; lia). constructor; assumption.
  - replace (Z.of_nat (length (c :: t)) - Z.of_nat (length (c :: s))) with (Z.of_nat (length t) - Z.of_nat (length s))
      by (cbn [length]; lia). constructor; assumption.
Qed.

Lemma counted_fun P s n m : counted P s n -> counted P s m -> n = m.
Proof.
  intros H; revert m. induction H; intros m M; inversion M; subst; try contradiction; auto.
  f_equal. auto.
Qed.

Theorem pieces_escape_size : forall e s t n, escape_of e (VString s) = Ok t -> counted escaped_class s n -> size t = size s + n.
Proof.
  intros e s t n [= <-] C. pose proof (counted_fun _ _ _ _ C (inserted_counted _ _ _ (escape_inserted (char_signed (e_platform e)) s))). lia.
Qed.

Lemma jenc_size c : (short_escape c /\ ~ long_escape c /\ size (jenc c) = 2) \/
  (~ short_escape c /\ long_escape c /\ size (jenc c) = 6) \/ (~ short_escape c /\ ~ long_escape c /\ size (jenc c) = 1).
Proof.
  unfold short_escape, long_escape. pose proof (code_range c) as R.
  assert (D : forall x l, {In x l} + {~ In x l}) by (intros; apply in_dec, Z.eq_dec).
  assert (S : size (jenc c) = if in_dec Z.eq_dec (code c) [8; 9; 10; 12; 13; 34; 92] then 2 else if code c <? 32 then 6 else 1)
    by (clear; all_chars c; reflexivity).
  rewrite S. destruct (in_dec Z.eq_dec (code c) [8; 9; 10; 12; 13; 34; 92]) as [I|I].
  - left. split; [exact I|]. split; [|reflexivity]. intros [L N]. cbn in I, N. lia.
  - right. destruct (Z.ltb_spec (code c) 32).
    + left. split; [exact I|]. split; [|reflexivity]. split; [assumption|]. intros N. apply I. cbn in *. tauto.
    + right. split; [exact I|]. split; [lia|reflexivity].
Qed.

Theorem pieces_json_size : forall e s t n m, jsonify_of e (VString s) = Ok t -> counted short_escape s n -> counted long_escape s m ->
  size t = size s + 2 + n + 5 * m.
Proof.
  intros e s t n m. cbn [jsonify_of]. rewrite quoted_jsonify_eq. intros [= <-] N M.
  cbn [app]. change (size (QUOTE :: flat_map jenc s ++ [QUOTE])) with (Z.of_nat (S (length (flat_map jenc s ++ [QUOTE])))).
  rewrite app_length. cbn [length].
  enough (size (flat_map jenc s) = size s + n + 5 * m) by (unfold size in *; lia).
  revert m M. induction N as [|c s n I N IH|c s n I N IH]; intros m M; inversion M as [|d r k J K|d r k J K]; subst; clear M;
    [reflexivity|..];
    specialize (IH _ K); cbn [flat_map];
    unfold size in *; rewrite app_length; cbn [length];
    destruct (jenc_size c) as [(A & B & D)|[(A & B & D)|(A & B & D)]]; try contradiction; unfold size in D; lia.
Qed.

Theorem pieces_counted : forall s, (exists n, counted escaped_class s n) /\ (exists n, counted short_escape s n) /\ (exists n, counted long_escape s n).
Proof.
  intros s.
  assert (G : forall P : ascii -> Prop, (forall c, P c \/ ~ P c) -> exists n, counted P s n).
  { intros P D. induction s as [|c r [n IH]]; [exists 0; constructor|].
    destruct (D c); [exists (n + 1)|exists n]; constructor; assumption. }
  repeat split; apply G; intros c.
  - rewrite <- (escape_needed_iff false). destruct (escape_needed false c); [left; reflexivity|right; discriminate].
  - destruct (jenc_size c) as [(A & _)|[(A & _)|(A & _)]]; tauto.
  - destruct (jenc_size c) as [(_ & A & _)|[(_ & A & _)|(_ & A & _)]]; tauto.
Qed.
