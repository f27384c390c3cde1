(** Proofs about calls with character pointers. *)
From Coq Require Import Lia.
From Verif Require Import Machine LibMachine SpecApi ModelItoa ModelInt ModelText ModelDiyfp ModelDtoa ModelFloat ModelLexi ModelPlatforms ModelPointer SpecPointer SpecMore SpecMeaning SpecJoin ProofApi ProofFloat2 ProofFloat4 ProofJoin3.
Open Scope Z_scope.

Lemma code_nul c : code c = 0 <-> c = NUL.
Proof.
  split; [|intros ->; reflexivity]. intros H. unfold code in H. rewrite <- (ascii_N_embedding c).
  assert (E : N_of_ascii c = 0%N) by lia. rewrite E. reflexivity.
Qed.

Lemma skipn_cons_nth (b : buf) i : (i < length b)%nat -> skipn i b = nth i b None :: skipn (S i) b.
Proof. revert i. induction b as [|x b IH]; intros i L; cbn [length] in L; [lia|]. destruct i as [|i]; [reflexivity|]. cbn [skipn nth]. apply IH. lia. Qed.

Lemma c_string_cases fuel : forall b i, 0 <= i -> (Z.to_nat (Z.of_nat (length b) - i) < fuel)%nat ->
  (exists t q, buf_c_string fuel b i = Ok t /\ Forall (fun c => c <> NUL) t /\ skipn (Z.to_nat i) b = map Some t ++ Some NUL :: q) \/
  ((exists w, buf_c_string fuel b i = UB w) /\ forall t q, Forall (fun c => c <> NUL) t -> skipn (Z.to_nat i) b <> map Some t ++ Some NUL :: q).
Proof.
  induction fuel as [|fuel IH]; intros b i I L; [lia|]. cbn [buf_c_string]. unfold buf_read, in_range.
  destruct (Z.leb_spec 0 i); [|lia]. destruct (Z.ltb_spec i (Z.of_nat (length b))) as [R|R]; cbn [andb].
  - rewrite (skipn_cons_nth b (Z.to_nat i)) by lia. destruct (nth (Z.to_nat i) b None) as [c|] eqn:E; cbn [bind].
    + destruct (Z.eqb_spec (code c) 0) as [C|C].
      * left. exists [], (skipn (S (Z.to_nat i)) b). apply code_nul in C. subst c. repeat split. constructor.
      * destruct (IH b (i + 1)) as [(t & q & E1 & F & E2)|[[w E1] N]]; [lia|lia| |].
        -- left. exists (c :: t), q. rewrite E1. split; [reflexivity|]. split; [constructor; [intros ->; apply C; reflexivity|exact F]|].
           cbn [map app]. f_equal. replace (S (Z.to_nat i)) with (Z.to_nat (i + 1)) by lia. exact E2.
        -- right. split; [exists w; rewrite E1; reflexivity|]. intros [|x t] q F E2; cbn [map app] in E2; injection E2 as EX E2.
           ++ apply C. rewrite EX. reflexivity.
           ++ inversion F as [|? ? F1 F2]. apply (N t q F2). replace (Z.to_nat (i + 1)) with (S (Z.to_nat i)) by lia. exact E2.
    + right. split; [eexists; reflexivity|]. intros [|x t] q _ E2; discriminate E2.
  - right. split; [eexists; reflexivity|]. intros t q _. rewrite skipn_all2 by lia. destruct t; discriminate.
Qed.

Lemma text_split (t t' : bytes) q q' : Forall (fun c => c <> NUL) t -> Forall (fun c => c <> NUL) t' ->
  map Some t ++ Some NUL :: q = map Some t' ++ Some NUL :: q' -> t = t'.
Proof.
  revert t'. induction t as [|c t IH]; intros [|c' t'] F F' E; cbn [map app] in E; [reflexivity| | |]; injection E as E1 E2.
  - inversion F'. congruence.
  - inversion F. congruence.
  - inversion F; inversion F'; subst. f_equal. apply IH; assumption.
Qed.

Lemma pointer_cases p : (exists t, string_from p = Ok t /\ text_of p t /\ forall t', text_of p t' -> t' = t) \/
  ((exists w, string_from p = UB w) /\ forall t, ~ text_of p t).
Proof.
  destruct p as [|b i]; [right; split; [eexists; reflexivity|intros t []]|]. cbn [string_from text_of].
  destruct (Z.lt_ge_cases i 0) as [N|P].
  - right. split; [|intros t [I _]; lia]. cbn [buf_c_string]. unfold buf_read, in_range. destruct (Z.leb_spec 0 i); [lia|]. eexists. reflexivity.
  - destruct (c_string_cases (S (length b)) b i P) as [(t & q & E & F & S)|[U N]]; [lia| |].
    + left. exists t. split; [exact E|]. split; [split; [exact P|split; [exact F|exists q; exact S]]|].
      intros t' (_ & F' & q' & S'). rewrite S in S'. symmetry. apply (text_split t t' q q' F F' S').
    + right. split; [exact U|]. intros t (_ & F & q & S). apply (N t q F S).
Qed.

Lemma pointer_defined e p t : text_of p t -> string_from p = Ok t /\ p_lexi e p = Ok t /\ p_string e p = Ok t /\
  p_escape e p = escape_of e (VString t) /\ p_jsonify e p = jsonify_of e (VString t) /\
  forall point T, p_extract e point T p = extract e point T t.
Proof.
  intros H. destruct (pointer_cases p) as [(t' & E & _ & U)|[_ N]]; [|destruct (N t H)]. rewrite <- (U t H) in E.
  unfold p_lexi, p_string, p_escape, p_jsonify, p_extract. rewrite E. cbn [bind]. repeat split.
Qed.

Lemma pointer_undefined e p : (forall t, ~ text_of p t) -> (exists w, p_lexi e p = UB w) /\ (exists w, p_string e p = UB w) /\
  (exists w, p_escape e p = UB w) /\ (exists w, p_jsonify e p = UB w) /\ forall point T, exists w, p_extract e point T p = UB w.
Proof.
  intros H. destruct (pointer_cases p) as [(t' & E & X & _)|[[w E] _]]; [destruct (H t' X)|].
  unfold p_lexi, p_string, p_escape, p_jsonify, p_extract. rewrite E. cbn [bind]. repeat split; intros; exists w; reflexivity.
Qed.

Lemma f_pointer_c_str f : string_from (f_pointer f) = f_c_str f.
Proof. destruct f; reflexivity. Qed.

Lemma pointer_of_text p t : string_from p = Ok t -> text_of p t.
Proof. intros E. destruct (pointer_cases p) as [(t' & E' & X & _)|[[w E'] _]]; rewrite E in E'; [injection E' as <-; exact X|discriminate E']. Qed.

(** What the formatter objects point to is their text (but for the character NUL, whose text
    begins with the terminator). *)
Lemma formatted_pointer e v f : platform_ok (e_platform e) -> nan_ok (e_float e) -> e_lit e = default_literals -> value_ok e v ->
  Format e v = Ok f -> v <> VChar NUL -> exists s, lexi e v = Ok s /\ text_of (f_pointer f) s.
Proof.
  intros P Nn L V F N. destruct (all_views e v f P Nn L V F) as (s & A & _ & S & _). exists s. split; [exact A|].
  apply pointer_of_text. rewrite f_pointer_c_str. apply S.
  assert (K : (exists c, v = VChar c) \/ is_number v \/ v = VNull \/ (exists b, v = VBool b))
    by (destruct v; cbn [is_number]; try contradiction V; eauto).
  destruct K as [[c ->]|K].
  - rewrite (proj1 (char_formats e c)) in A. injection A as <-.
    constructor; [congruence|constructor].
  - assert (O : one_line s) by (apply (format_line e v s P Nn L); [destruct v; try exact V; exact I|exact K|exact A]).
    eapply Forall_impl; [|exact O]. intros c Hc ->. vm_compute in Hc. apply Hc. reflexivity.
Qed.

(** ModelLexi, in which a C string is the text before the terminator, agrees. *)
Lemma cstring_text s : text_of (PointerTo (map Some s ++ [Some NUL]) 0) (c_str_of s).
Proof.
  split; [lia|]. change (Z.to_nat 0) with 0%nat. cbn [skipn]. induction s as [|c s (F & q & E)].
  - split; [constructor|]. exists []. reflexivity.
  - cbn [c_str_of]. destruct (Z.eqb_spec (code c) 0) as [C|C].
    + split; [constructor|]. apply code_nul in C. subst c. exists (map Some s ++ [Some NUL]). reflexivity.
    + split; [constructor; [intros ->; apply C; reflexivity|exact F]|]. exists q. cbn [map app]. rewrite E. reflexivity.
Qed.

Lemma cstring_agrees e s : let p := PointerTo (map Some s ++ [Some NUL]) 0 in
  p_lexi e p = lexi e (VCString s) /\ p_string e p = string_of e (VCString s) /\ p_escape e p = escape_of e (VCString s) /\
  p_jsonify e p = jsonify_of e (VCString s) /\ forall point T, p_extract e point T p = extract_cstr e point T s.
Proof. intros p. destruct (pointer_defined e p (c_str_of s) (cstring_text s)) as (_ & -> & -> & -> & -> & X). repeat split. exact X. Qed.

Lemma array_refuted : exists e b, Forall (fun c => c <> None) b /\ (exists w, p_lexi e (PointerTo b 0) = UB w) /\
  exists t b', Forall (fun c => c <> None) b' /\ b' <> map Some t ++ [Some NUL] /\ p_lexi e (PointerTo b' 0) = Ok t.
Proof.
  exists (linux_x86_64 Strict), [Some "a"%char; Some "b"%char; Some "c"%char]. split; [repeat (constructor; [discriminate|]); constructor|].
  split; [eexists; vm_compute; reflexivity|]. exists (str "a"), [Some "a"%char; Some NUL; Some "c"%char; Some NUL].
  split; [repeat (constructor; [discriminate|]); constructor|]. split; [discriminate|vm_compute; reflexivity].
Qed.

Lemma formatted_read e v f point T : platform_ok (e_platform e) -> nan_ok (e_float e) -> e_lit e = default_literals -> value_ok e v ->
  Format e v = Ok f -> v <> VChar NUL ->
  p_lexi e (f_pointer f) = lexi e v /\ p_extract e point T (f_pointer f) = (let* s := lexi e v in extract e point T s).
Proof.
  intros P Nn L V F N. destruct (formatted_pointer e v f P Nn L V F N) as (s & -> & X).
  destruct (pointer_defined e (f_pointer f) s X) as (_ & A & _ & _ & _ & B). split; [exact A|apply B].
Qed.

Lemma nul_read e f : Format e (VChar NUL) = Ok f -> p_lexi e (f_pointer f) = Ok [].
Proof. intros F. vm_compute in F. injection F as <-. vm_compute. reflexivity. Qed.
