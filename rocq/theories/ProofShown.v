(** Exactly which text is returned for a double. *)
From Coq Require Import Reals Lra Psatz.
From Flocq Require Import Core.
From Verif Require Import Machine LibMachine SpecApi SpecDecimal SpecNumber SpecIeee SpecLayout SpecOverrun SpecGrisu
  ModelIeee ModelDiyfp ModelDtoa ModelFloat ModelLexi ModelPlatforms
  ProofDiyfp ProofCached ProofDigits ProofGrisu ProofLayout ProofIeee ProofDtoa ProofNumber ProofShort ProofStrict ProofUnique ProofApi
  ProofFloat ProofFloat2 ProofFloat3 ProofFloat4 ProofClose ProofMore ProofOverrun ProofRead3 ProofWindow.
Open Scope Z_scope.
Ltac Zify.zify_post_hook ::= idtac.

Lemma zeros_unique a b : all_zeros a -> all_zeros b -> length a = length b -> a = b.
Proof.
  revert b. induction a as [|x a IH]; intros [|y b] A B L; try discriminate L; [reflexivity|].
  inversion_clear A. inversion_clear B. subst. f_equal. apply IH; try assumption. injection L as L. exact L.
Qed.

Lemma cut_length (D a b : bytes) n : D = a ++ b -> a <> [] -> b <> [] -> Z.of_nat (length a) = n -> 1 <= n < Z.of_nat (length D).
Proof.
  intros -> A B <-. rewrite app_length. destruct a; [congruence|]. destruct b; [congruence|]. cbn [length]. lia.
Qed.

Lemma written_unique D n t t' : D <> [] -> written D n t -> written D n t' -> t = t'.
Proof.
  intros ND W W'. assert (L1 : 1 <= Z.of_nat (length D)) by (destruct D; [congruence|cbn [length]; lia]).
  destruct W as [z A B C|a b A B C1 C2 C|z A B C|d x A B C|d r x A B C0 C];
    try pose proof (cut_length _ _ _ _ B C1 C2 C) as CU;
  destruct W' as [z' A' B' C'|a' b' A' B' C1' C2' C'|z' A' B' C'|d' x' A' B' C'|d' r' x' A' B' C0' C'];
    try pose proof (cut_length _ _ _ _ B' C1' C2' C') as CU'; try (exfalso; lia); try (exfalso; congruence).
  - rewrite (zeros_unique z z' B B'); [reflexivity|]. rewrite app_length in *. lia.
  - assert (La : length a = length a') by lia. rewrite B in B'.
    assert (Ea : a = a').
    { rewrite <- (firstn_all_app a b (length a) eq_refl), B', La. apply firstn_all_app. reflexivity. }
    subst a'. apply app_inv_head in B'. subst b'. reflexivity.
  - rewrite (zeros_unique z z' B B'); [reflexivity|lia].
  - rewrite B in B'. injection B' as <-. rewrite (canonical_integer_unique _ _ _ C C'). reflexivity.
  - rewrite B in B'. injection B' as <- <-. rewrite (canonical_integer_unique _ _ _ C C'). reflexivity.
Qed.

Section Shown.
Context (u : Z) (H : bits64 u) (HF : double_finite u) (HN : double_value u <> 0%R).

Lemma shown_unique s s' : shown u s -> shown u s' -> s = s'.
Proof.
  intros (g & N & P & D & t & DS & R & PD & CN & W & ->) (g' & N' & P' & D' & t' & DS' & R' & PD' & CN' & W' & ->).
  destruct (printed_unique u H HF HN _ _ _ _ PD PD') as [<- <-].
  pose proof (canonical_natural_unique _ _ _ CN CN') as <-.
  rewrite (written_unique _ _ _ _ (proj1 CN) W W'). reflexivity.
Qed.

Lemma digits_canonical ds : good_digits ds -> canonical_natural (map dchr ds) (nval ds).
Proof.
  intros [HD (d & r & E & Hd)]. split; [rewrite E; discriminate|]. split; [apply digits_map; exact HD|].
  split; [apply numeral_value_dchr; exact HD|]. intros q X. rewrite E in X, HD. cbn [map] in X. injection X as X _.
  inversion_clear HD. unfold digit in *. exfalso. exact (dchr_not_zero d ltac:(lia) X).
Qed.

Lemma shown_text e s : tc_policy (fe_tc (e_float e)) = Strict -> lexi e (VDouble u) = Ok s -> shown u s.
Proof.
  intros S L. destruct (printed_facts e u H HF HN) as (ds & K & F0 & E & k & kap & FP & Ex & G & GC & GD & J & M & X & Y).
  cbv zeta in *. destruct (X S) as [X1 _].
  assert (Hk : -9 <= kap).
  { destruct (Z.le_gt_cases (-9) kap) as [|B]; [assumption|exfalso]. rewrite (X1 B) in L. discriminate L. }
  rewrite (Y Hk) in L. apply Ok_inj in L. subst s.
  pose proof (cached_scale _ _ _ _ _ FP GC) as CS. pose proof (go_K _ _ _ _ _ _ _ G) as EK.
  exists (- k), (nval ds), K, (map dchr ds), (layout ds K). rewrite Ex.
  split; [exact CS|]. split; [lia|]. split.
  - do 5 eexists. split; [apply (window_of _ _ _ _ FP GC (go_cached _ _ _ _ _ _ _ G))|].
    split; [exact (search_place _ _ _ _ _ _ _ FP G)|]. split; [exact (digits_within _ _ _ _ _ _ _ FP G)|].
    intros D B. cbv zeta. apply (close_R _ _ _ _ _ _ _ D FP G Hk B).
  - split; [apply digits_canonical; exact GD|]. split.
    + rewrite map_length, Z.add_comm. apply layout_written; [exact GD|]. apply (grisu_exponent _ _ _ _ _ _ _ G).
    + f_equal. unfold sign_text. rewrite double_sign_eq by exact H. reflexivity.
Qed.

(** Whatever lies behind the table. *)
Lemma text_shown e s : shown u s -> lexi e (VDouble u) = Ok s.
Proof.
  intros S. destruct S as (g & N & P & D & t & DS & R & PD & CN & W & ->).
  destruct (printed_facts e u H HF HN) as (ds & K & F0 & E & k & kap & FP & Ex & G & GC & GD & J & M & X & Y).
  cbv zeta in *. rewrite Ex in *. pose proof (go_K _ _ _ _ _ _ _ G) as EK.
  rewrite (scale_unique _ _ _ DS (cached_scale _ _ _ _ _ FP GC)) in R.
  assert (PK : P = K).
  { destruct PD as (g' & lo & mid & hi & unit & Wi & A & _).
    destruct (window_unique _ _ _ _ _ _ _ _ _ FP GC (go_cached _ _ _ _ _ _ _ G) Wi) as (-> & -> & -> & -> & ->).
    apply (place_unique _ _ _ _ _ _ A (search_place _ _ _ _ _ _ _ FP G)). }
  subst P. assert (Hk : -9 <= kap) by lia. rewrite (Y Hk). f_equal.
  assert (PD' : printed_decimal (Rabs (double_value u)) (nval ds) K).
  { rewrite Ex. do 5 eexists. split; [apply (window_of _ _ _ _ FP GC (go_cached _ _ _ _ _ _ _ G))|].
    split; [exact (search_place _ _ _ _ _ _ _ FP G)|]. split; [exact (digits_within _ _ _ _ _ _ _ FP G)|].
    intros D' B. cbv zeta. apply (close_R _ _ _ _ _ _ _ D' FP G Hk B). }
  rewrite <- Ex in PD. destruct (printed_unique u H HF HN _ _ _ _ PD PD') as [-> _].
  rewrite (canonical_natural_unique _ _ _ CN (digits_canonical ds GD)) in *.
  assert (NE : map dchr ds <> []) by (destruct GD as [_ (d & r & -> & _)]; discriminate).
  f_equal.
  - unfold sign_text. rewrite double_sign_eq by exact H. reflexivity.
  - symmetry. apply (written_unique _ _ _ _ NE W). rewrite map_length, Z.add_comm.
    apply layout_written; [exact GD|]. apply (grisu_exponent _ _ _ _ _ _ _ G).
Qed.

Lemma shown_exactly e s : tc_policy (fe_tc (e_float e)) = Strict -> (lexi e (VDouble u) = Ok s <-> shown u s).
Proof. intros S. split; [apply shown_text; exact S|apply text_shown]. Qed.

End Shown.

Lemma shown_case : shown 0xC09348CCCCCCCCCD (str "-1234.2").
Proof.
  destruct (sample 0xC09348CCCCCCCCCD eq_refl) as (A & B & C).
  apply (shown_text _ A B C (linux_x86_64 Strict)); vm_compute; reflexivity.
Qed.
