(** Floats printed and read back in a direction. *)
From Coq Require Import Reals Lra Psatz Floats.SpecFloat.
From Flocq Require Import Core IEEE754.BinarySingleNaN.
From Verif Require Import Machine LibMachine SpecApi SpecDecimal SpecNumber SpecIeee SpecRead SpecMore SpecRounding SpecDirected
  ModelInt ModelText ModelIeee ModelDiyfp ModelDtoa ModelFloat ModelLexi ModelPlatforms ModelRounding ModelDirected
  ProofDiyfp ProofIeee ProofDtoa ProofFloat ProofFloat4 ProofRound ProofRead ProofRead2 ProofRead3 ProofRounding ProofDirected.
Open Scope Z_scope.
Ltac Zify.zify_post_hook ::= idtac.

Lemma nearest_opp p q t : nearest p q (- t) = (- nearest p q t)%R.
Proof. exact (nearest_neg p q true t). Qed.

(** What rounds to a float as a double does as a float: the midpoints of floats are doubles. *)
Lemma nearest_float_pos t x : (0 < x)%R -> generic_format radix2 fexp32 x -> nearest 53 1024 t = x -> nearest 24 128 t = x.
Proof.
  intros P F N. destruct (float_neighbours x P F) as (N1 & N2 & N3).
  assert (F64 : generic_format radix2 fexp64 x) by (apply (format_incl 24 128 53 1024); [lia|lia|exact F]).
  apply Rle_antisym.
  - apply round_N_le_midp; [typeclasses eauto|exact F|]. apply Rlt_le_trans with (2 := N2).
    destruct (Rlt_or_le t (succ radix2 fexp64 x)) as [Q|Q]; [exact Q|exfalso].
    apply (nearest_le' 53 1024) in Q; [|lia]. rewrite N, nearest_exact in Q; [lra|lia|].
    apply generic_format_succ; [typeclasses eauto|exact F64].
  - apply round_N_ge_midp; [typeclasses eauto|exact F|]. apply Rle_lt_trans with (1 := N1).
    destruct (Rlt_or_le (pred radix2 fexp64 x) t) as [Q|Q]; [exact Q|exfalso].
    apply (nearest_le' 53 1024) in Q; [|lia]. rewrite N, nearest_exact in Q; [lra|lia|].
    apply generic_format_pred; [typeclasses eauto|exact F64].
Qed.

Lemma nearest_float t x : x <> 0%R -> generic_format radix2 fexp32 x -> nearest 53 1024 t = x -> nearest 24 128 t = x.
Proof.
  intros Z F N. destruct (Rlt_or_le x 0) as [L|L]; [|apply nearest_float_pos; auto; lra].
  rewrite <- (Ropp_involutive t), nearest_opp.
  rewrite (nearest_float_pos (- t) (- x)); [lra|lra|apply generic_format_opp; exact F|].
  rewrite nearest_opp, N. reflexivity.
Qed.

Lemma same_float_of_value z u : float_finite u -> float_value u <> 0%R -> SpecFloat.valid_binary 24 128 z = true ->
  is_finite_SF z = true -> SF2R radix2 z = float_value u -> same_float z u.
Proof.
  intros FU N V F R. split; [exact V|]. split; [exact F|]. split; [exact R|].
  assert (NN : ~ float_nan u). { intros X. apply float_of_bits_nan in X. apply float_of_bits_finite in FU. rewrite X in FU. discriminate FU. }
  rewrite <- (float_of_bits_sign u NN).
  rewrite (sign_of_value z F), (sign_of_value (float_of_bits u)); rewrite ?float_of_bits_value, ?R; auto.
  apply float_of_bits_finite. exact FU.
Qed.

(** The number a float prints rounds to it as a float. *)
Lemma float_prints e u s n : nan_ok (e_float e) -> bits32 u -> float_finite u -> float_value u <> 0%R ->
  lexi e (VFloat u) = Ok s -> json_number s n -> nearest 24 128 (n_value n) = float_value u.
Proof.
  intros HN B F N L J. destruct (float_printed e u HN B) as (w & Hw & _ & E & _ & _ & FW). destruct (FW F) as (Fw & Vw & Sw).
  rewrite E in L. destruct (double_round_trip e w s Hw Fw ltac:(rewrite Vw; exact N) L) as (n0 & J0 & U & _ & NE).
  assert (n = n0) as <- by (apply U; exact J). rewrite Vw in NE.
  apply nearest_float; [exact N|apply float_value_facts|exact NE].
Qed.

Lemma float_directed_back e u s n : nan_ok (e_float e) -> bits32 u -> float_finite u -> float_value u <> 0%R ->
  lexi e (VFloat u) = Ok s -> json_number s n ->
  let x := float_value u in let t := n_value n in
  (exists z, d_extract Downward e "."%char TFloat s = Ok (XFloating z) /\
     ((x <= t)%R -> same_float z u) /\ ((t < x)%R -> just_below 24 128 z x)) /\
  (exists z, d_extract Upward e "."%char TFloat s = Ok (XFloating z) /\
     ((t <= x)%R -> same_float z u) /\ ((x < t)%R -> just_above 24 128 z x)) /\
  (exists z, d_extract TowardZero e "."%char TFloat s = Ok (XFloating z) /\
     ((Rabs x <= Rabs t)%R -> same_float z u) /\
     ((Rabs t < Rabs x)%R -> if float_sign u then just_above 24 128 z x else just_below 24 128 z x)).
Proof.
  intros HN B F N L J. cbv zeta. pose proof (float_prints e u s n HN B F N L J) as NE.
  pose proof (json_reads s n J) as R. assert (D : denotes (whole_number n) (n_value n)) by (symmetry; exact (signed_value n)).
  set (w := float_of_bits u). assert (VW := float_of_bits_valid u : SpecFloat.valid_binary 24 128 w = true).
  assert (FW : is_finite_SF w = true) by (apply float_of_bits_finite; exact F).
  assert (EW : SF2R radix2 w = float_value u) by apply float_of_bits_value.
  assert (SW : float_sign u = Rlt_bool (float_value u) 0).
  { rewrite <- EW, <- sign_of_value; [|exact FW|rewrite EW; exact N]. symmetry. apply float_of_bits_sign. intros X.
    apply float_of_bits_nan in X. unfold w in FW. rewrite X in FW. discriminate FW. }
  rewrite <- EW in NE. set (t := n_value n) in *.
  assert (RD : forall d, d <> ToNearest -> exists z, d_extract d e "."%char TFloat s = Ok (XFloating z) /\ directed d 24 128 z t).
  { intros d ND. destruct (directed_read d e "."%char s _ t TFloat 24 128 ND dot_ok R D eq_refl) as (z & E & H & _). eauto. }
  split; [|split].
  - destruct (RD Downward ltac:(discriminate)) as (z & E & H). exists z. split; [exact E|].
    destruct (back_below 24 128 float_good w VW FW t NE z H) as [H1 H2]. rewrite EW in H1, H2. split; [|exact H2].
    intros X. destruct (H1 X) as [FZ RZ]. apply same_float_of_value; auto. exact (directed_valid _ _ _ _ _ H).
  - destruct (RD Upward ltac:(discriminate)) as (z & E & H). exists z. split; [exact E|].
    destruct (back_above 24 128 float_good w VW FW t NE z H) as [H1 H2]. rewrite EW in H1, H2. split; [|exact H2].
    intros X. destruct (H1 X) as [FZ RZ]. apply same_float_of_value; auto. exact (directed_valid _ _ _ _ _ H).
  - destruct (RD TowardZero ltac:(discriminate)) as (z & E & H). exists z. split; [exact E|]. pose proof (directed_valid _ _ _ _ _ H) as VZ.
    destruct H as [HB HA].
    assert (N0 : nearest 24 128 0 = 0%R) by (apply nearest_zero; lia).
    destruct (Rlt_bool_spec (float_value u) 0) as [X|X]; rewrite SW.
    + assert (T0 : (t < 0)%R).
      { destruct (Rlt_or_le t 0) as [Q|Q]; [exact Q|exfalso]. apply (nearest_le' 24 128) in Q; [|lia]. rewrite N0, NE, EW in Q. lra. }
      destruct (back_above 24 128 float_good w VW FW t NE z (HA (Rlt_le _ _ T0))) as [H1 H2]. rewrite EW in H1, H2.
      rewrite !Rabs_left by lra. split; intros Q.
      * destruct (H1 ltac:(lra)) as [FZ RZ]. apply same_float_of_value; auto.
      * apply H2. lra.
    + assert (T0 : (0 < t)%R).
      { destruct (Rlt_or_le 0 t) as [Q|Q]; [exact Q|exfalso]. apply (nearest_le' 24 128) in Q; [|lia]. rewrite N0, NE, EW in Q. lra. }
      destruct (back_below 24 128 float_good w VW FW t NE z (HB (Rlt_le _ _ T0))) as [H1 H2]. rewrite EW in H1, H2.
      rewrite !Rabs_pos_eq by lra. split; intros Q.
      * destruct (H1 ltac:(lra)) as [FZ RZ]. apply same_float_of_value; auto.
      * apply H2. lra.
Qed.
