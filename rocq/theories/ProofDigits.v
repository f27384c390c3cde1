(** Proofs about the digit generator (dtoa.cpp:154-271), over the integers.

    [pure_*] are ghost versions of the loops that return the list of digits instead of
    writing characters; the buffer versions refine them. *)
From Verif Require Import Machine LibMachine ModelIeee ModelDiyfp ModelDtoa ProofDiyfp.
Ltac Zify.zify_post_hook ::= Z.div_mod_to_equations.

Lemma Ok_inj {A} (a b : A) : Ok a = Ok b -> a = b.
Proof. congruence. Qed.

(** ** Ghost versions *)

Fixpoint pure_round (fuel : nat) (d delta rest ten_kappa wp_w : Z) : outcome Z :=
  if grisuRound_continue delta rest ten_kappa wp_w then
    match fuel with
    | O => NoFuel
    | S fuel => pure_round fuel (d - 1) delta (u64 (rest + ten_kappa)) ten_kappa wp_w
    end
  else Ok d.

(** Round the last digit of a list. *)
Definition pure_round_last (ds : list Z) (delta rest ten_kappa wp_w : Z) : outcome (list Z) :=
  match ds with
  | [] => UB "no digit"
  | _ => let* d := pure_round ROUND_FUEL (last ds 0) delta rest ten_kappa wp_w in
         Ok (removelast ds ++ [d])
  end.

Definition pure_push (ds : list Z) (d : Z) : list Z :=
  if negb (d =? 0) || negb (Z.of_nat (length ds) =? 0) then ds ++ [d] else ds.

Inductive pure_first := PDone (ds : list Z) (kappa : Z) | PContinue (ds : list Z).

Fixpoint pure_integral (pol : policy) (kappa : nat) (s p1 p2 delta wp_w : Z) (ds : list Z)
  : outcome pure_first :=
  match kappa with
  | O => Ok (PContinue ds)
  | S kappa' =>
      match switch_divisor (Z.of_nat kappa) with
      | None => UB "LEXI_UNREACHABLE"
      | Some q =>
          let d := p1 / q in
          let p1 := p1 mod q in
          let ds := pure_push ds d in
          let* hi := shl64 p1 s in
          let tmp := u64 (hi + p2) in
          if tmp <=? delta then
            let* p := POWER10_at pol (Z.of_nat kappa') in
            let* ten_kappa := shl64 p s in
            let* ds := pure_round_last ds delta tmp ten_kappa wp_w in
            Ok (PDone ds (Z.of_nat kappa'))
          else pure_integral pol kappa' s p1 p2 delta wp_w ds
      end
  end.

Fixpoint pure_fraction (pol : policy) (char_signed : bool) (fuel : nat)
    (s one p2 delta kappa wp_w : Z) (ds : list Z) : outcome (list Z * Z) :=
  match fuel with
  | O => NoFuel
  | S fuel =>
      let p2 := u64 (p2 * 10) in
      let delta := u64 (delta * 10) in
      let* d := shr64 p2 s in
      let d := char_value char_signed (chr d) in
      let ds := pure_push ds d in
      let p2 := Z.land p2 (u64 (one - 1)) in
      let kappa := kappa - 1 in
      if p2 <? delta then
        let* p := POWER10_at pol (- kappa) in
        let* ds := pure_round_last ds delta p2 one (u64 (wp_w * p)) in
        Ok (ds, kappa)
      else pure_fraction pol char_signed fuel s one p2 delta kappa wp_w ds
  end.

Definition pure_digits (pol : policy) (char_signed : bool) (W Mp : DiyFp) (delta k : Z)
  : outcome (list Z * Z) :=
  let s := - de Mp in
  let* one := shl64 1 s in
  let wp_w := DiyFp_sub Mp W in
  let* hi := shr64 (df Mp) s in
  let p1 := u32 hi in
  let p2 := Z.land (df Mp) (u64 (one - 1)) in
  let kappa := decimalCount p1 in
  let* r := pure_integral pol (Z.to_nat kappa) s p1 p2 delta (df wp_w) [] in
  match r with
  | PDone ds kappa => Ok (ds, k + kappa)
  | PContinue ds =>
      let* (ds, kappa) := pure_fraction pol char_signed FRACTION_FUEL s one p2 delta 0 (df wp_w) ds in
      Ok (ds, k + kappa)
  end.

(** ** The buffer version refines the ghost version *)

Definition dtext (ds : list Z) : bytes := map dchr ds.

Lemma chr_mod a : chr (a mod 256) = chr a.
Proof. unfold chr. rewrite Zmod_mod. reflexivity. Qed.

Lemma code_chr_mod a : code (chr a) = a mod 256.
Proof. rewrite <- chr_mod. apply code_chr. apply Z.mod_pos_bound. lia. Qed.

Lemma chr_decrement d : chr (code (dchr d) - 1) = dchr (d - 1).
Proof.
  unfold dchr. rewrite code_chr_mod. rewrite <- chr_mod, Zminus_mod_idemp_l, chr_mod.
  f_equal. lia.
Qed.

Lemma buf_decrement_app (p : buf) d q i : i = Z.of_nat (length p) ->
  buf_decrement (p ++ Some (dchr d) :: q) i = Ok (p ++ Some (dchr (d - 1)) :: q).
Proof.
  intros ->. unfold buf_decrement. rewrite buf_read_app. cbn [bind].
  rewrite buf_write_app, chr_decrement. reflexivity.
Qed.

Lemma grisuRound_refines fuel (p : buf) d q base len delta rest ten wp :
  base + (len - 1) = Z.of_nat (length p) ->
  grisuRound fuel (p ++ Some (dchr d) :: q) base len delta rest ten wp =
  (let* d' := pure_round fuel d delta rest ten wp in Ok (p ++ Some (dchr d') :: q)).
Proof.
  intros H. revert d rest. induction fuel as [|fuel IH]; intros d rest; cbn [grisuRound pure_round];
    destruct (grisuRound_continue delta rest ten wp); try reflexivity.
  rewrite buf_decrement_app by exact H. cbn [bind]. apply IH.
Qed.

(** The array contains [pre], then the digits, then anything. *)
Definition holds_digits (b : buf) (pre : bytes) (ds : list Z) (n : nat) : Prop :=
  exists t, b = map Some (pre ++ dtext ds) ++ t /\ length b = n.

Lemma grisuRound_last b pre ds n delta rest ten wp :
  ds <> [] -> holds_digits b pre ds n ->
  match pure_round_last ds delta rest ten wp with
  | Ok ds' => exists b',
      grisuRound ROUND_FUEL b (Z.of_nat (length pre)) (Z.of_nat (length ds)) delta rest ten wp = Ok b' /\
      holds_digits b' pre ds' n /\ length ds' = length ds
  | Throw w => False
  | UB w => False
  | NoFuel => grisuRound ROUND_FUEL b (Z.of_nat (length pre)) (Z.of_nat (length ds)) delta rest ten wp = NoFuel
  end.
Proof.
  intros Hne (t & E & Hn).
  destruct (exists_last Hne) as (r & d & Eds). subst ds.
  assert (Er : forall X Y : outcome (list Z), match r ++ [d] with [] => X | _ :: _ => Y end = Y)
    by (intros; destruct r; reflexivity).
  unfold pure_round_last. rewrite Er, last_last, removelast_last.
  assert (Eb : b = map Some (pre ++ dtext r) ++ Some (dchr d) :: t).
  { rewrite E. unfold dtext. rewrite !map_app, <- !app_assoc. reflexivity. }
  assert (Hl : Z.of_nat (length pre) + (Z.of_nat (length (r ++ [d])) - 1)
               = Z.of_nat (length (map (@Some ascii) (pre ++ dtext r)))).
  { unfold dtext. rewrite map_length, !app_length, map_length. cbn [length]. lia. }
  rewrite Eb, grisuRound_refines by exact Hl.
  assert (NoUB : forall fuel d rest, match pure_round fuel d delta rest ten wp with
                                     | Ok _ | NoFuel => True | _ => False end).
  { clear. induction fuel as [|fuel IH]; intros d rest; cbn [pure_round];
      destruct (grisuRound_continue delta rest ten wp); try exact I; apply IH. }
  specialize (NoUB ROUND_FUEL d rest).
  destruct (pure_round ROUND_FUEL d delta rest ten wp) as [d'| | |]; cbn [bind]; try contradiction; auto.
  eexists. split; [reflexivity|]. split.
  - exists t. split.
    + unfold dtext. rewrite !map_app, <- !app_assoc. reflexivity.
    + rewrite <- Hn, Eb, !app_length. reflexivity.
  - rewrite !app_length. reflexivity.
Qed.

Lemma push_digit_refines b pre ds n d :
  holds_digits b pre ds n -> (length pre + length ds < n)%nat ->
  exists b', push_digit b (Z.of_nat (length pre)) (Z.of_nat (length ds)) d
             = Ok (b', Z.of_nat (length (pure_push ds d))) /\
             holds_digits b' pre (pure_push ds d) n.
Proof.
  intros (t & E & Hn) Hlt. unfold push_digit, pure_push.
  destruct (negb (d =? 0) || negb (Z.of_nat (length ds) =? 0)).
  - destruct t as [|x t].
    { exfalso. rewrite E, app_nil_r, map_length, app_length in Hn. unfold dtext in Hn.
      rewrite map_length in Hn. lia. }
    replace (Z.of_nat (length pre) + Z.of_nat (length ds))
      with (Z.of_nat (length (map (@Some ascii) (pre ++ dtext ds)))).
    2:{ unfold dtext. rewrite map_length, app_length, map_length. lia. }
    rewrite E, buf_write_app. cbn [bind]. eexists. split.
    + f_equal. f_equal. rewrite app_length. cbn [length]. lia.
    + exists t. split.
      * unfold dtext, dchr. rewrite !map_app, <- !app_assoc. reflexivity.
      * rewrite <- Hn, E, !app_length. reflexivity.
  - exists b. split; [reflexivity|]. exists t. split; assumption.
Qed.

Lemma pure_push_length ds d : (length (pure_push ds d) <= length ds + 1)%nat.
Proof.
  unfold pure_push. destruct (_ || _); [rewrite app_length; cbn [length]; lia|lia].
Qed.

Lemma generate_integral_refines pol kappa s p1 p2 delta wp_w b pre ds n :
  holds_digits b pre ds n -> (length pre + length ds + kappa <= n)%nat ->
  match pure_integral pol kappa s p1 p2 delta wp_w ds with
  | Ok (PDone ds' kap) =>
      exists b', generate_integral pol kappa s p1 p2 delta wp_w b (Z.of_nat (length pre)) (Z.of_nat (length ds))
                 = Ok (Done b' (Z.of_nat (length ds')) kap) /\ holds_digits b' pre ds' n
  | Ok (PContinue ds') =>
      exists b', generate_integral pol kappa s p1 p2 delta wp_w b (Z.of_nat (length pre)) (Z.of_nat (length ds))
                 = Ok (Continue b' (Z.of_nat (length ds'))) /\ holds_digits b' pre ds' n
  | _ => True
  end.
Proof.
  revert p1 b ds. induction kappa as [|kappa IH]; intros p1 b ds Hb Hl;
    cbn [pure_integral generate_integral].
  - exists b. repeat split; exact Hb.
  - destruct (switch_divisor (Z.of_nat (S kappa))) as [q|]; [|exact I].
    destruct (push_digit_refines b pre ds n (p1 / q) Hb ltac:(lia)) as (b1 & E1 & H1).
    pose proof (pure_push_length ds (p1 / q)) as Hp.
    rewrite E1. cbn [bind].
    destruct (shl64 (p1 mod q) s) as [hi| | |]; cbn [bind]; auto.
    destruct (u64 (hi + p2) <=? delta).
    + destruct (POWER10_at pol (Z.of_nat kappa)) as [p| | |]; cbn [bind]; auto.
      destruct (shl64 p s) as [ten| | |]; cbn [bind]; auto.
      set (ds1 := pure_push ds (p1 / q)) in *.
      destruct ds1 as [|x r] eqn:Ep; [exact I|]. rewrite <- Ep in *.
      pose proof (grisuRound_last b1 pre ds1 n delta (u64 (hi + p2)) ten wp_w ltac:(congruence) H1) as R.
      destruct (pure_round_last ds1 delta (u64 (hi + p2)) ten wp_w) as [ds'| | |]; cbn [bind]; auto.
      destruct R as (b' & R1 & R2 & R3). rewrite R1. cbn [bind]. exists b'. rewrite R3. auto.
    + apply IH; [exact H1|lia].
Qed.

Lemma pure_push_ne ds d : ds <> [] -> pure_push ds d = ds ++ [d].
Proof.
  intros H. unfold pure_push. destruct ds as [|x r]; [congruence|]. cbn [length].
  rewrite orb_true_r. reflexivity.
Qed.

Lemma pure_round_last_length ds delta rest ten wp ds' :
  pure_round_last ds delta rest ten wp = Ok ds' -> length ds' = length ds.
Proof.
  unfold pure_round_last. destruct ds as [|x r]; [discriminate|].
  destruct (pure_round _ _ _ _ _ _) as [z| | |]; cbn [bind]; try discriminate.
  intros E. apply Ok_inj in E. subst ds'.
  transitivity (length (removelast (x :: r) ++ [last (x :: r) 0])).
  - rewrite !app_length. reflexivity.
  - rewrite <- app_removelast_last by discriminate. reflexivity.
Qed.

Lemma pure_fraction_length pol cs fuel s one p2 delta kappa wp_w ds ds' kap :
  ds <> [] -> pure_fraction pol cs fuel s one p2 delta kappa wp_w ds = Ok (ds', kap) ->
  (length ds < length ds')%nat.
Proof.
  revert p2 delta kappa ds. induction fuel as [|fuel IH]; intros p2 delta kappa ds Hne; cbn [pure_fraction];
    [discriminate|].
  destruct (shr64 (u64 (p2 * 10)) s) as [d0| | |]; cbn [bind]; try discriminate.
  rewrite pure_push_ne by exact Hne.
  destruct (_ <? _).
  - destruct (POWER10_at pol _) as [p| | |]; cbn [bind]; try discriminate.
    destruct (pure_round_last _ _ _ _ _) as [r| | |] eqn:E; cbn [bind]; try discriminate.
    intros H. injection H as <- _. apply pure_round_last_length in E.
    rewrite app_length in E. cbn [length] in E. lia.
  - intros E. apply IH in E.
    + rewrite app_length in E. cbn [length] in E. lia.
    + intros X. apply app_eq_nil in X as [_ X]. discriminate X.
Qed.

Lemma generate_fraction_refines pol cs fuel s one p2 delta kappa wp_w b pre ds n ds' kap :
  ds <> [] -> holds_digits b pre ds n ->
  pure_fraction pol cs fuel s one p2 delta kappa wp_w ds = Ok (ds', kap) ->
  (length pre + length ds' <= n)%nat ->
  exists b', generate_fraction pol cs fuel s one p2 delta kappa wp_w b (Z.of_nat (length pre)) (Z.of_nat (length ds))
             = Ok (b', Z.of_nat (length ds'), kap) /\ holds_digits b' pre ds' n.
Proof.
  revert p2 delta kappa b ds. induction fuel as [|fuel IH]; intros p2 delta kappa b ds Hne Hb E Hlen.
  - discriminate E.
  - pose proof (pure_fraction_length _ _ _ _ _ _ _ _ _ _ _ _ Hne E) as Hlt.
    cbn [pure_fraction generate_fraction] in *.
    destruct (shr64 (u64 (p2 * 10)) s) as [d0| | |]; cbn [bind] in *; try discriminate.
    destruct (push_digit_refines b pre ds n (char_value cs (chr d0)) Hb ltac:(lia)) as (b1 & E1 & H1).
    rewrite E1. cbn [bind].
    assert (Hne1 : pure_push ds (char_value cs (chr d0)) <> []).
    { rewrite pure_push_ne by exact Hne. intros X. apply app_eq_nil in X as [_ X]. discriminate X. }
    destruct (_ <? _).
    + destruct (POWER10_at pol _) as [p| | |]; cbn [bind] in *; try discriminate.
      match type of E with context [pure_round_last ?a ?b ?c ?d ?e] =>
        pose proof (grisuRound_last b1 pre a n b c d e Hne1 H1) as R;
        destruct (pure_round_last a b c d e) as [r| | |] end; cbn [bind] in E; try discriminate.
      injection E as <- <-.
      destruct R as (b' & R1 & R2 & R3). rewrite R1. cbn [bind]. exists b'. rewrite R3. auto.
    + eapply IH; eauto.
Qed.

Lemma pure_integral_ne pol kappa s p1 p2 delta wp_w ds ds' :
  pure_integral pol kappa s p1 p2 delta wp_w ds = Ok (PContinue ds') -> ds <> [] -> ds' <> [].
Proof.
  revert p1 ds. induction kappa as [|kappa IH]; intros p1 ds; cbn [pure_integral].
  - congruence.
  - destruct (switch_divisor _) as [q|]; [|discriminate].
    destruct (shl64 _ _) as [hi| | |]; cbn [bind]; try discriminate.
    destruct (_ <=? _).
    + destruct (POWER10_at _ _) as [p| | |]; cbn [bind]; try discriminate.
      destruct (shl64 _ _) as [ten| | |]; cbn [bind]; try discriminate.
      destruct (pure_round_last _ _ _ _ _) as [r| | |]; cbn [bind]; discriminate.
    + intros E Hne. eapply IH; [exact E|]. rewrite pure_push_ne by exact Hne.
      intros X. apply app_eq_nil in X as [_ X]. discriminate X.
Qed.

(** ** Rounding *)

Ltac Zify.zify_post_hook ::= idtac.

(** Of the candidates [rest + i * ten] up to [delta] the loop takes one that is closest to
    [wp], and of two the one with the smaller [i]. *)
Definition round_closest (delta rest ten wp m : Z) : Prop :=
  0 <= wp < 2 ^ 64 -> forall i, 0 <= i -> rest + i * ten <= delta ->
  Z.abs (rest + m * ten - wp) <= Z.abs (rest + i * ten - wp) /\
  (Z.abs (rest + m * ten - wp) = Z.abs (rest + i * ten - wp) -> m <= i).

Lemma pure_round_ok fuel d delta rest ten wp :
  0 <= rest <= delta -> delta < 2 ^ 64 -> 0 < ten -> delta - rest < Z.of_nat fuel * ten ->
  exists m, pure_round fuel d delta rest ten wp = Ok (d - m) /\ 0 <= m /\ rest + m * ten <= delta /\
    round_closest delta rest ten wp m.
Proof.
  revert d rest. induction fuel as [|fuel IH]; intros d rest Hr Hd Ht Hf; [lia|].
  cbn [pure_round]. destruct (grisuRound_continue delta rest ten wp) eqn:C.
  - unfold grisuRound_continue in C. rewrite !andb_true_iff in C. destruct C as [[C1 C] C2].
    rewrite u64_small in C by lia.
    rewrite (u64_small (rest + ten)) in * by lia.
    destruct (IH (d - 1) (rest + ten)) as (m & E & Hm & Hle & Hc); [lia|lia|lia| |].
    { rewrite Nat2Z.inj_succ in Hf. lia. }
    exists (m + 1). rewrite E. split; [f_equal; lia|]. split; [lia|]. split; [lia|].
    intros Hwp i Hi Hid. specialize (Hc Hwp).
    replace (rest + (m + 1) * ten) with (rest + ten + m * ten) by ring.
    destruct (Z.eq_dec i 0) as [->|Hi0].
    + specialize (Hc 0 ltac:(lia) ltac:(lia)). rewrite Z.mul_0_l, Z.add_0_r in *.
      apply Z.ltb_lt in C1. apply orb_true_iff in C2. destruct C2 as [C2|C2]; [lia|].
      apply Z.gtb_lt in C2. destruct (Z.le_gt_cases wp (rest + ten)) as [|]; [|lia].
      rewrite !u64_small in C2 by lia. lia.
    + specialize (Hc (i - 1) ltac:(lia)). replace (rest + i * ten) with (rest + ten + (i - 1) * ten) in * by ring.
      destruct (Hc Hid) as [A B]. split; [exact A|]. intros X. specialize (B X). lia.
  - exists 0. split; [f_equal; lia|]. split; [lia|]. split; [lia|].
    intros Hwp i Hi Hid. rewrite Z.mul_0_l, Z.add_0_r. destruct (Z.eq_dec i 0) as [->|Hi0]; [lia|].
    assert (Hit : ten <= i * ten) by nia.
    unfold grisuRound_continue in C. rewrite !andb_false_iff, orb_false_iff in C.
    rewrite (u64_small (delta - rest)), (u64_small (rest + ten)) in C by lia.
    destruct C as [[C|C]|[C1 C2]]; [lia|lia|].
    apply Z.ltb_ge in C1. destruct (Z.le_gt_cases rest wp) as [|]; [|lia].
    rewrite !u64_small in C2 by lia. lia.
Qed.

(** ** The state of the digit loop

    [M] is the upper end of the interval, scaled by [2^s]; [C] is the number of digits
    before the decimal point. *)

Definition digit (d : Z) : Prop := 0 <= d < 10.

Lemma nval_snoc ds d : nval (ds ++ [d]) = 10 * nval ds + d.
Proof. unfold nval. rewrite fold_left_app. reflexivity. Qed.

Lemma decimalCount_spec n : 0 <= n < 2 ^ 32 ->
  1 <= decimalCount n <= 10 /\ n < 10 ^ decimalCount n /\ (0 < n -> 10 ^ (decimalCount n - 1) <= n).
Proof.
  intros H. unfold decimalCount.
  repeat match goal with |- context [if ?a <? ?b then _ else _] => destruct (Z.ltb_spec a b) end;
    (split; [lia|]); cbn; lia.
Qed.

Lemma switch_divisor_ok kappa : 1 <= kappa <= 10 -> switch_divisor kappa = Some (10 ^ (kappa - 1)).
Proof.
  intros H.
  assert (kappa = 1 \/ kappa = 2 \/ kappa = 3 \/ kappa = 4 \/ kappa = 5 \/ kappa = 6 \/ kappa = 7 \/
          kappa = 8 \/ kappa = 9 \/ kappa = 10) as D by lia.
  repeat (destruct D as [->|D]; [reflexivity|]). subst. reflexivity.
Qed.

Lemma POWER10_at_ok pol i : 0 <= i < 10 -> POWER10_at pol i = Ok (10 ^ i).
Proof.
  intros H.
  assert (i = 0 \/ i = 1 \/ i = 2 \/ i = 3 \/ i = 4 \/ i = 5 \/ i = 6 \/ i = 7 \/
          i = 8 \/ i = 9) as D by lia.
  repeat (destruct D as [->|D]; [reflexivity|]). subst. reflexivity.
Qed.

(** Remainders left after the digits down to position [j]; [j] may be negative. *)
Definition rest_at (M s j : Z) : Z :=
  if 0 <=? j then M mod (10 ^ j * 2 ^ s) else (10 ^ (- j) * M) mod 2 ^ s.

(** What the digit generator guarantees. *)
Record digits_ok (M delta s C : Z) (ds : list Z) (kappa : Z) : Prop := {
  do_digits : Forall digit ds;
  do_head : exists d r, ds = d :: r /\ 1 <= d;
  do_length : Z.of_nat (length ds) = C - kappa;
  do_value : if 0 <=? kappa
             then M - delta <= nval ds * (10 ^ kappa * 2 ^ s) <= M
             else 10 ^ (- kappa) * (M - delta) <= nval ds * 2 ^ s <= 10 ^ (- kappa) * M;
  (** it stopped at the first possible position *)
  do_first : forall j, kappa < j < C ->
             if 0 <=? j then delta < rest_at M s j else 10 ^ (- j) * delta <= rest_at M s j;
  (** a trailing zero can only come from rounding down the last fractional digit *)
  do_last : 1 <= last ds 0 \/ (kappa < -1 /\ last ds 0 = 0)
}.

(** As long as the factor of the weight is inside of the table, the digits are the closest
    of the interval to [M - wp] at their position, and the larger of two. *)
Definition closest (M delta s wp : Z) (ds : list Z) (kappa : Z) : Prop :=
  (kappa < 0 -> rest_at M s kappa < 10 ^ (- kappa) * delta) /\
  (0 <= wp <= delta -> -9 <= kappa -> forall Q,
  if 0 <=? kappa
  then M - delta <= Q * (10 ^ kappa * 2 ^ s) <= M ->
       Z.abs (nval ds * (10 ^ kappa * 2 ^ s) - (M - wp)) <= Z.abs (Q * (10 ^ kappa * 2 ^ s) - (M - wp)) /\
       (Z.abs (nval ds * (10 ^ kappa * 2 ^ s) - (M - wp)) = Z.abs (Q * (10 ^ kappa * 2 ^ s) - (M - wp)) -> Q <= nval ds)
  else 10 ^ (- kappa) * (M - delta) <= Q * 2 ^ s <= 10 ^ (- kappa) * M ->
       Z.abs (nval ds * 2 ^ s - 10 ^ (- kappa) * (M - wp)) <= Z.abs (Q * 2 ^ s - 10 ^ (- kappa) * (M - wp)) /\
       (Z.abs (nval ds * 2 ^ s - 10 ^ (- kappa) * (M - wp)) = Z.abs (Q * 2 ^ s - 10 ^ (- kappa) * (M - wp)) -> Q <= nval ds)).

Lemma head_snoc ds d : (exists x r, ds = x :: r /\ 1 <= x) -> exists x r, ds ++ [d] = x :: r /\ 1 <= x.
Proof. intros (x & r & -> & H). exists x, (r ++ [d]). split; [reflexivity|exact H]. Qed.

Lemma pure_push_ok ds d : (ds = [] -> 1 <= d) -> pure_push ds d = ds ++ [d].
Proof.
  intros H. destruct ds as [|x r].
  - unfold pure_push. specialize (H eq_refl). replace (d =? 0) with false by lia. reflexivity.
  - apply pure_push_ne. discriminate.
Qed.

Lemma pure_round_last_ok ds d delta rest ten wp :
  0 <= rest <= delta -> delta < 2 ^ 64 -> 0 < ten -> delta - rest <= 10 * ten ->
  exists m, pure_round_last (ds ++ [d]) delta rest ten wp = Ok (ds ++ [d - m]) /\ 0 <= m /\ rest + m * ten <= delta /\
    round_closest delta rest ten wp m.
Proof.
  intros H1 H2 H3 H4.
  destruct (pure_round_ok ROUND_FUEL d delta rest ten wp H1 H2 H3) as (m & E & Hm & Hle & Hc).
  { change (Z.of_nat ROUND_FUEL) with 256. lia. }
  exists m. split; [|auto]. unfold pure_round_last. rewrite last_last, removelast_last, E.
  destruct ds; reflexivity.
Qed.

Record int_state (M delta s C : Z) (kappa : nat) (p1 p2 : Z) (ds : list Z) : Prop := {
  is_p1 : 0 <= p1 < 10 ^ Z.of_nat kappa;
  is_M : M = nval ds * (10 ^ Z.of_nat kappa * 2 ^ s) + p1 * 2 ^ s + p2;
  is_digits : Forall digit ds;
  is_nil : ds = [] -> (0 < kappa)%nat /\ 10 ^ (Z.of_nat kappa - 1) <= p1;
  is_cons : ds <> [] -> (exists x r, ds = x :: r /\ 1 <= x) /\ delta < p1 * 2 ^ s + p2;
  is_length : Z.of_nat (length ds) = C - Z.of_nat kappa;
  is_first : forall j, Z.of_nat kappa <= j < C -> delta < M mod (10 ^ j * 2 ^ s)
}.

Lemma nval_nonneg ds : Forall digit ds -> 0 <= nval ds.
Proof.
  induction ds as [|d r IH] using rev_ind; intros H; [unfold nval; cbn; lia|].
  apply Forall_app in H as [H1 H2]. rewrite nval_snoc. inversion_clear H2. unfold digit in *.
  specialize (IH H1). lia.
Qed.

Lemma pure_integral_ok pol M delta s C p2 wp_w kappa p1 ds :
  32 <= s <= 60 -> 0 <= p2 < 2 ^ s -> 0 <= delta < M -> M < 2 ^ 64 -> C <= 10 ->
  10 ^ (C - 1) * 2 ^ s <= M ->
  int_state M delta s C kappa p1 p2 ds ->
  exists r, pure_integral pol kappa s p1 p2 delta wp_w ds = Ok r /\
    match r with
    | PDone ds' kap => (0 <= kap < C /\ digits_ok M delta s C ds' kap) /\ closest M delta s wp_w ds' kap
    | PContinue ds' => exists p1', int_state M delta s C O p1' p2 ds'
    end.
Proof.
  intros Hs Hp2 Hd HM HC HC1. revert p1 ds.
  induction kappa as [|kappa IH]; intros p1 ds I.
  - exists (PContinue ds). split; [reflexivity|]. exists p1. exact I.
  - destruct I as [Ip1 IM Id In Ic Il If].
    pose proof (nval_nonneg ds Id) as Hnv.
    rewrite !Nat2Z.inj_succ in *. set (K := Z.of_nat kappa) in *. unfold Z.succ in *.
    assert (HK : 0 <= K < C) by lia.
    cbn [pure_integral]. rewrite Nat2Z.inj_succ. fold K.
    rewrite switch_divisor_ok by lia. replace (Z.succ K - 1) with K by lia.
    replace (K + 1 - 1) with K in In by lia.
    assert (Hq : 0 < 10 ^ K) by (apply Z.pow_pos_nonneg; lia).
    assert (H2s : 0 < 2 ^ s) by (apply Z.pow_pos_nonneg; lia).
    rewrite Z.pow_add_r in Ip1, IM by lia. change (10 ^ 1) with 10 in *.
    set (q := 10 ^ K) in *. set (t := 2 ^ s) in *.
    set (d := p1 / q). set (p1' := p1 mod q).
    assert (Ep : p1 = q * d + p1') by (unfold d, p1'; apply Z.div_mod; lia).
    assert (Hp1' : 0 <= p1' < q) by (apply Z.mod_pos_bound; lia).
    assert (Hdd : 0 <= d < 10) by (unfold d; split; [apply Z.div_pos; lia|apply Z.div_lt_upper_bound; lia]).
    clearbody d p1'.
    assert (Hd1 : ds = [] -> 1 <= d).
    { intros E. destruct (In E) as [_ X]. nia. }
    rewrite pure_push_ok by exact Hd1.
    assert (Hqt : q * t <= M).
    { eapply Z.le_trans; [|exact HC1]. apply Z.mul_le_mono_nonneg_r; [lia|].
      apply Z.pow_le_mono_r; lia. }
    assert (Hpt : 0 <= p1' * t <= (q - 1) * t).
    { split; [apply Z.mul_nonneg_nonneg; lia|apply Z.mul_le_mono_nonneg_r; lia]. }
    rewrite Z.mul_sub_distr_r in Hpt.
    assert (Hb : 0 <= p1' * t + p2 < q * t) by lia.
    assert (Hqp : 0 < q * t) by (apply Z.mul_pos_pos; lia).
    assert (Hpp : p1 * t + p2 = d * (q * t) + (p1' * t + p2)) by (rewrite Ep; ring).
    assert (Htmp : M mod (q * t) = p1' * t + p2).
    { symmetry. apply (Z.mod_unique_pos M (q * t) (nval ds * 10 + d)); [exact Hb|].
      rewrite IM, Ep. ring. }
    rewrite shl64_ok by (fold t; lia). fold t. cbn [bind].
    rewrite u64_small by lia.
    destruct (Z.leb_spec (p1' * t + p2) delta) as [Hle|Hgt].
    + rewrite POWER10_at_ok by lia. fold q. cbn [bind].
      rewrite shl64_ok by (fold t; lia). fold t. cbn [bind].
      assert (Hdlt : delta < d * (q * t) + (p1' * t + p2)).
      { destruct ds as [|x r].
        - change (nval []) with 0 in IM. lia.
        - destruct (Ic ltac:(discriminate)) as [_ X]. lia. }
      destruct (pure_round_last_ok ds d delta (p1' * t + p2) (q * t) wp_w) as (m & E & Hm & Hmle & Hclose);
        [lia|lia|exact Hqp| |].
      { assert (d * (q * t) <= 9 * (q * t)) by (apply Z.mul_le_mono_nonneg_r; lia). lia. }
      rewrite E. cbn [bind]. eexists. split; [reflexivity|]. cbn beta iota.
      split; [|split; [lia|]; intros Hwp _ Q; replace (0 <=? K) with true by lia; fold q; fold t; intros HQ; rewrite nval_snoc;
        replace ((10 * nval ds + (d - m)) * (q * t) - (M - wp_w)) with (- (p1' * t + p2 + m * (q * t) - wp_w))
          by (rewrite IM, Ep; ring);
        set (i := 10 * nval ds + d - Q) in *;
        assert (EQ : Q * (q * t) = M - (p1' * t + p2) - i * (q * t)) by (unfold i; rewrite IM, Ep; ring);
        rewrite EQ in *; replace (M - (p1' * t + p2) - i * (q * t) - (M - wp_w)) with (- (p1' * t + p2 + i * (q * t) - wp_w)) by ring;
        rewrite !Z.abs_opp; assert (HI : 0 <= i); [|destruct (Hclose ltac:(lia) i HI ltac:(lia)) as [A B]; split; [exact A|intros X; specialize (B X); unfold i in B; lia]];
        destruct (Z.le_gt_cases 0 i) as [|Hi]; [assumption|exfalso];
        assert (i * (q * t) <= (-1) * (q * t)) by (apply Z.mul_le_mono_nonneg_r; lia); lia].
      split; [lia|].
      assert (m < d).
      { apply (Zmult_lt_reg_r m d (q * t)); lia. }
      split.
      * apply Forall_app. split; [exact Id|]. constructor; [unfold digit; lia|constructor].
      * destruct ds as [|x r].
        -- exists (d - m), []. split; [reflexivity|lia].
        -- apply head_snoc. apply Ic. discriminate.
      * rewrite app_length, Nat2Z.inj_add. cbn [length]. lia.
      * replace (0 <=? K) with true by lia. fold q. fold t. rewrite nval_snoc.
        replace ((10 * nval ds + (d - m)) * (q * t)) with (M - (p1' * t + p2) - m * (q * t))
          by (rewrite IM, Ep; ring).
        assert (0 <= m * (q * t)) by (apply Z.mul_nonneg_nonneg; lia). lia.
      * intros j Hj. replace (0 <=? j) with true by lia. unfold rest_at.
        replace (0 <=? j) with true by lia. apply If. lia.
      * left. rewrite last_last. lia.
    + apply IH. split; fold K; try fold q; try fold t.
      * exact Hp1'.
      * rewrite nval_snoc, IM, Ep. ring.
      * apply Forall_app. split; [exact Id|]. constructor; [unfold digit; lia|constructor].
      * intros X. apply app_eq_nil in X as [_ X]. discriminate X.
      * intros _. split; [|lia]. destruct ds as [|x r].
        -- exists d, []. split; [reflexivity|auto].
        -- apply head_snoc. apply Ic. discriminate.
      * rewrite app_length, Nat2Z.inj_add. cbn [length]. lia.
      * intros j Hj. destruct (Z.eq_dec j K) as [->|Hne].
        -- fold q t. rewrite Htmp. lia.
        -- apply If. lia.
Qed.

Record frac_state (M delta s C j p2 : Z) (ds : list Z) : Prop := {
  fs_p2 : p2 = (10 ^ j * M) mod 2 ^ s;
  fs_val : nval ds = (10 ^ j * M) / 2 ^ s;
  fs_digits : Forall digit ds;
  fs_head : exists x r, ds = x :: r /\ 1 <= x;
  fs_delta : 10 ^ j * delta <= p2;
  fs_delta0 : j = 0 -> delta < p2;
  fs_length : Z.of_nat (length ds) = C + j;
  fs_first : forall i, - j <= i < C ->
             if 0 <=? i then delta < rest_at M s i else 10 ^ (- i) * delta <= rest_at M s i
}.

Lemma digit_char cs d : digit d -> char_value cs (chr d) = d.
Proof.
  unfold digit. intros H. unfold char_value. rewrite code_chr by lia.
  destruct cs; [|reflexivity]. unfold swrap. change (2 ^ 8) with 256. change (2 ^ (8 - 1)) with 128.
  rewrite Z.mod_small by lia. replace (d <? 128) with true by lia. reflexivity.
Qed.

Lemma land_ones_u64 x s : 0 <= s <= 63 -> Z.land x (u64 (2 ^ s - 1)) = x mod 2 ^ s.
Proof.
  intros H. assert (0 < 2 ^ s) by (apply Z.pow_pos_nonneg; lia).
  assert (2 ^ s <= 2 ^ 63) by (apply Z.pow_le_mono_r; lia).
  rewrite u64_small by lia. rewrite <- Z.land_ones by lia. f_equal. rewrite Z.ones_equiv. lia.
Qed.

Lemma pure_fraction_ok o cs fuel M delta s C p2 wp_w j ds :
  32 <= s <= 60 -> 0 <= delta -> 0 <= M -> 0 <= j -> 2 ^ s <= 10 ^ (j + Z.of_nat fuel) * delta ->
  frac_state M delta s C j p2 ds ->
  exists ds' kap, pure_fraction (Lenient o) cs fuel s (2 ^ s) p2 (10 ^ j * delta) (- j) wp_w ds = Ok (ds', kap) /\
    (kap < 0 /\ digits_ok M delta s C ds' kap) /\ closest M delta s wp_w ds' kap.
Proof.
  intros Hs Hd HM. revert p2 j ds. induction fuel as [|fuel IH]; intros p2 j ds Hj Hf F.
  - exfalso. destruct F as [Fp _ _ _ Fd _ _ _].
    assert (0 < 2 ^ s) by (apply Z.pow_pos_nonneg; lia).
    pose proof (Z.mod_pos_bound (10 ^ j * M) (2 ^ s) ltac:(lia)).
    replace (j + Z.of_nat 0) with j in Hf by lia. lia.
  - destruct F as [Fp Fv Fdig Fh Fd Fd0 Fl Ff].
    assert (H2s : 0 < 2 ^ s) by (apply Z.pow_pos_nonneg; lia).
    assert (H60 : 2 ^ s <= 2 ^ 60) by (apply Z.pow_le_mono_r; lia).
    pose proof (Z.mod_pos_bound (10 ^ j * M) (2 ^ s) ltac:(lia)) as Hp2. rewrite <- Fp in Hp2.
    assert (H10 : 0 < 10 ^ j) by (apply Z.pow_pos_nonneg; lia).
    assert (E10 : 10 ^ (j + 1) = 10 ^ j * 10) by (rewrite Z.pow_add_r by lia; reflexivity).
    cbn [pure_fraction].
    assert (Hdj : 0 <= 10 ^ j * delta) by nia.
    rewrite (u64_small (p2 * 10)) by lia. rewrite (u64_small (10 ^ j * delta * 10)) by lia.
    rewrite shr64_ok by lia. cbn [bind].
    rewrite land_ones_u64 by lia.
    set (t := 2 ^ s) in *.
    pose proof (Z.div_mod (10 ^ j * M) t ltac:(lia)) as EM. rewrite <- Fv, <- Fp in EM.
    set (d := p2 * 10 / t). set (p2' := (p2 * 10) mod t).
    assert (Ep : p2 * 10 = t * d + p2') by (unfold d, p2'; apply Z.div_mod; lia).
    assert (Hp2' : 0 <= p2' < t) by (apply Z.mod_pos_bound; lia).
    assert (Hdd : digit d).
    { unfold digit, d; split; [apply Z.div_pos; lia|apply Z.div_lt_upper_bound; lia]. }
    clearbody d p2'.
    rewrite digit_char by exact Hdd.
    assert (Hne : ds <> []) by (destruct Fh as (x & r & -> & _); discriminate).
    rewrite pure_push_ne by exact Hne.
    assert (EM' : 10 ^ (j + 1) * M = t * (10 * nval ds + d) + p2') by (rewrite E10; nia).
    assert (Eq' : (10 ^ (j + 1) * M) / t = 10 * nval ds + d).
    { symmetry. apply (Z.div_unique_pos _ t _ p2'); [lia|exact EM']. }
    assert (Er' : (10 ^ (j + 1) * M) mod t = p2').
    { symmetry. apply (Z.mod_unique_pos _ t (10 * nval ds + d)); [lia|exact EM']. }
    replace (- (- j - 1)) with (j + 1) by lia.
    replace (10 ^ j * delta * 10) with (10 ^ (j + 1) * delta) by (rewrite E10; ring).
    destruct (Z.ltb_spec p2' (10 ^ (j + 1) * delta)) as [Hlt|Hge].
    + assert (Epol : exists p, POWER10_at (Lenient o) (j + 1) = Ok p).
      { unfold POWER10_at. destruct (in_range _ _); eexists; reflexivity. }
      destruct Epol as (p & Epol). rewrite Epol. cbn [bind].
      assert (Hle : 10 ^ (j + 1) * delta <= d * t + p2') by (rewrite E10; nia).
      unfold digit in Hdd.
      destruct (pure_round_last_ok ds d (10 ^ (j + 1) * delta) p2' t (u64 (wp_w * p))) as (m & E & Hm & Hmle & Hclose);
        [lia|rewrite E10; lia|lia|lia|].
      rewrite E. cbn [bind]. do 2 eexists. split; [reflexivity|].
      split; [|split; [intros _; unfold rest_at; replace (0 <=? - j - 1) with false by lia; replace (- (- j - 1)) with (j + 1) by lia; fold t; lia|]; intros Hwp Hk Q; replace (0 <=? - j - 1) with false by lia; replace (- (- j - 1)) with (j + 1) by lia;
        fold t; intros HQ; rewrite nval_snoc;
        rewrite POWER10_at_ok in Epol by lia; apply Ok_inj in Epol; subst p;
        assert (Hw : 0 <= wp_w * 10 ^ (j + 1) <= delta * 10 ^ (j + 1)) by (rewrite E10; nia);
        rewrite (u64_small (wp_w * 10 ^ (j + 1))) in Hclose by (rewrite E10 in *; lia);
        replace ((10 * nval ds + (d - m)) * t - 10 ^ (j + 1) * (M - wp_w)) with (- (p2' + m * t - wp_w * 10 ^ (j + 1)))
          by (rewrite Z.mul_sub_distr_l, EM'; ring);
        set (i := 10 * nval ds + d - Q) in *;
        assert (EQ : Q * t = 10 ^ (j + 1) * M - p2' - i * t) by (unfold i; rewrite EM'; ring);
        rewrite EQ in *; replace (10 ^ (j + 1) * M - p2' - i * t - 10 ^ (j + 1) * (M - wp_w)) with (- (p2' + i * t - wp_w * 10 ^ (j + 1))) by ring;
        rewrite !Z.abs_opp; assert (HI : 0 <= i); [|destruct (Hclose ltac:(rewrite E10 in *; lia) i HI ltac:(lia)) as [A B]; split; [exact A|intros X; specialize (B X); unfold i in B; lia]];
        destruct (Z.le_gt_cases 0 i) as [|Hi]; [assumption|exfalso];
        assert (i * t <= (-1) * t) by (apply Z.mul_le_mono_nonneg_r; lia); lia].
      split; [lia|].
      assert (Hmd : m <= d) by nia.
      split.
      * apply Forall_app. split; [exact Fdig|]. constructor; [unfold digit; lia|constructor].
      * apply head_snoc, Fh.
      * rewrite app_length, Nat2Z.inj_add. cbn [length]. lia.
      * replace (0 <=? - j - 1) with false by lia. replace (- (- j - 1)) with (j + 1) by lia.
        fold t. rewrite nval_snoc. rewrite Z.mul_sub_distr_l, EM'. split; nia.
      * intros i Hi. apply Ff. lia.
      * rewrite last_last. destruct (Z.eq_dec m d) as [->|Hne2]; [|left; lia].
        right. split; [|lia]. destruct (Z.eq_dec j 0) as [->|]; [|lia].
        exfalso. specialize (Fd0 eq_refl). rewrite E10 in Hmle. change (10 ^ 0) with 1 in *. nia.
    + replace (- j - 1) with (- (j + 1)) by lia. apply IH.
      * lia.
      * rewrite Nat2Z.inj_succ in Hf. replace (j + 1 + Z.of_nat fuel) with (j + Z.succ (Z.of_nat fuel)) by lia. exact Hf.
      * split.
        -- symmetry. exact Er'.
        -- rewrite nval_snoc. symmetry. exact Eq'.
        -- apply Forall_app. split; [exact Fdig|]. constructor; [exact Hdd|constructor].
        -- apply head_snoc, Fh.
        -- exact Hge.
        -- lia.
        -- rewrite app_length, Nat2Z.inj_add. cbn [length]. lia.
        -- intros i Hi. destruct (Z.eq_dec i (- (j + 1))) as [->|Hne2].
           ++ replace (0 <=? - (j + 1)) with false by lia. unfold rest_at.
              replace (0 <=? - (j + 1)) with false by lia.
              replace (- - (j + 1)) with (j + 1) by lia. fold t. rewrite Er'. exact Hge.
           ++ apply Ff. lia.
Qed.

Lemma pure_integral_start o M delta s p2 wp ds :
  32 <= s <= 60 -> 0 < delta < M -> M < 2 ^ 64 -> 2 ^ s <= M -> p2 = M mod 2 ^ s ->
  pure_integral (Lenient o) (Z.to_nat (decimalCount (M / 2 ^ s))) s (M / 2 ^ s) p2 delta wp [] = Ok (PContinue ds) ->
  ds <> [].
Proof.
  intros Hs Hd HM Hp Ep2 E.
  assert (H2s : 0 < 2 ^ s) by (apply Z.pow_pos_nonneg; lia).
  assert (H32 : 2 ^ 32 <= 2 ^ s) by (apply Z.pow_le_mono_r; lia).
  assert (Hp1 : 1 <= M / 2 ^ s < 2 ^ 32).
  { split; [apply Z.div_le_lower_bound; lia|apply Z.div_lt_upper_bound; lia]. }
  pose proof (Z.div_mod M (2 ^ s) ltac:(lia)) as EM.
  pose proof (Z.mod_pos_bound M (2 ^ s) ltac:(lia)) as Hp2. rewrite <- Ep2 in *.
  destruct (decimalCount_spec (M / 2 ^ s) ltac:(lia)) as (HC & HC1 & HC2). specialize (HC2 ltac:(lia)).
  set (p1 := M / 2 ^ s) in *. set (C := decimalCount p1) in *.
  destruct (pure_integral_ok (Lenient o) M delta s C p2 wp (Z.to_nat C) p1 []) as (r & E1 & R); try lia.
  - nia.
  - split; rewrite ?Z2Nat.id by lia.
    + lia.
    + change (nval []) with 0. lia.
    + constructor.
    + intros _. split; [lia|exact HC2].
    + congruence.
    + cbn [length]. lia.
    + lia.
  - rewrite E in E1. apply Ok_inj in E1. subst r. destruct R as (p1' & [_ _ _ In _ _ _]).
    intros X. destruct (In X). lia.
Qed.

Definition int_count (M s : Z) : Z := decimalCount (M / 2 ^ s).

Theorem pure_digits_ok o cs W Mp delta k :
  32 <= - de Mp <= 60 -> 0 < delta < df Mp -> df Mp < 2 ^ 64 -> 2 ^ (- de Mp) <= df Mp ->
  exists ds kap, pure_digits (Lenient o) cs W Mp delta k = Ok (ds, k + kap) /\
    digits_ok (df Mp) delta (- de Mp) (int_count (df Mp) (- de Mp)) ds kap /\
    closest (df Mp) delta (- de Mp) (df (DiyFp_sub Mp W)) ds kap.
Proof.
  intros Hs Hd HM Hp. unfold pure_digits, int_count.
  set (s := - de Mp) in *. set (M := df Mp) in *.
  assert (H2s : 0 < 2 ^ s) by (apply Z.pow_pos_nonneg; lia).
  assert (H60 : 2 ^ s <= 2 ^ 60) by (apply Z.pow_le_mono_r; lia).
  assert (H32 : 2 ^ 32 <= 2 ^ s) by (apply Z.pow_le_mono_r; lia).
  rewrite shl64_ok by lia. cbn [bind]. rewrite Z.mul_1_l.
  rewrite shr64_ok by lia. cbn [bind]. rewrite land_ones_u64 by lia.
  assert (Hp1 : 1 <= M / 2 ^ s < 2 ^ 32).
  { split; [apply Z.div_le_lower_bound; lia|apply Z.div_lt_upper_bound; lia]. }
  unfold u32. rewrite Z.mod_small by lia.
  set (p1 := M / 2 ^ s) in *. set (p2 := M mod 2 ^ s).
  pose proof (Z.div_mod M (2 ^ s) ltac:(lia)) as EM. fold p1 p2 in EM.
  pose proof (Z.mod_pos_bound M (2 ^ s) ltac:(lia)) as Hp2. fold p2 in Hp2.
  destruct (decimalCount_spec p1 ltac:(lia)) as (HC & HC1 & HC2). specialize (HC2 ltac:(lia)).
  set (C := decimalCount p1) in *. set (t := 2 ^ s) in *.
  assert (Hlow : 10 ^ (C - 1) * t <= M) by nia.
  destruct (pure_integral_ok (Lenient o) M delta s C p2 (df (DiyFp_sub Mp W)) (Z.to_nat C) p1 [])
    as (r & E & R); fold t; try lia.
  - split; rewrite ?Z2Nat.id by lia; fold t.
    + lia.
    + change (nval []) with 0. lia.
    + constructor.
    + intros _. split; [lia|exact HC2].
    + congruence.
    + cbn [length]. lia.
    + lia.
  - rewrite E. cbn [bind]. destruct r as [ds kap|ds].
    + exists ds, kap. split; [reflexivity|]. split; apply R.
    + destruct R as (p1' & [Ip1 IM Id In Ic Il If]).
      change (10 ^ Z.of_nat 0) with 1 in *. change (Z.of_nat 0) with 0 in *.
      assert (p1' = 0) by lia. subst p1'. fold t in IM.
      assert (Hne : ds <> []) by (intros ->; destruct (In eq_refl); lia).
      destruct (Ic Hne) as [Hh Hdl].
      destruct (pure_fraction_ok o cs FRACTION_FUEL M delta s C p2 (df (DiyFp_sub Mp W)) 0 ds) as (ds' & kap & E' & [Hk D] & CL).
      * exact Hs.
      * lia.
      * lia.
      * lia.
      * fold t. assert (10 ^ 0 * 2 ^ 60 <= 10 ^ (0 + Z.of_nat FRACTION_FUEL)) by (vm_compute; discriminate). nia.
      * split; fold t.
        -- rewrite Z.mul_1_l. reflexivity.
        -- rewrite Z.mul_1_l. apply (Z.div_unique_pos M t (nval ds) p2); lia.
        -- exact Id.
        -- exact Hh.
        -- lia.
        -- lia.
        -- lia.
        -- intros i Hi. replace (0 <=? i) with true by lia. unfold rest_at.
           replace (0 <=? i) with true by lia. apply If. lia.
      * change (10 ^ 0 * delta) with (1 * delta) in E'. rewrite Z.mul_1_l in E'.
        change (- 0) with 0 in E'. fold t in E'. rewrite E'. cbn [bind]. exists ds', kap. auto.
Qed.

(** The number of digits is at most 17 when the interval is wide enough. *)
Lemma digits_le_17 M delta s C ds kap :
  0 <= s -> 0 < M -> 1 <= C -> 10 ^ (C - 1) * 2 ^ s <= M < 10 ^ C * 2 ^ s -> M <= 10 ^ 16 * delta ->
  digits_ok M delta s C ds kap -> Z.of_nat (length ds) <= 17.
Proof.
  intros Hs HM HC0 HC Hd [D1 D2 D3 D4 D5 D6]. rewrite D3.
  destruct (Z.le_gt_cases (C - kap) 17) as [|Hgt]; [assumption|exfalso].
  assert (H2s : 0 < 2 ^ s) by (apply Z.pow_pos_nonneg; lia).
  specialize (D5 (C - 17) ltac:(lia)). unfold rest_at in D5.
  destruct (Z.leb_spec 0 (C - 17)) as [Hj|Hj].
  - assert (0 < 10 ^ (C - 17)) by (apply Z.pow_pos_nonneg; lia).
    pose proof (Z.mod_pos_bound M (10 ^ (C - 17) * 2 ^ s) ltac:(nia)).
    replace (C - 1) with (16 + (C - 17)) in HC by lia. rewrite Z.pow_add_r in HC by lia. nia.
  - pose proof (Z.mod_pos_bound (10 ^ (- (C - 17)) * M) (2 ^ s) ltac:(lia)).
    assert (0 < 10 ^ (- (C - 17))) by (apply Z.pow_pos_nonneg; lia).
    assert (E : 10 ^ 16 = 10 ^ (- (C - 17)) * 10 ^ (C - 1)) by (rewrite <- Z.pow_add_r by lia; f_equal; lia).
    assert (0 < 10 ^ (C - 1)) by (apply Z.pow_pos_nonneg; lia).
    rewrite E in Hd.
    set (x := 10 ^ (- (C - 17))) in *. set (y := 10 ^ (C - 1)) in *. set (t := 2 ^ s) in *.
    assert (y * t <= y * (x * delta)) by nia. nia.
Qed.

(** The buffer version. *)
Theorem generateDigits_ok o cs W Mp delta k b pre n :
  32 <= - de Mp <= 60 -> 0 < delta < df Mp -> df Mp < 2 ^ 64 -> 2 ^ (- de Mp) <= df Mp ->
  df Mp <= 10 ^ 16 * delta ->
  holds_digits b pre [] n -> (length pre + 17 <= n)%nat ->
  exists b' ds kap,
    generateDigits (Lenient o) cs W Mp delta b (Z.of_nat (length pre)) k
      = Ok (b', Z.of_nat (length ds), k + kap) /\
    holds_digits b' pre ds n /\
    pure_digits (Lenient o) cs W Mp delta k = Ok (ds, k + kap) /\
    digits_ok (df Mp) delta (- de Mp) (int_count (df Mp) (- de Mp)) ds kap /\
    (1 <= length ds <= 17)%nat.
Proof.
  intros Hs Hd HM Hp Hw Hb Hn.
  destruct (pure_digits_ok o cs W Mp delta k Hs Hd HM Hp) as (ds & kap & E & D & _).
  assert (H2s : 0 < 2 ^ (- de Mp)) by (apply Z.pow_pos_nonneg; lia).
  assert (H32 : 2 ^ 32 <= 2 ^ (- de Mp)) by (apply Z.pow_le_mono_r; lia).
  assert (H60 : 2 ^ (- de Mp) <= 2 ^ 60) by (apply Z.pow_le_mono_r; lia).
  assert (Hp1 : 1 <= df Mp / 2 ^ (- de Mp) < 2 ^ 32).
  { split; [apply Z.div_le_lower_bound; lia|apply Z.div_lt_upper_bound; lia]. }
  destruct (decimalCount_spec (df Mp / 2 ^ (- de Mp)) ltac:(lia)) as (HC & HC1 & HC2).
  specialize (HC2 ltac:(lia)).
  assert (HL : Z.of_nat (length ds) <= 17).
  { eapply (digits_le_17 (df Mp) delta (- de Mp)); [lia|lia| | |exact Hw|exact D]; unfold int_count; [lia|].
    pose proof (Z.div_mod (df Mp) (2 ^ (- de Mp)) ltac:(lia)) as EM.
    pose proof (Z.mod_pos_bound (df Mp) (2 ^ (- de Mp)) ltac:(lia)) as HB.
    split; nia. }
  assert (HL1 : (1 <= length ds)%nat).
  { destruct (do_head _ _ _ _ _ _ D) as (x & r & -> & _). cbn [length]. lia. }
  pose proof E as E0.
  unfold generateDigits. unfold pure_digits in E.
  rewrite shl64_ok in * by lia. cbn [bind] in *. rewrite Z.mul_1_l in *.
  rewrite shr64_ok in * by lia. cbn [bind] in *.
  unfold u32 in *. rewrite Z.mod_small in * by lia.
  set (s := - de Mp) in *. set (M := df Mp) in *.
  set (p1 := M / 2 ^ s) in *. set (p2 := Z.land M (u64 (2 ^ s - 1))) in *.
  set (wp := df (DiyFp_sub Mp W)) in *. set (C := decimalCount p1) in *.
  assert (Hl0 : (length pre + length (@nil Z) + Z.to_nat C <= n)%nat) by (cbn [length]; lia).
  pose proof (generate_integral_refines (Lenient o) (Z.to_nat C) s p1 p2 delta wp b pre [] n Hb Hl0) as R.
  change (Z.of_nat (length (@nil Z))) with 0 in R.
  pose proof (pure_integral_start o M delta s p2 wp) as HC0. fold p1 C in HC0.
  destruct (pure_integral (Lenient o) (Z.to_nat C) s p1 p2 delta wp []) as [[ds1 kap1|ds1]| | |];
    cbn [bind] in E; try discriminate E.
  - destruct R as (b' & R1 & R2). exists b', ds, kap. rewrite R1. cbn [bind].
    apply Ok_inj in E. injection E as E1 E2. subst ds1. rewrite E2.
    split; [reflexivity|]. split; [exact R2|]. split; [exact E0|]. split; [exact D|]. lia.
  - destruct R as (b1 & R1 & R2). rewrite R1. cbn [bind].
    assert (Hne : ds1 <> []).
    { eapply HC0; try reflexivity; try lia. unfold p2. apply land_ones_u64. lia. }
    destruct (pure_fraction (Lenient o) cs FRACTION_FUEL s (2 ^ s) p2 delta 0 wp ds1) as [[ds2 kap2]| | |] eqn:E3;
      cbn [bind] in E; try discriminate E.
    apply Ok_inj in E. injection E as E1 E2. subst ds2.
    destruct (generate_fraction_refines _ _ _ _ _ _ _ _ _ b1 pre ds1 n ds kap2 Hne R2 E3 ltac:(lia))
      as (b' & R3 & R4).
    rewrite R3. cbn [bind]. exists b', ds, kap. rewrite E2.
    split; [reflexivity|]. split; [exact R4|]. split; [exact E0|]. split; [exact D|]. lia.
Qed.
