(** Proofs about itoa.cpp *)
From Verif Require Import Machine SpecDecimal LibMachine ModelItoa.
Ltac Zify.zify_post_hook ::= Z.div_mod_to_equations.

Lemma digits_table_sweep :
  forallb (fun x => match digits_at (2 * Z.of_nat x), digits_at (2 * Z.of_nat x + 1) with
    | Ok a, Ok b => (code a =? 48 + Z.of_nat x / 10) && (code b =? 48 + Z.of_nat x mod 10)
    | _, _ => false end) (seq 0 100) = true.
Proof. vm_compute. reflexivity. Qed.

Lemma digits_at_pair x : 0 <= x < 100 ->
  digits_at (shl1 x) = Ok (dchr (x / 10)) /\ digits_at (shl1 x + 1) = Ok (dchr (x mod 10)).
Proof.
  intros H. pose proof digits_table_sweep as S. rewrite forallb_forall in S.
  specialize (S (Z.to_nat x)). rewrite Z2Nat.id in S by lia.
  assert (E : shl1 x = 2 * x) by (unfold shl1, u32; rewrite Z.mod_small; lia).
  rewrite E. lapply S; [|apply in_seq; lia]. clear S.
  destruct (digits_at (2 * x)) as [a| | |]; try discriminate.
  destruct (digits_at (2 * x + 1)) as [b| | |]; try discriminate.
  intros C. apply andb_prop in C as [C1 C2]. apply Z.eqb_eq in C1, C2.
  split; f_equal; apply code_inj; rewrite code_dchr; try assumption; clear - H; lia.
Qed.

Lemma put_hi out y tail x : 0 <= x < 100 ->
  put_digit (at_end out (y :: tail)) (shl1 x) = Ok (at_end (out ++ [dchr (x / 10)]) tail).
Proof. intros H. unfold put_digit. rewrite (proj1 (digits_at_pair x H)). apply put_at_end. Qed.

Lemma put_lo out y tail x : 0 <= x < 100 ->
  put_digit (at_end out (y :: tail)) (shl1 x + 1) = Ok (at_end (out ++ [dchr (x mod 10)]) tail).
Proof. intros H. unfold put_digit. rewrite (proj2 (digits_at_pair x H)). apply put_at_end. Qed.

Lemma put_d out y tail d :
  put (at_end out (y :: tail)) (chr (48 + d)) = Ok (at_end (out ++ [dchr d]) tail).
Proof. apply put_at_end. Qed.

(** The writer [w] appends the canonical numeral of [v], using at most [n] cells. *)
Definition writes (n : nat) (w : cursor -> outcome cursor) (ok : bytes -> Prop) : Prop :=
  forall out tail, (n <= length tail)%nat ->
  exists ds tail', w (at_end out tail) = Ok (at_end (out ++ ds) tail') /\ ok ds /\
    length tail = (length ds + length tail')%nat /\ (1 <= length ds <= n)%nat.

Lemma canonical_digits (ds : list Z) (v : Z) :
  ds <> [] -> Forall (fun d => 0 <= d < 10) ds -> nval ds = v ->
  ((1 < length ds)%nat -> nth 0 ds 0 <> 0) ->
  canonical_natural (map dchr ds) v.
Proof.
  intros Hne HF Hv H0. unfold canonical_natural. repeat split.
  - destruct ds; [congruence|discriminate].
  - rewrite Forall_map. eapply Forall_impl; [|exact HF]. intros d Hd. apply is_digit_dchr; exact Hd.
  - rewrite numeral_value_dchr by assumption. exact Hv.
  - intros r Hr. destruct ds as [|d ds]; [congruence|]. cbn [map] in Hr.
    injection Hr as Hd Hr. inversion HF as [|? ? Hd' _]; subst.
    change "0"%char with (dchr 0) in Hd. apply dchr_inj in Hd; [|assumption|lia].
    destruct ds as [|d2 ds]; [reflexivity|].
    exfalso. apply H0; [cbn; lia|exact Hd].
Qed.

Ltac decide_leb v :=
  repeat match goal with
  | |- context [?a <=? v] =>
      first [ rewrite (proj2 (Z.leb_le a v)) by lia | rewrite (proj2 (Z.leb_gt a v)) by lia ]
  | |- context [v <? ?a] =>
      first [ rewrite (proj2 (Z.ltb_lt v a)) by lia | rewrite (proj2 (Z.ltb_ge v a)) by lia ]
  end.

Ltac run_puts :=
  unfold put_digit_if; cbn [bind];
  repeat (first [ rewrite put_lo by lia | rewrite put_hi by lia | rewrite put_d ]; cbn [bind]);
  rewrite <- ?app_assoc; cbn [app].

(** Close a goal [exists ds tail', Ok (at_end (out ++ map dchr-list) t) = ...] given the digits. *)
Ltac close_digits ds :=
  match goal with |- exists _ _, Ok (at_end _ ?t) = _ /\ _ =>
    exists (map dchr ds), t; split; [reflexivity|]; split;
    [ apply canonical_digits; [discriminate | repeat (apply Forall_cons; [lia|]); apply Forall_nil
      | unfold nval; cbn [fold_left]; lia | intros Hlen; cbn [length nth] in *; lia ]
    | split; cbn [length map]; lia ]
  end.

Tactic Notation "cells" int_or_var(n) ident(tail) hyp(H) :=
  do n (destruct tail as [|? tail]; [cbn [length] in H; lia|]).

Lemma u32toa_small v : 0 <= v < 10000 ->
  writes 4 (u32toa v) (fun ds => canonical_natural ds v).
Proof.
  intros Hv out tail Ht. unfold u32toa. cells 4 tail Ht.
  rewrite (proj2 (Z.ltb_lt v 10000)) by lia.
  assert (C : v < 10 \/ 10 <= v < 100 \/ 100 <= v < 1000 \/ 1000 <= v) by lia.
  destruct C as [C|[C|[C|C]]]; decide_leb v; run_puts.
  - close_digits [v mod 100 mod 10].
  - close_digits [v mod 100 / 10; v mod 100 mod 10].
  - close_digits [v / 100 mod 10; v mod 100 / 10; v mod 100 mod 10].
  - close_digits [v / 100 / 10; v / 100 mod 10; v mod 100 / 10; v mod 100 mod 10].
Qed.

Lemma u32toa_mid v : 10000 <= v < 100000000 ->
  writes 8 (u32toa v) (fun ds => canonical_natural ds v).
Proof.
  intros Hv out tail Ht. unfold u32toa. cells 8 tail Ht.
  rewrite (proj2 (Z.ltb_ge v 10000)) by lia.
  rewrite (proj2 (Z.ltb_lt v 100000000)) by lia.
  assert (C : v < 100000 \/ 100000 <= v < 1000000 \/ 1000000 <= v < 10000000 \/ 10000000 <= v) by lia.
  set (b := v / 10000). set (c := v mod 10000).
  assert (Hb : v = 10000 * b + c /\ 0 <= c < 10000 /\ 0 < b < 10000) by lia.
  clearbody b c.
  destruct C as [C|[C|[C|C]]]; decide_leb v; run_puts.
  - close_digits [b mod 100 mod 10; c / 100 / 10; c / 100 mod 10; c mod 100 / 10; c mod 100 mod 10].
  - close_digits [b mod 100 / 10; b mod 100 mod 10; c / 100 / 10; c / 100 mod 10; c mod 100 / 10; c mod 100 mod 10].
  - close_digits [b / 100 mod 10; b mod 100 / 10; b mod 100 mod 10; c / 100 / 10; c / 100 mod 10; c mod 100 / 10; c mod 100 mod 10].
  - close_digits [b / 100 / 10; b / 100 mod 10; b mod 100 / 10; b mod 100 mod 10; c / 100 / 10; c / 100 mod 10; c mod 100 / 10; c mod 100 mod 10].
Qed.

Lemma u32toa_big v : 100000000 <= v < 2 ^ 32 ->
  writes 10 (u32toa v) (fun ds => canonical_natural ds v).
Proof.
  intros Hv out tail Ht. unfold u32toa. cells 10 tail Ht.
  rewrite (proj2 (Z.ltb_ge v 10000)) by lia.
  rewrite (proj2 (Z.ltb_ge v 100000000)) by lia.
  set (a := v / 100000000). set (w := v mod 100000000).
  assert (Ha : v = 100000000 * a + w /\ 0 <= w < 100000000 /\ 1 <= a < 43) by lia.
  clearbody a w.
  set (b := w / 10000). set (c := w mod 10000).
  assert (Hb : w = 10000 * b + c /\ 0 <= c < 10000 /\ 0 <= b < 10000) by lia.
  clearbody b c.
  destruct (Z.leb_spec 10 a) as [C|C]; run_puts.
  - close_digits [a / 10; a mod 10; b / 100 / 10; b / 100 mod 10; b mod 100 / 10; b mod 100 mod 10; c / 100 / 10; c / 100 mod 10; c mod 100 / 10; c mod 100 mod 10].
  - close_digits [a; b / 100 / 10; b / 100 mod 10; b mod 100 / 10; b mod 100 mod 10; c / 100 / 10; c / 100 mod 10; c mod 100 / 10; c mod 100 mod 10].
Qed.

Lemma writes_weaken n m w ok : (n <= m)%nat -> writes n w ok -> writes m w ok.
Proof.
  intros Hnm H out tail Ht. destruct (H out tail ltac:(lia)) as (ds & t & E & Hok & Hl & Hn).
  exists ds, t. repeat split; try assumption; lia.
Qed.

Lemma u32toa_correct v : 0 <= v < 2 ^ 32 ->
  writes 10 (u32toa v) (fun ds => canonical_natural ds v).
Proof.
  intros Hv.
  assert (C : v < 10000 \/ 10000 <= v < 100000000 \/ 100000000 <= v) by lia.
  destruct C as [C|[C|C]].
  - eapply writes_weaken; [|apply u32toa_small]; lia.
  - eapply writes_weaken; [|apply u32toa_mid]; lia.
  - eapply writes_weaken; [|apply u32toa_big]; lia.
Qed.

Lemma i32toa_correct v : - 2 ^ 31 <= v < 2 ^ 31 ->
  writes 11 (i32toa v) (fun ds => canonical_integer ds v).
Proof.
  intros Hv out tail Ht. unfold i32toa.
  destruct (Z.ltb_spec v 0) as [C|C].
  - destruct tail as [|o tail]; [cbn in Ht; lia|].
    rewrite put_at_end. cbn [bind].
    replace (u32 (2 ^ 32 - 1 - u32 v + 1)) with (- v)
      by (unfold u32; lia).
    destruct (u32toa_correct (- v) ltac:(lia) (out ++ ["-"%char]) tail ltac:(cbn in Ht; lia))
      as (ds & t & E & Hok & Hl & Hn).
    exists ("-"%char :: ds), t. rewrite E. rewrite <- app_assoc. split; [reflexivity|].
    split; [right; split; [lia|]; exists ds; split; [reflexivity|exact Hok]|].
    cbn [length]. lia.
  - replace (u32 v) with v by (unfold u32; lia).
    destruct (u32toa_correct v ltac:(lia) out tail ltac:(lia)) as (ds & t & E & Hok & Hl & Hn).
    exists ds, t. rewrite E. split; [reflexivity|]. split; [left; split; [lia|exact Hok]|]. lia.
Qed.

Lemma u64toa_lt8 v k : 0 <= v < 100000000 -> u64toa v k = u32toa v k.
Proof.
  intros Hv. unfold u64toa, u32toa, TEN8.
  rewrite !(proj2 (Z.ltb_lt v 100000000)) by lia.
  replace (u32 v) with v by (unfold u32; lia). reflexivity.
Qed.

Lemma u64toa_mid v : 100000000 <= v < 10000000000000000 ->
  writes 16 (u64toa v) (fun ds => canonical_natural ds v).
Proof.
  intros Hv out tail Ht. unfold u64toa. cells 16 tail Ht.
  change TEN8 with 100000000. change TEN16 with 10000000000000000.
  change TEN9 with 1000000000. change TEN10 with 10000000000. change TEN11 with 100000000000.
  change TEN12 with 1000000000000. change TEN13 with 10000000000000.
  change TEN14 with 100000000000000. change TEN15 with 1000000000000000.
  rewrite (proj2 (Z.ltb_ge v 100000000)) by lia.
  rewrite (proj2 (Z.ltb_lt v 10000000000000000)) by lia.
  replace (u32 (v / 100000000)) with (v / 100000000) by (unfold u32; lia).
  replace (u32 (v mod 100000000)) with (v mod 100000000) by (unfold u32; lia).
  assert (C : v < 1000000000 \/ 1000000000 <= v < 10000000000 \/ 10000000000 <= v < 100000000000 \/
              100000000000 <= v < 1000000000000 \/ 1000000000000 <= v < 10000000000000 \/
              10000000000000 <= v < 100000000000000 \/ 100000000000000 <= v < 1000000000000000 \/
              1000000000000000 <= v) by lia.
  set (v0 := v / 100000000). set (v1 := v mod 100000000).
  assert (H0 : v = 100000000 * v0 + v1 /\ 0 <= v1 < 100000000 /\ 0 < v0 < 100000000) by lia.
  clearbody v0 v1.
  set (b := v0 / 10000). set (c := v0 mod 10000).
  assert (Hb : v0 = 10000 * b + c /\ 0 <= c < 10000 /\ 0 <= b < 10000) by lia.
  clearbody b c.
  set (b1 := v1 / 10000). set (c1 := v1 mod 10000).
  assert (Hb1 : v1 = 10000 * b1 + c1 /\ 0 <= c1 < 10000 /\ 0 <= b1 < 10000) by lia.
  clearbody b1 c1.
  set (x1 := b / 100). set (x2 := b mod 100). set (x3 := c / 100). set (x4 := c mod 100).
  set (x5 := b1 / 100). set (x6 := b1 mod 100). set (x7 := c1 / 100). set (x8 := c1 mod 100).
  assert (X1 : b = 100 * x1 + x2 /\ 0 <= x1 < 100 /\ 0 <= x2 < 100) by lia.
  assert (X2 : c = 100 * x3 + x4 /\ 0 <= x3 < 100 /\ 0 <= x4 < 100) by lia.
  assert (X3 : b1 = 100 * x5 + x6 /\ 0 <= x5 < 100 /\ 0 <= x6 < 100) by lia.
  assert (X4 : c1 = 100 * x7 + x8 /\ 0 <= x7 < 100 /\ 0 <= x8 < 100) by lia.
  clearbody x1 x2 x3 x4 x5 x6 x7 x8.
  destruct C as [C|[C|[C|[C|[C|[C|[C|C]]]]]]]; decide_leb v; run_puts.
  - close_digits [x4 mod 10; x5 / 10; x5 mod 10; x6 / 10; x6 mod 10; x7 / 10; x7 mod 10; x8 / 10; x8 mod 10].
  - close_digits [x4 / 10; x4 mod 10; x5 / 10; x5 mod 10; x6 / 10; x6 mod 10; x7 / 10; x7 mod 10; x8 / 10; x8 mod 10].
  - close_digits [x3 mod 10; x4 / 10; x4 mod 10; x5 / 10; x5 mod 10; x6 / 10; x6 mod 10; x7 / 10; x7 mod 10; x8 / 10; x8 mod 10].
  - close_digits [x3 / 10; x3 mod 10; x4 / 10; x4 mod 10; x5 / 10; x5 mod 10; x6 / 10; x6 mod 10; x7 / 10; x7 mod 10; x8 / 10; x8 mod 10].
  - close_digits [x2 mod 10; x3 / 10; x3 mod 10; x4 / 10; x4 mod 10; x5 / 10; x5 mod 10; x6 / 10; x6 mod 10; x7 / 10; x7 mod 10; x8 / 10; x8 mod 10].
  - close_digits [x2 / 10; x2 mod 10; x3 / 10; x3 mod 10; x4 / 10; x4 mod 10; x5 / 10; x5 mod 10; x6 / 10; x6 mod 10; x7 / 10; x7 mod 10; x8 / 10; x8 mod 10].
  - close_digits [x1 mod 10; x2 / 10; x2 mod 10; x3 / 10; x3 mod 10; x4 / 10; x4 mod 10; x5 / 10; x5 mod 10; x6 / 10; x6 mod 10; x7 / 10; x7 mod 10; x8 / 10; x8 mod 10].
  - close_digits [x1 / 10; x1 mod 10; x2 / 10; x2 mod 10; x3 / 10; x3 mod 10; x4 / 10; x4 mod 10; x5 / 10; x5 mod 10; x6 / 10; x6 mod 10; x7 / 10; x7 mod 10; x8 / 10; x8 mod 10].
Qed.

Lemma u64toa_big v : 10000000000000000 <= v < 2 ^ 64 ->
  writes 20 (u64toa v) (fun ds => canonical_natural ds v).
Proof.
  intros Hv out tail Ht. unfold u64toa. cells 20 tail Ht.
  change TEN8 with 100000000. change TEN16 with 10000000000000000.
  rewrite (proj2 (Z.ltb_ge v 100000000)) by lia.
  rewrite (proj2 (Z.ltb_ge v 10000000000000000)) by lia.
  replace (u32 (v / 10000000000000000)) with (v / 10000000000000000) by (unfold u32; lia).
  set (a := v / 10000000000000000). set (w := v mod 10000000000000000).
  assert (Ha : v = 10000000000000000 * a + w /\ 0 <= w < 10000000000000000 /\ 1 <= a < 1845) by lia.
  clearbody a w.
  replace (u32 (w / 100000000)) with (w / 100000000) by (unfold u32; lia).
  replace (u32 (w mod 100000000)) with (w mod 100000000) by (unfold u32; lia).
  set (v0 := w / 100000000). set (v1 := w mod 100000000).
  assert (H0 : w = 100000000 * v0 + v1 /\ 0 <= v1 < 100000000 /\ 0 <= v0 < 100000000) by lia.
  clearbody v0 v1.
  set (b := v0 / 10000). set (c := v0 mod 10000).
  assert (Hb : v0 = 10000 * b + c /\ 0 <= c < 10000 /\ 0 <= b < 10000) by lia.
  clearbody b c.
  set (b1 := v1 / 10000). set (c1 := v1 mod 10000).
  assert (Hb1 : v1 = 10000 * b1 + c1 /\ 0 <= c1 < 10000 /\ 0 <= b1 < 10000) by lia.
  clearbody b1 c1.
  set (x1 := b / 100). set (x2 := b mod 100). set (x3 := c / 100). set (x4 := c mod 100).
  set (x5 := b1 / 100). set (x6 := b1 mod 100). set (x7 := c1 / 100). set (x8 := c1 mod 100).
  assert (X1 : b = 100 * x1 + x2 /\ 0 <= x1 < 100 /\ 0 <= x2 < 100) by lia.
  assert (X2 : c = 100 * x3 + x4 /\ 0 <= x3 < 100 /\ 0 <= x4 < 100) by lia.
  assert (X3 : b1 = 100 * x5 + x6 /\ 0 <= x5 < 100 /\ 0 <= x6 < 100) by lia.
  assert (X4 : c1 = 100 * x7 + x8 /\ 0 <= x7 < 100 /\ 0 <= x8 < 100) by lia.
  clearbody x1 x2 x3 x4 x5 x6 x7 x8.
  assert (C : a < 10 \/ 10 <= a < 100 \/ 100 <= a < 1000 \/ 1000 <= a) by lia.
  destruct C as [C|[C|[C|C]]]; decide_leb a; run_puts.
  - close_digits [a; x1 / 10; x1 mod 10; x2 / 10; x2 mod 10; x3 / 10; x3 mod 10; x4 / 10; x4 mod 10; x5 / 10; x5 mod 10; x6 / 10; x6 mod 10; x7 / 10; x7 mod 10; x8 / 10; x8 mod 10].
  - close_digits [a / 10; a mod 10; x1 / 10; x1 mod 10; x2 / 10; x2 mod 10; x3 / 10; x3 mod 10; x4 / 10; x4 mod 10; x5 / 10; x5 mod 10; x6 / 10; x6 mod 10; x7 / 10; x7 mod 10; x8 / 10; x8 mod 10].
  - close_digits [a / 100; a mod 100 / 10; a mod 100 mod 10; x1 / 10; x1 mod 10; x2 / 10; x2 mod 10; x3 / 10; x3 mod 10; x4 / 10; x4 mod 10; x5 / 10; x5 mod 10; x6 / 10; x6 mod 10; x7 / 10; x7 mod 10; x8 / 10; x8 mod 10].
  - close_digits [a / 100 / 10; a / 100 mod 10; a mod 100 / 10; a mod 100 mod 10; x1 / 10; x1 mod 10; x2 / 10; x2 mod 10; x3 / 10; x3 mod 10; x4 / 10; x4 mod 10; x5 / 10; x5 mod 10; x6 / 10; x6 mod 10; x7 / 10; x7 mod 10; x8 / 10; x8 mod 10].
Qed.

Lemma u64toa_correct v : 0 <= v < 2 ^ 64 ->
  writes 20 (u64toa v) (fun ds => canonical_natural ds v).
Proof.
  intros Hv.
  assert (C : v < 100000000 \/ 100000000 <= v < 10000000000000000 \/ 10000000000000000 <= v) by lia.
  destruct C as [C|[C|C]].
  - intros out tail Ht. rewrite u64toa_lt8 by lia.
    eapply writes_weaken; [|apply u32toa_correct|]; lia.
  - eapply writes_weaken; [|apply u64toa_mid]; lia.
  - eapply writes_weaken; [|apply u64toa_big]; lia.
Qed.

Lemma i64toa_correct v : - 2 ^ 63 <= v < 2 ^ 63 ->
  writes 21 (i64toa v) (fun ds => canonical_integer ds v).
Proof.
  intros Hv out tail Ht. unfold i64toa.
  destruct (Z.ltb_spec v 0) as [C|C].
  - destruct tail as [|o tail]; [cbn in Ht; lia|].
    rewrite put_at_end. cbn [bind].
    replace (u64 (2 ^ 64 - 1 - u64 v + 1)) with (- v)
      by (unfold u64; lia).
    destruct (u64toa_correct (- v) ltac:(lia) (out ++ ["-"%char]) tail ltac:(cbn in Ht; lia))
      as (ds & t & E & Hok & Hl & Hn).
    exists ("-"%char :: ds), t. rewrite E. rewrite <- app_assoc. split; [reflexivity|].
    split; [right; split; [lia|]; exists ds; split; [reflexivity|exact Hok]|].
    cbn [length]. lia.
  - replace (u64 v) with v by (unfold u64; lia).
    destruct (u64toa_correct v ltac:(lia) out tail ltac:(lia)) as (ds & t & E & Hok & Hl & Hn).
    exists ds, t. rewrite E. split; [reflexivity|]. split; [left; split; [lia|exact Hok]|]. lia.
Qed.
