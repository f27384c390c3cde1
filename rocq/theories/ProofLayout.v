(** Proofs about the layout of the digits (dtoa.cpp:297-370). *)
From Verif Require Import Machine LibMachine SpecDecimal ModelIeee ModelDiyfp ModelDtoa ProofDigits.
Ltac Zify.zify_post_hook ::= Z.div_mod_to_equations.

(** ** The text, as a function of the digits *)

Definition zeros (n : Z) : bytes := repeat "0"%char (Z.to_nat n).

Definition exp_digits (k : Z) : list Z :=
  if 100 <=? k then [k / 100; (k mod 100) / 10; k mod 10]
  else if 10 <=? k then [k / 10; k mod 10] else [k].

Definition exp_text (k : Z) : bytes :=
  (if k <? 0 then ["-"%char] else []) ++ map dchr (exp_digits (Z.abs k)).

Definition layout (ds : list Z) (k : Z) : bytes :=
  let len := Z.of_nat (length ds) in
  let kk := len + k in
  if (len <=? kk) && (kk <=? 21) then map dchr ds ++ zeros k ++ str ".0"
  else if (0 <? kk) && (kk <=? 21) then
    map dchr (firstn (Z.to_nat kk) ds) ++ "."%char :: map dchr (skipn (Z.to_nat kk) ds)
  else if (-6 <? kk) && (kk <=? 0) then str "0." ++ zeros (- kk) ++ map dchr ds
  else match ds with
       | [] => []
       | [d] => dchr d :: "e"%char :: exp_text (kk - 1)
       | d :: r => dchr d :: "."%char :: map dchr r ++ "e"%char :: exp_text (kk - 1)
       end.

(** ** Buffer lemmas *)

(** The array holds the text, a NUL, and anything else. *)
Definition finished (b : buf) (text : bytes) (n : nat) : Prop :=
  exists t, b = map Some text ++ Some NUL :: t /\ length b = n.

Lemma skipn_all_app {A} (l1 l2 : list A) n : n = length l1 -> skipn n (l1 ++ l2) = l2.
Proof. intros ->. rewrite skipn_app, skipn_all, Nat.sub_diag. reflexivity. Qed.

Lemma firstn_all_app {A} (l1 l2 : list A) n : n = length l1 -> firstn n (l1 ++ l2) = l1.
Proof. intros ->. rewrite firstn_app, firstn_all, Nat.sub_diag. cbn. apply app_nil_r. Qed.

Lemma memmove_up (A B C : buf) dst src n d :
  src = Z.of_nat (length A) -> dst = src + Z.of_nat d -> n = Z.of_nat (length B) -> (d <= length C)%nat ->
  exists X C', buf_memmove (A ++ B ++ C) dst src n = Ok (A ++ X ++ B ++ C') /\
               length X = d /\ (length C' + d = length C)%nat.
Proof.
  intros -> -> -> Hd. unfold buf_memmove.
  match goal with |- context [if ?c then _ else _] => assert (Hc : c = true) end.
  { rewrite !app_length. lia. }
  rewrite Hc.
  exists (firstn d (B ++ C)), (skipn d C). split.
  - f_equal.
    replace (Z.to_nat (Z.of_nat (length A) + Z.of_nat d)) with (length A + d)%nat by lia.
    rewrite firstn_app_2. rewrite <- app_assoc. f_equal. f_equal.
    rewrite !Nat2Z.id. rewrite skipn_all_app by reflexivity. rewrite firstn_all_app by reflexivity. f_equal.
    replace (Z.to_nat (Z.of_nat (length A) + Z.of_nat d + Z.of_nat (length B)))
      with (length A + (length B + d))%nat by lia.
    rewrite skipn_app, skipn_all2 by lia. cbn [app].
    replace (length A + (length B + d) - length A)%nat with (length B + d)%nat by lia.
    rewrite skipn_app, skipn_all2 by lia. cbn [app]. f_equal. lia.
  - split.
    + rewrite firstn_length, app_length. lia.
    + rewrite skipn_length. lia.
Qed.

Lemma buf_write_at (A : buf) x C i c : i = Z.of_nat (length A) ->
  buf_write (A ++ x :: C) i c = Ok (A ++ Some c :: C).
Proof. intros ->. apply buf_write_app. Qed.

Lemma fill_zeros_list b i n : fill_zeros b i n = buf_write_list b i (repeat "0"%char n).
Proof.
  revert b i. induction n as [|n IH]; intros b i; cbn [fill_zeros repeat buf_write_list]; [reflexivity|].
  destruct (buf_write b i "0"%char); cbn [bind]; auto.
Qed.

Lemma fill_zeros_app (A X C : buf) i n : i = Z.of_nat (length A) -> length X = n ->
  fill_zeros (A ++ X ++ C) i n = Ok (A ++ map Some (repeat "0"%char n) ++ C).
Proof.
  intros -> H. rewrite fill_zeros_list. apply buf_write_list_app. rewrite repeat_length. exact H.
Qed.

Lemma split_buf (t : buf) n : (n <= length t)%nat -> exists X C, t = X ++ C /\ length X = n.
Proof.
  intros H. exists (firstn n t), (skipn n t). split; [symmetry; apply firstn_skipn|].
  rewrite firstn_length. lia.
Qed.

Ltac split_one t x := destruct t as [|x t]; [exfalso; cbn [length] in *; lia|].

(** ** The exponent *)

Lemma dtoa_table_all :
  forallb (fun n => let k := Z.of_nat n in
     match dtoa_digits_at (k * 2), dtoa_digits_at (k * 2 + 1) with
     | Ok a, Ok b => (code a =? 48 + k / 10) && (code b =? 48 + k mod 10)
     | _, _ => false end) (seq 0 100) = true.
Proof. vm_compute. reflexivity. Qed.

Lemma dtoa_table k : 0 <= k < 100 ->
  dtoa_digits_at (k * 2) = Ok (dchr (k / 10)) /\ dtoa_digits_at (k * 2 + 1) = Ok (dchr (k mod 10)).
Proof.
  intros H. pose proof dtoa_table_all as A. rewrite forallb_forall in A.
  specialize (A (Z.to_nat k) ltac:(apply in_seq; lia)). cbv beta zeta in A.
  rewrite Z2Nat.id in A by lia.
  destruct (dtoa_digits_at (k * 2)) as [a| | |]; try discriminate.
  destruct (dtoa_digits_at (k * 2 + 1)) as [b| | |]; try discriminate.
  apply andb_true_iff in A as [A1 A2].
  split; f_equal; apply code_inj; rewrite code_dchr by lia; lia.
Qed.

Lemma put_pair_at_end out tail k : 0 <= k < 100 -> (2 <= length tail)%nat ->
  exists t, put_pair (at_end out tail) k = Ok (at_end (out ++ [dchr (k / 10); dchr (k mod 10)]) t) /\
            (length t + 2 = length tail)%nat.
Proof.
  intros H Ht. destruct (dtoa_table k H) as [E1 E2]. unfold put_pair. rewrite E1, E2. cbn [bind].
  split_one tail x. split_one tail y. rewrite put_at_end. cbn [bind]. rewrite put_at_end.
  exists tail. rewrite <- app_assoc. split; [reflexivity|cbn [length]; lia].
Qed.

Lemma put_at_end' out tail c : (1 <= length tail)%nat ->
  exists t, put (at_end out tail) c = Ok (at_end (out ++ [c]) t) /\ (length t + 1 = length tail)%nat.
Proof.
  intros H. split_one tail x. exists tail. rewrite put_at_end. split; [reflexivity|cbn [length]; lia].
Qed.

Lemma exp_text_length k : -1000 < k < 1000 -> (1 <= length (exp_text k) <= 4)%nat.
Proof.
  intros H. unfold exp_text, exp_digits. rewrite app_length, map_length.
  destruct (k <? 0); destruct (100 <=? Z.abs k); destruct (10 <=? Z.abs k); cbn [length]; lia.
Qed.

Lemma writeExponent_ok k out tail : -1000 < k < 1000 -> (length (exp_text k) < length tail)%nat ->
  exists b, writeExponent k (at_end out tail) = Ok (Cursor b (Z.of_nat (length (out ++ exp_text k)))) /\
            finished b (out ++ exp_text k) (length out + length tail).
Proof.
  intros Hk Ht.
  assert (G : forall k0 out0 tail0, 0 <= k0 < 1000 -> (length (exp_digits k0) < length tail0)%nat ->
    exists b, (let* c := (if k0 >=? 100 then
                 let* c := put (at_end out0 tail0) (chr (48 + k0 / 100)) in put_pair c (k0 mod 100)
               else if k0 >=? 10 then put_pair (at_end out0 tail0) k0
               else put (at_end out0 tail0) (chr (48 + k0))) in
               let* b := buf_write (cbuf c) (cpos c) NUL in Ok (Cursor b (cpos c)))
              = Ok (Cursor b (Z.of_nat (length (out0 ++ map dchr (exp_digits k0))))) /\
              finished b (out0 ++ map dchr (exp_digits k0)) (length out0 + length tail0)).
  { clear. intros k out tail Hk Ht.
    assert (S : exists t, (if k >=? 100 then
                 let* c := put (at_end out tail) (chr (48 + k / 100)) in put_pair c (k mod 100)
               else if k >=? 10 then put_pair (at_end out tail) k
               else put (at_end out tail) (chr (48 + k))) = Ok (at_end (out ++ map dchr (exp_digits k)) t) /\
               (length t + length (exp_digits k) = length tail)%nat).
    { unfold exp_digits in *. rewrite !Z.geb_leb. destruct (100 <=? k) eqn:E1; cbn [length] in *.
      - destruct (put_at_end' out tail (chr (48 + k / 100)) ltac:(lia)) as (t1 & P1 & L1). rewrite P1. cbn [bind].
        destruct (put_pair_at_end (out ++ [chr (48 + k / 100)]) t1 (k mod 100) ltac:(lia) ltac:(lia)) as (t2 & P2 & L2).
        rewrite P2. exists t2. split; [|lia]. rewrite <- app_assoc. cbn [map app].
        replace (k mod 100 mod 10) with (k mod 10) by lia. reflexivity.
      - destruct (10 <=? k) eqn:E2; cbn [length] in *.
        + destruct (put_pair_at_end out tail k ltac:(lia) ltac:(lia)) as (t2 & P2 & L2).
          rewrite P2. exists t2. split; [reflexivity|lia].
        + destruct (put_at_end' out tail (chr (48 + k)) ltac:(lia)) as (t1 & P1 & L1). rewrite P1.
          exists t1. split; [reflexivity|lia]. }
    destruct S as (t & S & L). rewrite S. cbn [bind]. unfold at_end. cbn [cbuf cpos].
    split_one t x. rewrite buf_write_at by (rewrite map_length; reflexivity). cbn [bind].
    eexists. split; [reflexivity|]. exists t. split; [reflexivity|].
    rewrite !app_length, map_length, app_length, map_length. cbn [length] in *. lia. }
  unfold writeExponent, exp_text in *. destruct (Z.ltb_spec k 0) as [Hneg|Hpos].
  - cbn [app length] in Ht. destruct (put_at_end' out tail "-"%char ltac:(lia)) as (t1 & P1 & L1).
    rewrite P1. cbn [bind]. rewrite map_length in Ht.
    destruct (G (- k) (out ++ ["-"%char]) t1 ltac:(lia)) as (b & E & F).
    { replace (- k) with (Z.abs k) by lia. lia. }
    exists b. rewrite E. replace (- k) with (Z.abs k) in * by lia.
    rewrite <- app_assoc in *. cbn [app] in *. split; [reflexivity|].
    rewrite app_length in F. cbn [length] in F. replace (length out + length tail)%nat with (length out + 1 + length t1)%nat by lia.
    exact F.
  - cbn [bind app] in *. rewrite map_length in Ht. replace (Z.abs k) with k in * by lia.
    apply G; [lia|exact Ht].
Qed.

Lemma cursor_eq b p q : p = q -> Ok (Cursor b p) = Ok (Cursor b q).
Proof. congruence. Qed.

(** ** The whole layout *)

Lemma layout_length ds k :
  (1 <= length ds <= 17)%nat -> -1000 < Z.of_nat (length ds) + k - 1 < 1000 ->
  (length (layout ds k) <= 24)%nat.
Proof.
  intros Hl Hk. unfold layout.
  destruct ((_ <=? _) && _) eqn:E1; [|destruct ((0 <? _) && _) eqn:E2; [|destruct ((-6 <? _) && _) eqn:E3]].
  - rewrite !app_length, map_length. unfold zeros. rewrite repeat_length. cbn [length str list_ascii_of_string]. lia.
  - rewrite app_length. cbn [length]. rewrite !map_length, firstn_length, skipn_length. lia.
  - rewrite !app_length, map_length. unfold zeros. rewrite repeat_length. cbn [length str list_ascii_of_string]. lia.
  - pose proof (exp_text_length _ Hk).
    destruct ds as [|d [|d1 r]].
    + cbn [length]. lia.
    + cbn [length] in *. lia.
    + cbn [length] in *. rewrite app_length, map_length. cbn [length] in *. lia.
Qed.

Theorem prettify_ok b pre ds k n :
  holds_digits b pre ds n -> (1 <= length ds)%nat -> -1000 < Z.of_nat (length ds) + k - 1 < 1000 ->
  (length pre + length (layout ds k) < n)%nat ->
  exists b', prettify b (Z.of_nat (length pre)) (Z.of_nat (length ds)) k
             = Ok (Cursor b' (Z.of_nat (length (pre ++ layout ds k)))) /\
             finished b' (pre ++ layout ds k) n.
Proof.
  intros (t & -> & Hn) Hl Hk Hroom. unfold dtext in *.
  rewrite map_app, <- app_assoc in *. rewrite !app_length, !map_length in Hn.
  set (P := map (@Some ascii) pre) in *. set (B := map (@Some ascii) (map dchr ds)) in *.
  assert (LP : length P = length pre) by (unfold P; apply map_length).
  assert (LB : length B = length ds) by (unfold B; rewrite !map_length; reflexivity).
  unfold prettify, layout in *. set (len := Z.of_nat (length ds)) in *. set (kk := len + k) in *.
  destruct ((len <=? kk) && (kk <=? 21)) eqn:E1;
    [|destruct ((0 <? kk) && (kk <=? 21)) eqn:E2; [|destruct ((-6 <? kk) && (kk <=? 0)) eqn:E3]].
  - (* digits, zeros, ".0" *)
    rewrite !app_length, map_length in Hroom. unfold zeros in *. rewrite repeat_length in Hroom.
    cbn [length str list_ascii_of_string] in Hroom.
    destruct (split_buf t (Z.to_nat k) ltac:(lia)) as (X & C & -> & LX). rewrite app_length in Hn.
    replace (kk - len) with k by lia.
    rewrite (app_assoc P B).
    rewrite (fill_zeros_app (P ++ B) X C) by (rewrite ?app_length; lia). cbn [bind].
    split_one C c1. split_one C c2. split_one C c3. cbn [length] in Hn.
    rewrite (app_assoc (P ++ B)). set (Z0 := map Some (repeat "0"%char (Z.to_nat k))) in *.
    assert (LZ : length Z0 = Z.to_nat k) by (unfold Z0; rewrite map_length, repeat_length; reflexivity).
    rewrite buf_write_at by (rewrite !app_length; lia). cbn [bind].
    change (Some "."%char :: c2 :: c3 :: C) with ([Some "."%char] ++ c2 :: c3 :: C).
    rewrite (app_assoc ((P ++ B) ++ Z0)).
    rewrite buf_write_at by (rewrite !app_length; cbn [length]; lia). cbn [bind].
    change (Some "0"%char :: c3 :: C) with ([Some "0"%char] ++ c3 :: C).
    rewrite (app_assoc (((P ++ B) ++ Z0) ++ _)).
    rewrite buf_write_at by (rewrite !app_length; cbn [length]; lia). cbn [bind].
    eexists. split; [apply cursor_eq|].
    + rewrite ?app_length, map_length, repeat_length. cbn [length str list_ascii_of_string]. lia.
    + exists C. split.
      * rewrite !map_app. unfold P, B, Z0. rewrite <- !app_assoc. reflexivity.
      * rewrite !app_length. cbn [length]. lia.
  - (* digits with a point inside *)
    rewrite app_length in Hroom. cbn [length] in Hroom. rewrite !map_length, firstn_length, skipn_length in Hroom.
    set (B1 := map (@Some ascii) (map dchr (firstn (Z.to_nat kk) ds))).
    set (B2 := map (@Some ascii) (map dchr (skipn (Z.to_nat kk) ds))).
    assert (EB : B = B1 ++ B2) by (unfold B, B1, B2; rewrite <- !map_app, firstn_skipn; reflexivity).
    assert (L1 : length B1 = Z.to_nat kk) by (unfold B1; rewrite !map_length, firstn_length; lia).
    assert (L2 : length B2 = (length ds - Z.to_nat kk)%nat) by (unfold B2; rewrite !map_length, skipn_length; lia).
    rewrite EB, <- app_assoc, app_assoc.
    destruct (memmove_up (P ++ B1) B2 t (Z.of_nat (length pre) + (kk + 1)) (Z.of_nat (length pre) + kk) (len - kk) 1)
      as (X & C & EM & LX & LC); rewrite ?app_length; try lia.
    rewrite EM. cbn [bind]. destruct X as [|x [|]]; try discriminate LX. cbn [app].
    rewrite buf_write_at by (rewrite app_length; lia). cbn [bind].
    split_one C c1.
    change (Some "."%char :: B2 ++ c1 :: C) with ((Some "."%char :: B2) ++ c1 :: C).
    rewrite (app_assoc (P ++ B1)).
    rewrite buf_write_at by (rewrite !app_length; cbn [length]; lia). cbn [bind].
    eexists. split; [apply cursor_eq|].
    + rewrite ?app_length. cbn [length]. rewrite !map_length, firstn_length, skipn_length. lia.
    + exists C. split.
      * rewrite !map_app. cbn [map]. unfold P, B1, B2. rewrite <- !app_assoc. reflexivity.
      * rewrite !app_length. cbn [length] in *. lia.
  - (* 0.000ddd *)
    rewrite !app_length, map_length in Hroom. unfold zeros in *. rewrite repeat_length in Hroom.
    cbn [length str list_ascii_of_string] in Hroom.
    destruct (memmove_up P B t (Z.of_nat (length pre) + (2 - kk)) (Z.of_nat (length pre)) len (Z.to_nat (2 - kk)))
      as (X & C & EM & LX & LC); try lia.
    rewrite EM. cbn [bind]. split_one X x1. split_one X x2. cbn [app].
    rewrite buf_write_at by lia. cbn [bind].
    change (Some "0"%char :: x2 :: X ++ B ++ C) with ([Some "0"%char] ++ x2 :: X ++ B ++ C).
    rewrite (app_assoc P).
    rewrite buf_write_at by (rewrite app_length; cbn [length]; lia). cbn [bind].
    change (Some "."%char :: X ++ B ++ C) with ([Some "."%char] ++ X ++ B ++ C).
    rewrite (app_assoc (P ++ _)). cbn [length] in LX.
    replace (2 - kk - 2) with (- kk) by lia.
    rewrite fill_zeros_app by (rewrite ?app_length; cbn [length]; lia). cbn [bind].
    set (Z0 := map Some (repeat "0"%char (Z.to_nat (- kk)))) in *.
    assert (LZ : length Z0 = Z.to_nat (- kk)) by (unfold Z0; rewrite map_length, repeat_length; reflexivity).
    split_one C c1.
    rewrite (app_assoc ((P ++ _) ++ _)). rewrite (app_assoc (((P ++ _) ++ _) ++ Z0)).
    rewrite buf_write_at by (rewrite !app_length; cbn [length]; lia). cbn [bind].
    eexists. split; [apply cursor_eq|].
    + rewrite ?app_length, map_length, repeat_length. cbn [length str list_ascii_of_string]. lia.
    + exists C. split.
      * rewrite !map_app. unfold P, B, Z0. rewrite <- !app_assoc. reflexivity.
      * rewrite !app_length. cbn [length] in *. lia.
  - destruct ds as [|d r]; [cbn in Hl; lia|].
    destruct r as [|d1 r].
    + (* d e exp *)
      change (len =? 1) with true. cbv iota. change len with 1 in *. cbn [length] in *.
      split_one t c1. cbn [length] in *.
      change (map dchr [d]) with [dchr d] in B. change B with [Some (dchr d)] in *.
      change ([Some (dchr d)] ++ c1 :: t) with ([Some (dchr d)] ++ [c1] ++ t). rewrite (app_assoc P).
      cbn [app]. rewrite buf_write_at by (rewrite app_length; cbn [length]; lia). cbn [bind].
      destruct (writeExponent_ok (kk - 1) (pre ++ [dchr d; "e"%char]) t ltac:(lia) ltac:(lia)) as (b' & E & F).
      replace (Cursor ((P ++ [Some (dchr d)]) ++ Some "e"%char :: t) (Z.of_nat (length pre) + 2))
        with (at_end (pre ++ [dchr d; "e"%char]) t).
      2:{ unfold at_end. f_equal.
          - rewrite map_app. unfold P. rewrite <- !app_assoc. reflexivity.
          - rewrite app_length. cbn [length]. lia. }
      exists b'. rewrite E. rewrite <- !app_assoc in *. cbn [app] in *. split; [reflexivity|].
      rewrite app_length in F. cbn [length] in F.
      replace n with (length pre + 2 + length t)%nat by lia. exact F.
    + (* d . ddd e exp *)
      assert (Hlen : (len =? 1) = false) by (unfold len; cbn [length]; lia). rewrite Hlen.
      set (r0 := d1 :: r) in *.
      assert (Hlr : len = Z.of_nat (length r0) + 1) by (unfold len; cbn [length]; lia).
      assert (EB : B = [Some (dchr d)] ++ map Some (map dchr r0)) by reflexivity.
      rewrite EB in *. rewrite <- app_assoc. rewrite (app_assoc P).
      assert (Hroom' : (length pre + (2 + (length r0 + (1 + length (exp_text (kk - 1))))) < n)%nat).
      { cbn [length] in Hroom. rewrite app_length, map_length in Hroom. cbn [length] in Hroom. lia. }
      rewrite app_length, map_length, map_length in LB. cbn [length] in LB. cbn [length] in Hn.
      destruct (memmove_up (P ++ [Some (dchr d)]) (map Some (map dchr r0)) t
                 (Z.of_nat (length pre) + 2) (Z.of_nat (length pre) + 1) (len - 1) 1)
        as (X & C & EM & LX & LC); rewrite ?app_length, ?map_length; cbn [length]; try lia.
      rewrite EM. cbn [bind]. destruct X as [|x [|]]; try discriminate LX. cbn [app].
      rewrite buf_write_at by (rewrite app_length; cbn [length]; lia). cbn [bind].
      split_one C c1.
      change (Some "."%char :: map Some (map dchr r0) ++ c1 :: C) with ((Some "."%char :: map Some (map dchr r0)) ++ c1 :: C).
      rewrite (app_assoc (P ++ _)).
      rewrite buf_write_at by (rewrite !app_length; cbn [length]; rewrite !map_length; lia). cbn [bind].
      set (out := pre ++ dchr d :: "."%char :: map dchr r0 ++ ["e"%char]).
      assert (Lout : length out = (length pre + (2 + (length r0 + 1)))%nat).
      { unfold out. rewrite app_length. cbn [length]. rewrite app_length, map_length. cbn [length]. lia. }
      cbn [length] in LC.
      destruct (writeExponent_ok (kk - 1) out C ltac:(lia) ltac:(lia)) as (b' & E & F).
      replace (Cursor (((P ++ [Some (dchr d)]) ++ Some "."%char :: map Some (map dchr r0)) ++ Some "e"%char :: C)
                (Z.of_nat (length pre) + (0 + len + 2))) with (at_end out C).
      2:{ unfold at_end. f_equal.
          - unfold out. rewrite map_app. cbn [map]. rewrite map_app. unfold P. repeat (rewrite <- app_assoc; cbn [app]).
            reflexivity.
          - lia. }
      exists b'. rewrite E.
      assert (EO : out ++ exp_text (kk - 1) = pre ++ dchr d :: "."%char :: map dchr r0 ++ "e"%char :: exp_text (kk - 1)).
      { unfold out. rewrite <- app_assoc. cbn [app]. rewrite <- app_assoc. reflexivity. }
      rewrite EO in *. split; [apply cursor_eq; repeat (rewrite ?app_length, ?map_length; cbn [length]); lia|].
      replace n with (length out + length C)%nat by lia. exact F.
Qed.
