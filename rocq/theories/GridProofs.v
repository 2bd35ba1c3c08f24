(** Proofs about the grid bookkeeping model. *)
From Coq Require Import List ZArith Lia Bool ZifyBool ZifyNat.
From Verif Require Import PyBase GridModel GridSpec.
Import ListNotations.
Open Scope Z_scope.
Ltac Zify.zify_post_hook ::= Z.div_mod_to_equations.

(** ** Generalities *)

Lemma last_nth {A} (l : list A) d : last l d = nth (length l - 1) l d.
Proof.
  induction l as [|a [|b l] IH]; auto.
  change (last (a :: b :: l) d) with (last (b :: l) d).
  rewrite IH. cbn [length]. replace (S (S (length l)) - 1)%nat with (S (S (length l) - 1)) by lia.
  reflexivity.
Qed.

Lemma nth_S {A} i (a : A) l d : nth (S i) (a :: l) d = nth i l d.
Proof. reflexivity. Qed.

Lemma even_axis_length x0 step n : length (even_axis x0 step n) = n.
Proof. unfold even_axis. now rewrite map_length, seq_length. Qed.

Lemma even_axis_nth x0 step n i d :
  (i < n)%nat -> nth i (even_axis x0 step n) d = x0 + Z.of_nat i * step.
Proof.
  intros H. unfold even_axis.
  rewrite nth_indep with (d' := (fun i => x0 + Z.of_nat i * step) 0%nat)
    by (rewrite map_length, seq_length; lia).
  rewrite (map_nth (fun i => x0 + Z.of_nat i * step)).
  now rewrite seq_nth.
Qed.

Lemma even_axis_In x0 step n x :
  In x (even_axis x0 step n) <-> exists i, (i < n)%nat /\ x = x0 + Z.of_nat i * step.
Proof.
  unfold even_axis. rewrite in_map_iff. split.
  - intros (i & <- & H). apply in_seq in H. exists i; split; auto; lia.
  - intros (i & H & ->). exists i; split; auto. apply in_seq; lia.
Qed.

Lemma same_meridian_refl u x : same_meridian u x x.
Proof. exists 0; lia. Qed.

Lemma nth_ext_iff {A} (l l' : list A) d :
  length l = length l' -> (forall i, (i < length l)%nat -> nth i l d = nth i l' d) -> l = l'.
Proof. intros. apply nth_ext with d d; auto. Qed.

(** ** Extension (C30) *)

Lemma extend_array_nth xs step xs' :
  extend_array xs step = Ok xs' ->
  length xs' = (length xs + 2)%nat /\
  nth 0 xs' 0 = nth 0 xs 0 - step /\
  (forall i, (i < length xs)%nat -> nth (S i) xs' 0 = nth i xs 0) /\
  nth (S (length xs)) xs' 0 = nth (length xs - 1) xs 0 + step.
Proof.
  destruct xs as [|x0 xs]; cbv beta iota delta [extend_array]; [discriminate|].
  intros <-%Ok_inj. repeat split.
  - cbn [length]. rewrite app_length. cbn. lia.
  - intros i Hi. change (nth (S i) ((x0 - step) :: ?l) 0) with (nth i l 0).
    now rewrite app_nth1.
  - change (nth (S ?k) ((x0 - step) :: ?l) 0) with (nth k l 0).
    rewrite app_nth2 by lia. replace (length (x0 :: xs) - length (x0 :: xs))%nat with 0%nat by lia.
    transitivity (last (x0 :: xs) x0 + step); [reflexivity|].
    rewrite last_nth. f_equal. apply nth_indep. cbn; lia.
Qed.

Lemma extend_row_nth {A} (row row' : list A) d :
  extend_row row = Ok row' ->
  length row' = (length row + 2)%nat /\
  forall i, (i < length row + 2)%nat ->
    nth i row' d = nth ((i + (length row - 1)) mod length row)%nat row d.
Proof.
  destruct row as [|r0 row]; cbv beta iota delta [extend_row]; [discriminate|].
  intros <-%Ok_inj. split.
  - cbn [length]. rewrite app_length. cbn. lia.
  - intros i Hi. set (n := length (r0 :: row)) in *.
    assert (Hn : (0 < n)%nat) by (unfold n; cbn; lia).
    destruct i as [|i].
    + transitivity (last (r0 :: row) r0); [reflexivity|]. rewrite last_nth. fold n.
      rewrite Nat.mod_small by lia. apply nth_indep; fold n; lia.
    + rewrite nth_S.
      destruct (Nat.lt_ge_cases i n) as [H|H].
      * rewrite app_nth1 by (fold n; lia).
        replace (S i + (n - 1))%nat with (i + 1 * n)%nat by lia.
        rewrite Nat.mod_add, Nat.mod_small by lia. reflexivity.
      * assert (i = n) by lia. subst i.
        rewrite app_nth2 by (fold n; lia). fold n.
        replace (n - n)%nat with 0%nat by lia.
        replace (S n + (n - 1))%nat with (0 + 2 * n)%nat by lia.
        rewrite Nat.mod_add, Nat.mod_small by lia. reflexivity.
Qed.

Lemma extend_row_got_nth {A} (row row' : list A) d :
  extend_row_got row = Ok row' ->
  length row' = (length row + 3)%nat /\
  forall i, (i < length row + 3)%nat ->
    nth i row' d = nth ((i + (length row - 1)) mod length row)%nat row d.
Proof.
  destruct row as [|r0 [|r1 row]]; cbv beta iota delta [extend_row_got]; try discriminate.
  intros <-%Ok_inj. split.
  - cbn [length]. rewrite app_length. cbn. lia.
  - intros i Hi. set (L := r0 :: r1 :: row) in *. set (n := length L) in *.
    assert (Hn : (2 <= n)%nat) by (unfold n, L; cbn; lia).
    destruct i as [|i].
    + rewrite Nat.mod_small by lia.
      change (last L r0 = nth (0 + (n - 1)) L d).
      rewrite last_nth. fold n. apply nth_indep; fold n; lia.
    + rewrite nth_S.
      destruct (Nat.lt_ge_cases i n) as [H|H].
      * rewrite app_nth1 by (fold n; lia).
        replace (S i + (n - 1))%nat with (i + 1 * n)%nat by lia.
        rewrite Nat.mod_add, Nat.mod_small by lia. reflexivity.
      * rewrite app_nth2 by (fold n; lia). fold n.
        assert (Hi' : i = n \/ i = S n) by lia. destruct Hi' as [-> | ->].
        -- replace (n - n)%nat with 0%nat by lia.
           replace (S n + (n - 1))%nat with (0 + 2 * n)%nat by lia.
           rewrite Nat.mod_add, Nat.mod_small by lia. reflexivity.
        -- replace (S n - n)%nat with 1%nat by lia.
           replace (S (S n) + (n - 1))%nat with (1 + 2 * n)%nat by lia.
           rewrite Nat.mod_add, Nat.mod_small by lia. reflexivity.
Qed.

Lemma extend_array_even x0 step n xs' :
  extend_array (even_axis x0 step n) step = Ok xs' ->
  xs' = even_axis (x0 - step) step (n + 2).
Proof.
  intros H. pose proof (extend_array_nth _ _ _ H) as (HL & H0 & Hm & He).
  rewrite even_axis_length in *.
  assert (Hn : (0 < n)%nat).
  { destruct n; [cbn in H; discriminate|lia]. }
  apply nth_ext_iff with 0; [now rewrite even_axis_length|].
  intros i Hi. rewrite even_axis_nth by lia.
  destruct i as [|i].
  - rewrite H0, even_axis_nth by lia. lia.
  - destruct (Nat.lt_ge_cases i n) as [Hin|Hin].
    + rewrite Hm, even_axis_nth by lia. lia.
    + assert (i = n) by lia. subst i. rewrite He, even_axis_nth by lia.
      rewrite Nat2Z.inj_sub, Nat2Z.inj_succ by lia. lia.
Qed.

Lemma extend_array_got_even x0 step n xs' :
  extend_array_got (even_axis x0 step n) step = Ok xs' ->
  xs' = even_axis (x0 - step) step (n + 3).
Proof.
  destruct n as [|n]; [cbn; discriminate|].
  intros H. set (xs := even_axis x0 step (S n)) in *.
  assert (HL : length xs = S n) by apply even_axis_length.
  assert (Hl : last xs x0 = x0 + Z.of_nat n * step).
  { rewrite last_nth, HL. unfold xs. rewrite even_axis_nth by lia.
    now replace (S n - 1)%nat with n by lia. }
  assert (Hx : xs' = (x0 - step) :: xs ++ [last xs x0 + step; last xs x0 + 2 * step]).
  { unfold xs in H at 1. cbn in H. rewrite Z.add_0_r in H.
    injection H as <-. unfold xs. cbn. rewrite Z.add_0_r. reflexivity. }
  rewrite Hx, Hl. clear H Hx.
  apply nth_ext_iff with 0.
  { rewrite even_axis_length. cbn [length]. rewrite app_length, HL. cbn. lia. }
  intros i Hi. cbn [length] in Hi. rewrite app_length, HL in Hi. cbn in Hi.
  rewrite even_axis_nth by lia.
  destruct i as [|i]; [cbn [nth]; lia|].
  rewrite nth_S.
  destruct (Nat.lt_ge_cases i (S n)) as [H|H].
  - rewrite app_nth1 by lia. unfold xs. rewrite even_axis_nth by lia. lia.
  - rewrite app_nth2 by lia. rewrite HL.
    assert (Hi' : i = S n \/ i = S (S n)) by lia. destruct Hi' as [-> | ->].
    + replace (S n - S n)%nat with 0%nat by lia. cbn [nth]. lia.
    + replace (S (S n) - S n)%nat with 1%nat by lia. cbn [nth]. lia.
Qed.

Lemma meridian_mod u x0 step n i j :
  global_axis u x0 step n ->
  same_meridian u (x0 + Z.of_nat i * step) (x0 + Z.of_nat j * step) ->
  (i mod n = j mod n)%nat.
Proof.
  intros (Hu & Hs & Hn) [k Hk].
  assert (E : (Z.of_nat i - Z.of_nat j) * step = k * Z.of_nat n * step) by nia.
  apply Z.mul_reg_r in E; [|lia].
  assert (Hnn : (0 < n)%nat) by nia.
  apply Nat2Z.inj. rewrite !Nat2Z.inj_mod.
  replace (Z.of_nat i) with (Z.of_nat j + k * Z.of_nat n) by lia.
  apply Z.mod_add. lia.
Qed.

Lemma mod_shift_eq i j a n : (i mod n = j mod n -> (i + a) mod n = (j + a) mod n)%nat.
Proof.
  intros H. destruct n as [|n]; [reflexivity||(cbn in *; lia)|].
  rewrite (Nat.add_mod i a), (Nat.add_mod j a), H by lia. reflexivity.
Qed.

Lemma extend_periodic {A} u x0 step n (row : list A) xs' row' d :
  global_axis u x0 step n -> length row = n ->
  extend_array (even_axis x0 step n) step = Ok xs' -> extend_row row = Ok row' ->
  length xs' = length row' /\
  (forall i, (i < n)%nat -> nth (S i) xs' 0 = nth i (even_axis x0 step n) 0 /\
                            nth (S i) row' d = nth i row d) /\
  xs' = even_axis (x0 - step) step (n + 2) /\
  (forall i j, (i < length xs')%nat -> (j < length xs')%nat ->
     same_meridian u (nth i xs' 0) (nth j xs' 0) -> nth i row' d = nth j row' d).
Proof.
  intros Hg HL Hx Hr.
  pose proof (extend_array_even _ _ _ _ Hx) as Ex.
  pose proof (extend_array_nth _ _ _ Hx) as (L1 & _ & Hm & _).
  pose proof (extend_row_nth _ _ d Hr) as (L2 & Hrow).
  rewrite even_axis_length in *.
  repeat split; auto; try lia.
  - rewrite Hrow by lia. rewrite HL.
    replace (S i + (n - 1))%nat with (i + 1 * n)%nat by lia.
    rewrite Nat.mod_add, Nat.mod_small by lia. reflexivity.
  - intros i j Hi Hj Hsm. rewrite !Hrow by lia. f_equal. rewrite HL.
    rewrite Ex, !even_axis_nth in Hsm by lia.
    apply mod_shift_eq. eapply meridian_mod; eauto.
    destruct Hsm as [k Hk]. exists k. lia.
Qed.

Lemma extend_periodic_got {A} u x0 step n (row : list A) xs' row' d :
  global_axis u x0 step n -> length row = n ->
  extend_array_got (even_axis x0 step n) step = Ok xs' -> extend_row_got row = Ok row' ->
  length xs' = length row' /\
  (forall i, (i < n)%nat -> nth (S i) xs' 0 = nth i (even_axis x0 step n) 0 /\
                            nth (S i) row' d = nth i row d) /\
  xs' = even_axis (x0 - step) step (n + 3) /\
  (forall i j, (i < length xs')%nat -> (j < length xs')%nat ->
     same_meridian u (nth i xs' 0) (nth j xs' 0) -> nth i row' d = nth j row' d).
Proof.
  intros Hg HL Hx Hr.
  pose proof (extend_array_got_even _ _ _ _ Hx) as Ex.
  pose proof (extend_row_got_nth _ _ d Hr) as (L2 & Hrow).
  assert (L1 : length xs' = (n + 3)%nat) by (rewrite Ex; apply even_axis_length).
  repeat split; auto; try lia.
  - rewrite Ex, !even_axis_nth by lia. lia.
  - rewrite Hrow by lia. rewrite HL.
    replace (S i + (n - 1))%nat with (i + 1 * n)%nat by lia.
    rewrite Nat.mod_add, Nat.mod_small by lia. reflexivity.
  - intros i j Hi Hj Hsm. rewrite !Hrow by lia. f_equal. rewrite HL.
    rewrite Ex, !even_axis_nth in Hsm by lia.
    apply mod_shift_eq. eapply meridian_mod; eauto.
    destruct Hsm as [k Hk]. exists k. lia.
Qed.

(** extension succeeds on every non-empty grid *)
Lemma extend_total {A} xs step (row : list A) :
  xs <> [] -> row <> [] -> is_ok (extend_array xs step) = true /\ is_ok (extend_row row) = true.
Proof. destruct xs, row; try congruence; auto. Qed.

(** ** argmin *)

Lemma argmin_from_lt l : forall best ib i, (ib < i)%nat ->
  (argmin_from best ib i l < i + length l)%nat.
Proof.
  induction l as [|y l IH]; intros best ib i H; cbn [argmin_from length]; [lia|].
  destruct (y <? best).
  - specialize (IH y i (S i)). lia.
  - specialize (IH best ib (S i)). lia.
Qed.

(** full specification of [argmin_from]: earliest index of the least value *)
Lemma argmin_from_spec l : forall pre best ib,
  (ib < length pre)%nat -> nth ib pre 0 = best ->
  (forall k, (k < length pre)%nat -> best <= nth k pre 0) ->
  (forall k, (k < ib)%nat -> best < nth k pre 0) ->
  let r := argmin_from best ib (length pre) l in
  (r < length (pre ++ l))%nat /\
  (forall k, (k < length (pre ++ l))%nat -> nth r (pre ++ l) 0 <= nth k (pre ++ l) 0) /\
  (forall k, (k < r)%nat -> nth r (pre ++ l) 0 < nth k (pre ++ l) 0).
Proof.
  induction l as [|y l IH]; intros pre best ib Hib Hbest Hle Hlt; cbn [argmin_from].
  - rewrite app_nil_r. subst best. repeat split; auto.
  - replace (pre ++ y :: l) with ((pre ++ [y]) ++ l) by (rewrite <- app_assoc; reflexivity).
    replace (S (length pre)) with (length (pre ++ [y])) by (rewrite app_length; cbn; lia).
    destruct (y <? best) eqn:E.
    + apply IH.
      * rewrite app_length; cbn; lia.
      * rewrite app_nth2 by lia. now rewrite Nat.sub_diag.
      * intros k Hk. rewrite app_length in Hk; cbn in Hk.
        destruct (Nat.lt_ge_cases k (length pre)).
        -- rewrite app_nth1 by lia. specialize (Hle k). lia.
        -- rewrite app_nth2 by lia. replace (k - length pre)%nat with 0%nat by lia. cbn; lia.
      * intros k Hk. rewrite app_nth1 by lia. specialize (Hle k). lia.
    + apply IH.
      * rewrite app_length; lia.
      * rewrite app_nth1 by lia. auto.
      * intros k Hk. rewrite app_length in Hk; cbn in Hk.
        destruct (Nat.lt_ge_cases k (length pre)).
        -- rewrite app_nth1 by lia. apply Hle; lia.
        -- rewrite app_nth2 by lia. replace (k - length pre)%nat with 0%nat by lia. cbn; lia.
      * intros k Hk. rewrite app_nth1 by lia. apply Hlt; lia.
Qed.

Lemma np_argmin_spec l r :
  np_argmin l = Ok r ->
  (r < length l)%nat /\ (forall k, (k < length l)%nat -> nth r l 0 <= nth k l 0) /\
  (forall k, (k < r)%nat -> nth r l 0 < nth k l 0).
Proof.
  destruct l as [|x l]; cbn [np_argmin]; [discriminate|]. intros <-%Ok_inj.
  apply (argmin_from_spec l [x] x 0%nat); cbn; auto; intros; try lia.
  destruct k; [lia|]. cbn in H. lia.
Qed.

Lemma shift_index_spec lon0 xs r :
  shift_index lon0 xs = Ok r ->
  (r < length xs)%nat /\
  (forall k, (k < length xs)%nat -> Z.abs (nth r xs 0 - lon0) <= Z.abs (nth k xs 0 - lon0)) /\
  (forall k, (k < r)%nat -> Z.abs (nth r xs 0 - lon0) < Z.abs (nth k xs 0 - lon0)).
Proof.
  unfold shift_index. intros H. apply np_argmin_spec in H. rewrite map_length in H.
  assert (N : forall k, (k < length xs)%nat ->
     nth k (map (fun x => Z.abs (x - lon0)) xs) 0 = Z.abs (nth k xs 0 - lon0)).
  { intros k Hk. rewrite nth_indep with (d' := (fun x => Z.abs (x - lon0)) 0)
      by (rewrite map_length; lia).
    apply (map_nth (fun x => Z.abs (x - lon0))). }
  destruct H as (H1 & H2 & H3). repeat split; auto.
  - intros k Hk. rewrite <- !N by lia. apply H2; lia.
  - intros k Hk. rewrite <- !N by lia. apply H3; lia.
Qed.

(** ** Shift (C31) *)

Lemma shift_offset_01 u c xs o : shift_offset u c xs = Ok o -> (o <= 1)%nat.
Proof.
  destruct xs; cbn; [discriminate|]. intros <-%Ok_inj.
  match goal with |- context [if ?b then _ else _] => destruct b end; lia.
Qed.

Definition shifted_x (cyclic : Z) (d : direction) (i0 o n k : nat) (xs : list Z) : Z :=
  if (k <? n - i0)%nat
  then nth (i0 + k) xs 0 - (match d with West => cyclic | _ => 0 end)
  else nth (o + (k - (n - i0))) xs 0 + (match d with East => cyclic | _ => 0 end).

Definition shifted_src (i0 o n k : nat) : nat :=
  if (k <? n - i0)%nat then (i0 + k)%nat else (o + (k - (n - i0)))%nat.

Lemma map_nth' (f : Z -> Z) l k : (k < length l)%nat -> nth k (map f l) 0 = f (nth k l 0).
Proof.
  intros H. rewrite nth_indep with (d' := f 0) by (rewrite map_length; lia).
  apply map_nth.
Qed.

Lemma rotate_nth {A} i0 o (v : list A) p d :
  rotate_list i0 o v = Ok p -> (i0 < length v)%nat -> (o <= 1)%nat ->
  length (fst p) = (length v - i0)%nat /\ length (snd p) = i0 /\ (0 < i0)%nat /\
  (forall k, nth k (fst p) d = nth (i0 + k) v d) /\
  (forall k, (k < i0)%nat -> nth k (snd p) d = nth (o + k) v d).
Proof.
  unfold rotate_list. destruct i0 as [|i]; [discriminate|].
  intros <-%Ok_inj Hi Ho. cbn [fst snd]. repeat split.
  - now rewrite skipn_length.
  - rewrite slice_length by lia. lia.
  - lia.
  - intros k. apply nth_skipn.
  - intros k Hk. apply slice_nth. lia.
Qed.

Lemma shift_axis_nth u lon0 c d xs xs' i0 o :
  shift_axis u lon0 c d xs = Ok xs' ->
  shift_index lon0 xs = Ok i0 -> shift_offset u c xs = Ok o ->
  length xs' = length xs /\ (0 < i0 < length xs)%nat /\
  forall k, (k < length xs)%nat -> nth k xs' 0 = shifted_x c d i0 o (length xs) k xs.
Proof.
  unfold shift_axis. intros H Hi Ho. rewrite Ho, Hi in H. cbn [bind] in H.
  destruct (rotate_list i0 o xs) as [p|e] eqn:Hp; cbn [bind] in H; [|discriminate].
  pose proof (shift_index_spec _ _ _ Hi) as (Hlt & _).
  pose proof (shift_offset_01 _ _ _ _ Ho) as Ho1.
  pose proof (rotate_nth _ _ _ _ 0 Hp Hlt Ho1) as (L1 & L2 & Hpos & N1 & N2).
  injection H as <-.
  assert (LL : length (match d with
      | East => fst p ++ map (fun x : Z => x + c) (snd p)
      | West => map (fun x : Z => x - c) (fst p) ++ snd p
      | OtherDir => fst p ++ snd p end) = length xs).
  { destruct d; rewrite app_length, ?map_length, L1, L2; lia. }
  repeat split; auto; try lia.
  intros k Hk. unfold shifted_x.
  destruct (k <? length xs - i0)%nat eqn:E.
  - apply Nat.ltb_lt in E. destruct d.
    + rewrite app_nth1 by lia. rewrite N1. lia.
    + rewrite app_nth1 by (rewrite map_length; lia). rewrite map_nth' by lia. rewrite N1. lia.
    + rewrite app_nth1 by lia. rewrite N1. lia.
  - apply Nat.ltb_ge in E. destruct d.
    + rewrite app_nth2 by lia. rewrite map_nth' by lia. rewrite L1, N2 by lia. lia.
    + rewrite app_nth2 by (rewrite map_length; lia). rewrite map_length, L1, N2 by lia. lia.
    + rewrite app_nth2 by lia. rewrite L1, N2 by lia. lia.
Qed.

Lemma shift_row_nth {A} u lon0 c xs (row row' : list A) i0 o (d : A) :
  length row = length xs ->
  shift_row u lon0 c xs row = Ok row' ->
  shift_index lon0 xs = Ok i0 -> shift_offset u c xs = Ok o ->
  length row' = length row /\
  forall k, (k < length xs)%nat -> nth k row' d = nth (shifted_src i0 o (length xs) k) row d.
Proof.
  unfold shift_row. intros HL H Hi Ho. rewrite Ho, Hi in H. cbn [bind] in H.
  destruct (rotate_list i0 o row) as [p|e] eqn:Hp; cbn [bind] in H; [|discriminate].
  pose proof (shift_index_spec _ _ _ Hi) as (Hlt & _).
  pose proof (shift_offset_01 _ _ _ _ Ho) as Ho1.
  assert (Hlt' : (i0 < length row)%nat) by lia.
  pose proof (rotate_nth _ _ _ _ d Hp Hlt' Ho1) as (L1 & L2 & Hpos & N1 & N2).
  injection H as <-. split.
  - rewrite app_length. lia.
  - intros k Hk. unfold shifted_src.
    destruct (k <? length xs - i0)%nat eqn:E.
    + apply Nat.ltb_lt in E. rewrite app_nth1 by lia. apply N1.
    + apply Nat.ltb_ge in E. rewrite app_nth2 by lia. rewrite L1, N2 by lia. f_equal. lia.
Qed.

(** shift succeeds exactly when the new base is not the first column *)
Lemma shift_ok_iff u lon0 c d xs :
  is_ok (shift_axis u lon0 c d xs) = true <->
  exists i0, shift_index lon0 xs = Ok i0 /\ (0 < i0)%nat.
Proof.
  unfold shift_axis. destruct xs as [|x xs].
  - cbn. split; [discriminate|]. intros (i0 & H & _). discriminate.
  - destruct (shift_offset u c (x :: xs)) as [o|e] eqn:Ho; [|cbn in Ho; discriminate].
    cbn [bind]. destruct (shift_index lon0 (x :: xs)) as [i0|e] eqn:Hi.
    + cbn [bind]. destruct i0; cbn.
      * split; [discriminate|]. intros (j & [= <-] & H). lia.
      * split; [|reflexivity]. intros _. eexists; split; [reflexivity|lia].
    + cbn. split; [discriminate|]. intros (j & H & _); discriminate.
Qed.

Lemma shift_axis_ok_inv u lon0 c d xs xs' :
  shift_axis u lon0 c d xs = Ok xs' ->
  exists i0 o, shift_index lon0 xs = Ok i0 /\ shift_offset u c xs = Ok o.
Proof.
  intros H. unfold shift_axis in H.
  destruct (shift_offset u c xs) as [o|]; cbn in H; [|discriminate].
  destruct (shift_index lon0 xs) as [i0|]; cbn in H; [|discriminate]. eauto.
Qed.

(** Every output column carries the data of its own meridian, and (when the end
    column is not a duplicate, or duplicates the first one) nothing is lost. *)
Lemma shift_assoc {A} u lon0 d xs (row : list A) xs' row' (dd : A) :
  length row = length xs ->
  shift_axis u lon0 (360 * u) d xs = Ok xs' ->
  shift_row u lon0 (360 * u) xs row = Ok row' ->
  length xs' = length xs /\ length row' = length xs /\
  forall k, (k < length xs)%nat -> exists j, (j < length xs)%nat /\
    nth k row' dd = nth j row dd /\ same_meridian u (nth k xs' 0) (nth j xs 0).
Proof.
  intros HL Hx Hr.
  destruct (shift_axis_ok_inv _ _ _ _ _ _ Hx) as (i0 & o & Hi & Ho).
  pose proof (shift_axis_nth _ _ _ _ _ _ _ _ Hx Hi Ho) as (L1 & Hpos & Nx).
  pose proof (shift_row_nth _ _ _ _ _ _ _ _ dd HL Hr Hi Ho) as (L2 & Nr).
  pose proof (shift_offset_01 _ _ _ _ Ho) as Ho1.
  repeat split; auto; try lia.
  intros k Hk. exists (shifted_src i0 o (length xs) k). repeat split.
  - unfold shifted_src. destruct (k <? length xs - i0)%nat eqn:E; lia.
  - apply Nr; auto.
  - rewrite Nx by auto. unfold shifted_x, shifted_src.
    destruct (k <? length xs - i0)%nat eqn:E; destruct d;
      solve [exists 0; lia | exists 1; lia | exists (-1); lia].
Qed.

Lemma shift_complete {A} u lon0 d xs (row : list A) xs' row' (dd : A) :
  length row = length xs ->
  shift_axis u lon0 (360 * u) d xs = Ok xs' ->
  shift_row u lon0 (360 * u) xs row = Ok row' ->
  (* if the last column is taken as a copy of the first one, it is one *)
  (shift_offset u (360 * u) xs = Ok 1%nat ->
     nth (length xs - 1) xs 0 - nth 0 xs 0 = 360 * u /\
     nth (length xs - 1) row dd = nth 0 row dd) ->
  forall j, (j < length xs)%nat -> exists k, (k < length xs)%nat /\
    nth k row' dd = nth j row dd /\ same_meridian u (nth k xs' 0) (nth j xs 0).
Proof.
  intros HL Hx Hr Hdup j Hj.
  destruct (shift_axis_ok_inv _ _ _ _ _ _ Hx) as (i0 & o & Hi & Ho).
  pose proof (shift_axis_nth _ _ _ _ _ _ _ _ Hx Hi Ho) as (L1 & Hpos & Nx).
  pose proof (shift_row_nth _ _ _ _ _ _ _ _ dd HL Hr Hi Ho) as (L2 & Nr).
  pose proof (shift_offset_01 _ _ _ _ Ho) as Ho1.
  set (n := length xs) in *.
  assert (key : forall k, (k < n)%nat ->
    same_meridian u (nth k xs' 0) (nth (shifted_src i0 o n k) xs 0)).
  { intros k Hk. rewrite Nx by auto. unfold shifted_x, shifted_src.
    destruct (k <? n - i0)%nat; destruct d;
      solve [exists 0; lia | exists 1; lia | exists (-1); lia]. }
  destruct (Nat.le_gt_cases i0 j) as [Hge|Hlt].
  - exists (j - i0)%nat.
    assert (E : shifted_src i0 o n (j - i0) = j).
    { unfold shifted_src. destruct (j - i0 <? n - i0)%nat eqn:E; lia. }
    repeat split; [lia| |].
    + rewrite Nr by lia. now rewrite E.
    + pose proof (key (j - i0)%nat ltac:(lia)) as K. now rewrite E in K.
  - destruct o as [|[|o]]; [| |lia].
    + exists (j + (n - i0))%nat.
      assert (E : shifted_src i0 0 n (j + (n - i0)) = j).
      { unfold shifted_src. destruct (j + (n - i0) <? n - i0)%nat eqn:E; lia. }
      repeat split; [lia| |].
      * rewrite Nr by lia. now rewrite E.
      * pose proof (key (j + (n - i0))%nat ltac:(lia)) as K. now rewrite E in K.
    + destruct (Hdup Ho) as [Dx Dr].
      destruct j as [|j].
      * (* first column: its copy at the end *)
        exists (n - 1 - i0)%nat.
        assert (E : shifted_src i0 1 n (n - 1 - i0) = (n - 1)%nat).
        { unfold shifted_src. destruct (n - 1 - i0 <? n - i0)%nat eqn:E; lia. }
        repeat split; [lia| |].
        -- rewrite Nr by lia. rewrite E. exact Dr.
        -- destruct (key (n - 1 - i0)%nat ltac:(lia)) as [q Hq]. rewrite E in Hq.
           exists (q + 1). lia.
      * exists (j + (n - i0))%nat.
        assert (E : shifted_src i0 1 n (j + (n - i0)) = S j).
        { unfold shifted_src. destruct (j + (n - i0) <? n - i0)%nat eqn:E; lia. }
        repeat split; [lia| |].
        -- rewrite Nr by lia. now rewrite E.
        -- pose proof (key (j + (n - i0))%nat ltac:(lia)) as K. now rewrite E in K.
Qed.

Lemma shift_increasing u lon0 d xs xs' :
  d = East \/ d = West ->
  increasing xs ->
  (forall i j, (i < length xs)%nat -> (j < length xs)%nat ->
      nth j xs 0 - nth i xs 0 <= 360 * u) ->
  (shift_offset u (360 * u) xs = Ok 0%nat ->
     nth (length xs - 1) xs 0 - nth 0 xs 0 < 360 * u) ->
  shift_axis u lon0 (360 * u) d xs = Ok xs' ->
  increasing xs'.
Proof.
  intros Hd Hinc Hspan Hstrict Hx.
  destruct (shift_axis_ok_inv _ _ _ _ _ _ Hx) as (i0 & o & Hi & Ho).
  pose proof (shift_axis_nth _ _ _ _ _ _ _ _ Hx Hi Ho) as (L1 & Hpos & Nx).
  pose proof (shift_offset_01 _ _ _ _ Ho) as Ho1.
  set (n := length xs) in *.
  intros i j Hij. rewrite L1 in Hij. rewrite !Nx by lia. unfold shifted_x.
  assert (M : forall a b, (a < b < n)%nat -> nth a xs 0 < nth b xs 0) by (intros; apply Hinc; lia).
  destruct (i <? n - i0)%nat eqn:Ei; destruct (j <? n - i0)%nat eqn:Ej; try lia.
  - pose proof (M (i0 + i) (i0 + j) ltac:(lia))%nat. lia.
  - (* i in the head, j in the wrapped tail *)
    apply Nat.ltb_lt in Ei. apply Nat.ltb_ge in Ej.
    set (a := (i0 + i)%nat). set (b := (o + (j - (n - i0)))%nat).
    assert (Ha : (a < n)%nat) by (unfold a; lia).
    assert (Hb : (b < n)%nat) by (unfold b; lia).
    assert (K : nth a xs 0 < nth b xs 0 + 360 * u).
    { assert (Hn1 : nth a xs 0 <= nth (n - 1) xs 0).
      { destruct (Nat.eq_dec a (n - 1)) as [->|]; [lia|]. pose proof (M a (n - 1)%nat). lia. }
      assert (H0b : nth 0 xs 0 <= nth b xs 0).
      { destruct b as [|b']; [lia|]. pose proof (M 0%nat (S b')). lia. }
      destruct o as [|[|o]]; [| |lia].
      - specialize (Hstrict Ho). lia.
      - assert (nth 0 xs 0 < nth b xs 0) by (apply M; unfold b; lia).
        specialize (Hspan 0%nat (n - 1)%nat). lia. }
    destruct Hd as [-> | ->]; fold a b; lia.
  - apply Nat.ltb_ge in Ei. apply Nat.ltb_ge in Ej.
    pose proof (M (o + (i - (n - i0))) (o + (j - (n - i0))) ltac:(lia))%nat. lia.
Qed.

(** ** Crop (C32) *)

Lemma flatnonzero_from_spec {A} (f : A -> bool) l : forall i,
  Forall (fun k => (i <= k < i + length l)%nat) (flatnonzero_from i f l).
Proof.
  induction l as [|a l IH]; intros i; cbn [flatnonzero_from length]; [constructor|].
  specialize (IH (S i)).
  assert (Forall (fun k => (i <= k < i + S (length l))%nat) (flatnonzero_from (S i) f l)).
  { eapply Forall_impl; [|exact IH]. intros k Hk. cbn in Hk. lia. }
  destruct (f a); auto. constructor; auto. lia.
Qed.

Lemma flatnonzero_from_In {A} (f : A -> bool) l d : forall i k,
  In k (flatnonzero_from i f l) <->
  ((i <= k < i + length l)%nat /\ f (nth (k - i) l d) = true).
Proof.
  induction l as [|a l IH]; intros i k; cbn [flatnonzero_from length].
  - cbn. split; [tauto|lia].
  - assert (Hrec : In k (flatnonzero_from (S i) f l) <->
       (S i <= k < S i + length l)%nat /\ f (nth (k - i) (a :: l) d) = true).
    { rewrite IH. split; intros [H1 H2]; (split; [lia|]);
      replace (k - i)%nat with (S (k - S i)) in * by lia; exact H2. }
    destruct (f a) eqn:E.
    + cbn [In]. rewrite Hrec. split.
      * intros [<-|[H1 H2]]; [|split; [lia|auto]]. rewrite Nat.sub_diag. cbn; split; [lia|auto].
      * intros [H1 H2]. destruct (Nat.eq_dec i k); [now left|right; split; [lia|auto]].
    + rewrite Hrec. split; intros [H1 H2]; (split; [|auto]); [lia|].
      destruct (Nat.eq_dec i k) as [->|]; [|lia].
      rewrite Nat.sub_diag in H2. cbn in H2. congruence.
Qed.

(** The indices selected by a range test on an increasing axis are an interval. *)
Lemma last_In {A} (l : list A) d : l <> [] -> In (last l d) l.
Proof.
  intros H. rewrite last_nth. apply nth_In. destruct l; cbn; [congruence|lia].
Qed.

Lemma flatnonzero_from_sorted {A} (f : A -> bool) l : forall i k,
  In k (flatnonzero_from i f l) ->
  (hd k (flatnonzero_from i f l) <= k)%nat /\ (k <= last (flatnonzero_from i f l) k)%nat.
Proof.
  induction l as [|a l IH]; intros i k; cbn [flatnonzero_from]; [intros []|].
  destruct (f a); [|apply IH].
  intros [<-|H].
  - cbn [hd]. split; [lia|].
    destruct (flatnonzero_from (S i) f l) as [|b t] eqn:E; [cbn; lia|].
    change (last (i :: b :: t) i) with (last (b :: t) i).
    assert (Hin : In (last (b :: t) i) (flatnonzero_from (S i) f l)).
    { rewrite E. apply last_In; congruence. }
    pose proof (flatnonzero_from_spec f l (S i)) as F. rewrite Forall_forall in F.
    specialize (F _ Hin). lia.
  - cbn [hd]. pose proof (flatnonzero_from_spec f l (S i)) as F. rewrite Forall_forall in F.
    pose proof (F _ H) as Hk. cbn in Hk. split; [lia|].
    destruct (IH (S i) k H) as [_ H2].
    destruct (flatnonzero_from (S i) f l) as [|b t] eqn:E; [destruct H|].
    change (last (i :: b :: t) k) with (last (b :: t) k). exact H2.
Qed.

Definition interval_closed (f : Z -> bool) : Prop :=
  forall a b c, a <= b <= c -> f a = true -> f c = true -> f b = true.

Lemma in_range_interval lo hi : interval_closed (in_range lo hi).
Proof. unfold interval_closed, in_range. intros. lia. Qed.

Lemma slice_full {A} (l : list A) b : (length l <= b)%nat -> slice 0 b l = l.
Proof.
  intros H. unfold slice. cbn [skipn]. rewrite Nat.sub_0_r. now apply firstn_all2.
Qed.

(** The slice from first to last selected index is exactly the filter, both for
    the axis itself and for any data attached to it. *)
Lemma ind_slice_nth {A} ind (l l' : list A) d i :
  ind_slice ind l = Ok l' -> (forall k, In k ind -> (k < length l)%nat) ->
  hd i ind = nth 0 ind i ->
  length l' = (S (last ind 0) - hd 0 ind)%nat /\
  forall k, (k < length l')%nat -> nth k l' d = nth (hd 0%nat ind + k) l d.
Proof.
  destruct ind as [|j ind]; cbn [ind_slice]; [discriminate|].
  intros <-%Ok_inj Hb _. cbn [hd].
  assert (El : last (j :: ind) j = last (j :: ind) 0%nat).
  { clear. revert j. induction ind as [|a ind IH]; intros; [reflexivity|].
    change (last (a :: ind) j = last (a :: ind) 0%nat).
    destruct ind; [reflexivity|]. 
    rewrite !last_nth. apply nth_indep. cbn; lia. }
  rewrite El.
  assert (Hlast : (last (j :: ind) 0 < length l)%nat) by (apply Hb, last_In; congruence).
  split.
  - rewrite slice_length by lia. reflexivity.
  - intros k Hk. rewrite slice_length in Hk by lia. now rewrite slice_nth.
Qed.

Lemma skipn_skipn' {A} a : forall b (l : list A), skipn a (skipn b l) = skipn (b + a) l.
Proof. intros b; induction b as [|b IH]; intros [|x l]; cbn; auto. now destruct a. Qed.

Lemma combine_skipn {A B} k : forall (l : list A) (l' : list B),
  skipn k (combine l l') = combine (skipn k l) (skipn k l').
Proof.
  induction k as [|k IH]; intros [|a l] [|b l']; cbn [skipn combine]; auto.
  now destruct (skipn k l).
Qed.

(** Exactly the in-range nodes survive, in order, with their data. *)
Lemma flat_hd_last (f : Z -> bool) xs :
  flatnonzero f xs <> [] ->
  let ind := flatnonzero f xs in
  let a := hd 0%nat ind in let b := last ind 0%nat in
  (a <= b < length xs)%nat /\ f (nth a xs 0) = true /\ f (nth b xs 0) = true /\
  (forall k, (k < length xs)%nat -> f (nth k xs 0) = true -> (a <= k <= b)%nat).
Proof.
  intros Hne ind a b. unfold ind, a, b in *.
  assert (Ha : In (hd 0%nat (flatnonzero f xs)) (flatnonzero f xs)).
  { destruct (flatnonzero f xs); [congruence|now left]. }
  assert (Hb : In (last (flatnonzero f xs) 0%nat) (flatnonzero f xs)) by now apply last_In.
  pose proof Ha as Ha'. pose proof Hb as Hb'.
  unfold flatnonzero in Ha', Hb'.
  apply (flatnonzero_from_In f xs 0) in Ha'. apply (flatnonzero_from_In f xs 0) in Hb'.
  rewrite Nat.sub_0_r in Ha', Hb'. fold (flatnonzero f xs) in *.
  destruct (flatnonzero_from_sorted f xs 0%nat _ Hb) as [Hs _].
  fold (flatnonzero f xs) in Hs.
  assert (Hh : hd (last (flatnonzero f xs) 0%nat) (flatnonzero f xs) = hd 0%nat (flatnonzero f xs)).
  { destruct (flatnonzero f xs); [congruence|reflexivity]. }
  rewrite Hh in Hs.
  repeat split; try lia; try tauto.
  - assert (In k (flatnonzero f xs)).
    { unfold flatnonzero. apply (flatnonzero_from_In f xs 0). rewrite Nat.sub_0_r. split; [lia|auto]. }
    destruct (flatnonzero_from_sorted f xs 0%nat k H1) as [H2 _]. fold (flatnonzero f xs) in H2.
    destruct (flatnonzero f xs); [destruct H1|exact H2].
  - assert (In k (flatnonzero f xs)).
    { unfold flatnonzero. apply (flatnonzero_from_In f xs 0). rewrite Nat.sub_0_r. split; [lia|auto]. }
    destruct (flatnonzero_from_sorted f xs 0%nat k H1) as [_ H2]. fold (flatnonzero f xs) in H2.
    rewrite last_nth in *. erewrite nth_indep; [exact H2|].
    destruct (flatnonzero f xs); [congruence|cbn; lia].
Qed.

Lemma filter_combine_slice {A} (f : Z -> bool) xs (row : list A) :
  length row = length xs -> increasing xs -> interval_closed f ->
  flatnonzero f xs <> [] ->
  exists xs' row', ind_slice (flatnonzero f xs) xs = Ok xs' /\
    ind_slice (flatnonzero f xs) row = Ok row' /\ length xs' = length row' /\
    combine xs' row' = filter (fun p => f (fst p)) (combine xs row).
Proof.
  intros HL Hinc Hf Hne.
  pose proof (flat_hd_last f xs Hne) as (Hab & Hfa & Hfb & Hall). cbv zeta in *.
  set (ind := flatnonzero f xs) in *.
  set (a := hd 0%nat ind) in *. set (b := last ind 0%nat) in *.
  assert (Es : forall {B} (l : list B), ind_slice ind l = Ok (slice a (S b) l)).
  { intros B l. unfold a, b. destruct ind as [|j t] eqn:E; [congruence|]. cbn [ind_slice hd].
    do 2 f_equal. rewrite !last_nth. f_equal. apply nth_indep. cbn; lia. }
  exists (slice a (S b) xs), (slice a (S b) row). rewrite !Es. repeat split.
  { rewrite !slice_length; lia. }
  (* combine commutes with slice; then split the list in three parts *)
  assert (Ec : combine (slice a (S b) xs) (slice a (S b) row) = slice a (S b) (combine xs row)).
  { unfold slice. now rewrite combine_skipn, combine_firstn. }
  rewrite Ec.
  set (l := combine xs row).
  assert (Hl : length l = length xs) by (unfold l; rewrite combine_length; lia).
  assert (Split : l = firstn a l ++ slice a (S b) l ++ skipn (S b) l).
  { unfold slice. rewrite <- (firstn_skipn a l) at 1. f_equal.
    rewrite <- (firstn_skipn (S b - a) (skipn a l)) at 1. f_equal.
    rewrite skipn_skipn'. f_equal. lia. }
  assert (Hfst : forall k d, (k < length xs)%nat -> fst (nth k l d) = nth k xs 0).
  { intros k [d1 d2] Hk. unfold l. rewrite combine_nth by auto. cbn. apply nth_indep; auto. }
  rewrite Split at 2. rewrite !filter_app.
  assert (F1 : filter (fun p => f (fst p)) (firstn a l) = []).
  { assert (K : forall q, In q (firstn a l) -> f (fst q) = false).
    { intros q Hq. destruct (In_nth _ _ q Hq) as (k & Hk & Ek).
      rewrite firstn_length in Hk. rewrite nth_firstn in Ek by lia.
      rewrite <- Ek, Hfst by lia. destruct (f (nth k xs 0)) eqn:E; auto.
      specialize (Hall k ltac:(lia) E). lia. }
    revert K. generalize (firstn a l). induction l0 as [|q l0 IH]; intros K; cbn; auto.
    rewrite K by now left. apply IH. intros; apply K; now right. }
  assert (F3 : filter (fun p => f (fst p)) (skipn (S b) l) = []).
  { assert (K : forall q, In q (skipn (S b) l) -> f (fst q) = false).
    { intros q Hq. destruct (In_nth _ _ q Hq) as (k & Hk & Ek).
      rewrite skipn_length in Hk. rewrite nth_skipn in Ek.
      rewrite <- Ek, Hfst by lia. destruct (f (nth (S b + k) xs 0)) eqn:E; auto.
      specialize (Hall (S b + k)%nat ltac:(lia) E). lia. }
    revert K. generalize (skipn (S b) l). induction l0 as [|q l0 IH]; intros K; cbn; auto.
    rewrite K by now left. apply IH. intros; apply K; now right. }
  rewrite F1, F3, app_nil_r. cbn [app].
  symmetry. 
  assert (K : forall q, In q (slice a (S b) l) -> f (fst q) = true).
  { intros q Hq. destruct (In_nth _ _ q Hq) as (k & Hk & Ek).
    rewrite slice_length in Hk by lia. rewrite slice_nth in Ek by lia.
    rewrite <- Ek, Hfst by lia.
    apply Hf with (nth a xs 0) (nth b xs 0); auto. split.
    - destruct (Nat.eq_dec k 0) as [->|]; [rewrite Nat.add_0_r; lia|].
      pose proof (Hinc a (a + k)%nat). lia.
    - destruct (Nat.eq_dec (a + k) b) as [->|]; [lia|].
      pose proof (Hinc (a + k)%nat b). lia. }
  revert K. generalize (slice a (S b) l). induction l0 as [|q l0 IH]; intros K; cbn; auto.
  rewrite K by now left. f_equal. apply IH. intros; apply K; now right.
Qed.
