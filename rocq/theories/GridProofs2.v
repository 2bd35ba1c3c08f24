(** Proofs: cropping, longitude conventions and the ocean pole tide map. *)
From Coq Require Import List ZArith Lia Bool ZifyBool ZifyNat.
From Verif Require Import PyBase GridModel GridSpec GridProofs.
Import ListNotations.
Open Scope Z_scope.

(** ** mapM *)

Lemma mapM_ok {A B} (f : A -> res B) l l' :
  mapM f l = Ok l' ->
  length l' = length l /\
  forall i a, nth_error l i = Some a -> exists b, f a = Ok b /\ nth_error l' i = Some b.
Proof.
  revert l'; induction l as [|a l IH]; intros l'; cbn [mapM].
  - intros <-%Ok_inj. split; auto. intros [|i] a; discriminate.
  - destruct (f a) as [b|] eqn:E; cbn [bind]; [|discriminate].
    destruct (mapM f l) as [bs|] eqn:E2; cbn [bind]; [|discriminate].
    intros <-%Ok_inj. destruct (IH bs eq_refl) as [L H]. split; [cbn; lia|].
    intros [|i] a' Ha; cbn in *; [injection Ha as <-; eauto|eauto].
Qed.

Lemma mapM_total {A B} (f : A -> res B) l :
  (forall a, In a l -> is_ok (f a) = true) -> exists l', mapM f l = Ok l'.
Proof.
  induction l as [|a l IH]; intros H; cbn [mapM]; [eauto|].
  pose proof (H a (or_introl eq_refl)). destruct (f a); [|discriminate]. cbn [bind].
  destruct IH as [l' ->]; [intros; apply H; now right|]. cbn [bind]. eauto.
Qed.

Lemma In_combine_nth {A B} (l : list A) (l' : list B) a b :
  In (a, b) (combine l l') <-> exists j, nth_error l j = Some a /\ nth_error l' j = Some b.
Proof.
  revert l'; induction l as [|x l IH]; intros [|y l']; cbn [combine In].
  - split; [tauto|]. intros (j & H & _). destruct j; discriminate.
  - split; [tauto|]. intros (j & H & _). destruct j; discriminate.
  - split; [tauto|]. intros (j & _ & H). destruct j; discriminate.
  - rewrite IH. split.
    + intros [[= -> ->]|(j & H)]; [exists 0%nat; auto|exists (S j); auto].
    + intros ([|j] & H1 & H2); cbn in *; [left; congruence|right; eauto].
Qed.

Lemma node_combine {A} (m : list (list A)) xs ys x y v :
  node m xs ys x y v <->
  exists row, In (y, row) (combine ys m) /\ In (x, v) (combine xs row).
Proof.
  unfold node. split.
  - intros (i & j & row & H). exists row. rewrite !In_combine_nth. split; [exists i|exists j]; tauto.
  - intros (row & H1 & H2). apply In_combine_nth in H1. apply In_combine_nth in H2.
    destruct H1 as (i & ?), H2 as (j & ?). exists i, j, row. tauto.
Qed.

(** the part of [crop] after the longitude convention has been settled *)
Definition crop_core {A} (b : bbox) (buf : Z) (m : list (list A)) (xs ys : list Z)
  : res (list (list A) * list Z * list Z) :=
  do rows <- ind_slice (flatnonzero (in_range (by0 b - buf) (by1 b + buf)) ys) m ;;
  do temp <- mapM (ind_slice (flatnonzero (in_range (bx0 b - buf) (bx1 b + buf)) xs)) rows ;;
  do x <- ind_slice (flatnonzero (in_range (bx0 b - buf) (bx1 b + buf)) xs) xs ;;
  do y <- ind_slice (flatnonzero (in_range (by0 b - buf) (by1 b + buf)) ys) ys ;;
  Ok (temp, x, y).

Lemma crop_none {A} u geo b buf (m : list (list A)) xs ys :
  crop_convention u geo b xs = Ok None -> crop u geo b buf m xs ys = crop_core b buf m xs ys.
Proof. unfold crop. intros ->. reflexivity. Qed.

Lemma crop_some {A} u geo b buf (m : list (list A)) xs ys x0 d r :
  crop_convention u geo b xs = Ok (Some (x0, d)) ->
  crop u geo b buf m xs ys = Ok r ->
  exists xs1 m1, shift_axis u x0 (360 * u) d xs = Ok xs1 /\
    mapM (shift_row u x0 (360 * u) xs) m = Ok m1 /\ crop_core b buf m1 xs1 ys = Ok r.
Proof.
  unfold crop. intros ->. cbn [bind].
  destruct (shift_axis u x0 (360 * u) d xs) as [xs1|]; cbn [bind]; [|discriminate].
  destruct (mapM (shift_row u x0 (360 * u) xs) m) as [m1|]; cbn [bind]; [|discriminate].
  intros H. exists xs1, m1. auto.
Qed.

Lemma map_fst_combine {A B} (l : list A) (l' : list B) :
  length l = length l' -> map fst (combine l l') = l.
Proof.
  revert l'; induction l as [|a l IH]; intros [|b l'] H; cbn in *; try lia; auto.
  now rewrite IH by lia.
Qed.

Lemma filter_map_fst {A B} (f : A -> bool) (l : list (A * B)) :
  map fst (filter (fun p => f (fst p)) l) = filter f (map fst l).
Proof. induction l as [|[a b] l IH]; cbn; auto. destruct (f a); cbn; now rewrite IH. Qed.

Lemma flatnonzero_nil_iff f (xs : list Z) :
  flatnonzero f xs = [] <-> filter f xs = [].
Proof.
  unfold flatnonzero. generalize 0%nat. induction xs as [|x xs IH]; intros i; cbn; [tauto|].
  destruct (f x); [split; discriminate|apply IH].
Qed.

Lemma crop_core_spec {A} b buf (m : list (list A)) xs ys m' xs' ys' :
  grid m xs ys -> increasing xs -> increasing ys ->
  crop_core b buf m xs ys = Ok (m', xs', ys') ->
  xs' = filter (in_range (bx0 b - buf) (bx1 b + buf)) xs /\
  ys' = filter (in_range (by0 b - buf) (by1 b + buf)) ys /\
  grid m' xs' ys' /\
  forall x y v, node m' xs' ys' x y v <->
    node m xs ys x y v /\ within (bx0 b - buf) (bx1 b + buf) x /\
    within (by0 b - buf) (by1 b + buf) y.
Proof.
  intros [G1 G2] Hx Hy. unfold crop_core.
  set (fx := in_range (bx0 b - buf) (bx1 b + buf)).
  set (fy := in_range (by0 b - buf) (by1 b + buf)).
  assert (Ix : interval_closed fx) by apply in_range_interval.
  assert (Iy : interval_closed fy) by apply in_range_interval.
  destruct (list_eq_dec Nat.eq_dec (flatnonzero fy ys) []) as [Ey|Ey].
  { rewrite Ey. cbn. discriminate. }
  destruct (filter_combine_slice fy ys m G1 Hy Iy Ey) as (ys1 & m1 & E1 & E2 & L1 & C1).
  rewrite E1, E2. cbn [bind].
  destruct (mapM (ind_slice (flatnonzero fx xs)) m1) as [m2|] eqn:Em; cbn [bind]; [|discriminate].
  destruct (list_eq_dec Nat.eq_dec (flatnonzero fx xs) []) as [Ex|Ex].
  { rewrite Ex. cbn. discriminate. }
  destruct (filter_combine_slice fx xs xs eq_refl Hx Ix Ex) as (xs1 & xs1' & E3 & _ & _ & _).
  rewrite E3. cbn [bind]. intros H%Ok_inj. injection H as <- <- <-.
  assert (Hys : ys1 = filter fy ys).
  { rewrite <- (map_fst_combine ys1 m1 L1), C1, filter_map_fst, map_fst_combine; auto. }
  destruct (mapM_ok _ _ _ Em) as [L2 Hm].
  assert (Hrows : forall row, In row m1 -> length row = length xs /\
            exists row', ind_slice (flatnonzero fx xs) row = Ok row' /\
              length xs1 = length row' /\
              combine xs1 row' = filter (fun p => fx (fst p)) (combine xs row)).
  { intros row Hrow.
    assert (Hlen : length row = length xs).
    { rewrite Forall_forall in G2. apply G2.
      destruct (In_nth_error _ _ Hrow) as [i Hi].
      assert (Hi' : exists y, nth_error ys1 i = Some y).
      { destruct (nth_error ys1 i) eqn:E; [eauto|]. apply nth_error_None in E.
        assert (nth_error m1 i <> None) by congruence. apply nth_error_Some in H. lia. }
      destruct Hi' as [y Hy'].
      assert (In (y, row) (combine ys1 m1)) by (apply In_combine_nth; eauto).
      rewrite C1 in H. apply filter_In in H. destruct H as [H _].
      now apply in_combine_r in H. }
    split; auto.
    destruct (filter_combine_slice fx xs row Hlen Hx Ix Ex) as (a & row' & F1 & F2 & F3 & F4).
    rewrite E3 in F1. apply Ok_inj in F1. subst a. eauto. }
  assert (Hxs : xs1 = filter fx xs).
  { destruct (filter_combine_slice fx xs xs eq_refl Hx Ix Ex) as (a & c & F1 & F2 & F3 & F4).
    rewrite E3 in F1, F2. apply Ok_inj in F1, F2. subst a c.
    rewrite <- (map_fst_combine xs1 xs1 eq_refl), F4, filter_map_fst, map_fst_combine; auto. }
  repeat split; auto.
  - lia.
  - apply Forall_forall. intros row' Hr. destruct (In_nth_error _ _ Hr) as [i Hi].
    assert (Hi2 : exists row, nth_error m1 i = Some row).
    { destruct (nth_error m1 i) eqn:E; [eauto|]. apply nth_error_None in E.
      assert (nth_error m2 i <> None) by congruence. apply nth_error_Some in H. lia. }
    destruct Hi2 as [row Hrow]. destruct (Hm _ _ Hrow) as (r2 & Hr1 & Hr2).
    destruct (Hrows row (nth_error_In _ _ Hrow)) as (_ & r3 & K1 & K2 & _).
    congruence.
  - (* node -> *)
    apply node_combine in H. destruct H as (row' & N1 & N2).
    apply In_combine_nth in N1. destruct N1 as (i & Yi & Ri).
    assert (Hi2 : exists row, nth_error m1 i = Some row).
    { destruct (nth_error m1 i) eqn:E; [eauto|]. apply nth_error_None in E.
      assert (nth_error m2 i <> None) by congruence. apply nth_error_Some in H. lia. }
    destruct Hi2 as [row Hrow]. destruct (Hm _ _ Hrow) as (r2 & Hr1 & Hr2).
    destruct (Hrows row (nth_error_In _ _ Hrow)) as (_ & r3 & K1 & K2 & K3).
    assert (r3 = row') by congruence. subst r3. rewrite K3 in N2.
    apply filter_In in N2. apply node_combine. exists row. split; [|tauto].
    assert (In (y, row) (combine ys1 m1)) by (apply In_combine_nth; eauto).
    rewrite C1 in H. now apply filter_In in H.
  - apply node_combine in H. destruct H as (row' & N1 & N2).
    apply In_combine_nth in N1. destruct N1 as (i & Yi & Ri).
    assert (Hin : In x xs1) by now apply in_combine_l in N2.
    rewrite Hxs in Hin. apply filter_In in Hin. unfold fx, in_range in Hin. lia.
  - apply node_combine in H. destruct H as (row' & N1 & N2).
    assert (Hin : In x xs1) by now apply in_combine_l in N2.
    rewrite Hxs in Hin. apply filter_In in Hin. unfold fx, in_range in Hin. lia.
  - apply node_combine in H. destruct H as (row' & N1 & N2).
    assert (Hin : In y ys1) by now apply in_combine_l in N1.
    rewrite Hys in Hin. apply filter_In in Hin. unfold fy, in_range in Hin. lia.
  - apply node_combine in H. destruct H as (row' & N1 & N2).
    assert (Hin : In y ys1) by now apply in_combine_l in N1.
    rewrite Hys in Hin. apply filter_In in Hin. unfold fy, in_range in Hin. lia.
  - intros (H & Wx & Wy). apply node_combine in H. destruct H as (row & N1 & N2).
    assert (M1 : In (y, row) (combine ys1 m1)).
    { rewrite C1. apply filter_In. split; auto. unfold fy, in_range, within in *. cbn [fst]. lia. }
    apply In_combine_nth in M1. destruct M1 as (i & Yi & Ri).
    destruct (Hm _ _ Ri) as (row' & R1 & R2).
    destruct (Hrows row (nth_error_In _ _ Ri)) as (_ & r3 & K1 & K2 & K3).
    assert (r3 = row') by congruence. subst r3.
    apply node_combine. exists row'. split.
    + apply In_combine_nth; eauto.
    + rewrite K3. apply filter_In. split; auto. unfold fx, in_range, within in *. cbn [fst]. lia.
Qed.

Lemma crop_core_ok_iff {A} b buf (m : list (list A)) xs ys :
  is_ok (crop_core b buf m xs ys) = true <->
  (exists x, In x xs /\ within (bx0 b - buf) (bx1 b + buf) x) /\
  (exists y, In y ys /\ within (by0 b - buf) (by1 b + buf) y).
Proof.
  unfold crop_core.
  set (fx := in_range (bx0 b - buf) (bx1 b + buf)).
  set (fy := in_range (by0 b - buf) (by1 b + buf)).
  assert (N : forall f (l : list Z), (exists x, In x l /\ f x = true) <-> flatnonzero f l <> []).
  { intros f l. rewrite flatnonzero_nil_iff. split.
    - intros (x & H). intros E. assert (In x (filter f l)) by now apply filter_In.
      rewrite E in H0. destruct H0.
    - intros H. destruct (filter f l) as [|x t] eqn:E; [congruence|].
      exists x. apply filter_In. rewrite E. now left. }
  assert (Wx : (exists x, In x xs /\ within (bx0 b - buf) (bx1 b + buf) x) <-> flatnonzero fx xs <> []).
  { rewrite <- N. unfold fx, in_range, within.
    split; intros (x & H1 & H2); exists x; split; auto; lia. }
  assert (Wy : (exists x, In x ys /\ within (by0 b - buf) (by1 b + buf) x) <-> flatnonzero fy ys <> []).
  { rewrite <- N. unfold fy, in_range, within.
    split; intros (x & H1 & H2); exists x; split; auto; lia. }
  rewrite Wx, Wy. clear.
  destruct (flatnonzero fy ys) as [|j t]; [cbn; split; [discriminate|tauto]|]. cbn [ind_slice bind].
  destruct (flatnonzero fx xs) as [|j' t'].
  - match goal with |- context [mapM ?f ?l] => destruct (mapM f l) end; cbn; split; try discriminate; tauto.
  - match goal with |- context [mapM ?f ?l] => destruct (mapM_total f l) as [l' ->]; [reflexivity|] end.
    cbn. split; [split; discriminate|reflexivity].
Qed.

Lemma crop_core_err {A} b buf (m : list (list A)) xs ys e :
  crop_core b buf m xs ys = Err e -> e = IndexError.
Proof.
  unfold crop_core.
  set (fx := in_range (bx0 b - buf) (bx1 b + buf)).
  set (fy := in_range (by0 b - buf) (by1 b + buf)).
  destruct (flatnonzero fy ys) as [|j t]; [cbn; congruence|]. cbn [ind_slice bind].
  destruct (flatnonzero fx xs) as [|j' t'].
  - assert (K : forall l : list (list A), mapM (ind_slice []) l = Ok (@nil (list A)) \/ mapM (@ind_slice A []) l = Err IndexError).
    { intros [|]; cbn; auto. }
    match goal with |- context [mapM ?f ?l] => destruct (K l) as [-> | ->] end; cbn; congruence.
  - match goal with |- context [mapM ?f ?l] => destruct (mapM_total f l) as [l' ->]; [reflexivity|] end.
    cbn. discriminate.
Qed.

(** shifting a whole matrix *)
Lemma shift_grid {A} u x0 d (m m1 : list (list A)) xs xs1 ys :
  grid m xs ys ->
  shift_axis u x0 (360 * u) d xs = Ok xs1 ->
  mapM (shift_row u x0 (360 * u) xs) m = Ok m1 ->
  grid m1 xs1 ys /\
  forall x y v, node m1 xs1 ys x y v -> exists x', same_meridian u x x' /\ node m xs ys x' y v.
Proof.
  intros [G1 G2] Hs Hm. rewrite Forall_forall in G2.
  destruct (mapM_ok _ _ _ Hm) as [L Hr].
  assert (Hrow : forall i r1, nth_error m1 i = Some r1 ->
     exists r, nth_error m i = Some r /\ shift_row u x0 (360 * u) xs r = Ok r1).
  { intros i r1 Hi. destruct (nth_error m i) as [r|] eqn:E.
    - destruct (Hr _ _ E) as (b & B1 & B2). exists r. split; congruence.
    - apply nth_error_None in E. assert (nth_error m1 i <> None) by congruence.
      apply nth_error_Some in H. lia. }
  split.
  - split; [lia|]. apply Forall_forall. intros r1 Hin.
    destruct (In_nth_error _ _ Hin) as [i Hi]. destruct (Hrow _ _ Hi) as (r & R1 & R2).
    destruct r1 as [|a0 r1'].
    + pose proof (G2 _ (nth_error_In _ _ R1)) as HL.
      unfold shift_row in R2. destruct (shift_axis_ok_inv _ _ _ _ _ _ Hs) as (i0 & o & I1 & I2).
      rewrite I1, I2 in R2. cbn [bind] in R2.
      pose proof (shift_axis_nth _ _ _ _ _ _ _ _ Hs I1 I2) as (L1 & L2 & _).
      destruct (rotate_list i0 o r) as [p|] eqn:Ep; cbn [bind] in R2; [|discriminate].
      unfold rotate_list in Ep. destruct i0; [discriminate|]. apply Ok_inj in Ep. subst p.
      apply Ok_inj in R2. cbn [fst snd] in R2. apply app_eq_nil in R2. destruct R2 as [R2 _].
      apply (f_equal (@length A)) in R2. rewrite skipn_length in R2. cbn in R2. lia.
    + pose proof (G2 _ (nth_error_In _ _ R1)) as HL.
      destruct (shift_assoc u x0 d xs r xs1 _ a0 HL Hs R2) as (P1 & P2 & _). lia.
  - intros x y v (i & j & r1 & Y & X & M & V).
    destruct (Hrow _ _ M) as (r & R1 & R2).
    pose proof (G2 _ (nth_error_In _ _ R1)) as HL.
    destruct (shift_assoc u x0 d xs r xs1 r1 v HL Hs R2) as (P1 & P2 & P3).
    assert (Hj : (j < length xs)%nat).
    { rewrite <- P1. apply nth_error_Some. congruence. }
    destruct (P3 j Hj) as (j' & J1 & J2 & J3).
    exists (nth j' xs 0). split.
    + apply nth_error_nth with (d := 0) in X. now rewrite X in J3.
    + exists i, j', r. repeat split; auto.
      * now apply nth_error_nth'.
      * apply nth_error_nth with (d := v) in V. rewrite V in J2. rewrite J2.
        apply nth_error_nth'. lia.
Qed.

Lemma crop_shift_sound {A} u geo b buf (m : list (list A)) xs ys m' xs' ys' x0 d :
  grid m xs ys -> increasing xs -> increasing ys ->
  (forall i j, (i < length xs)%nat -> (j < length xs)%nat ->
      nth j xs 0 - nth i xs 0 < 360 * u) ->
  crop_convention u geo b xs = Ok (Some (x0, d)) ->
  crop u geo b buf m xs ys = Ok (m', xs', ys') ->
  grid m' xs' ys' /\
  (forall x y v, node m' xs' ys' x y v ->
     within (bx0 b - buf) (bx1 b + buf) x /\ within (by0 b - buf) (by1 b + buf) y /\
     exists x1, same_meridian u x x1 /\ node m xs ys x1 y v).
Proof.
  intros G Hx Hy Hspan Hc Hcrop.
  destruct (crop_some _ _ _ _ _ _ _ _ _ _ Hc Hcrop) as (xs1 & m1 & S1 & S2 & S3).
  destruct (shift_grid _ _ _ _ _ _ _ _ G S1 S2) as [G' Hn].
  assert (Hd : d = East \/ d = West).
  { unfold crop_convention in Hc. destruct (np_max xs); cbn in Hc; [|discriminate].
    destruct (np_min xs); cbn in Hc; [|discriminate]. apply Ok_inj in Hc.
    destruct (geo && _ && _)%bool; [injection Hc as <- <-; auto|].
    destruct (geo && _ && _)%bool; [injection Hc as <- <-; auto|discriminate]. }
  assert (Hinc : increasing xs1).
  { apply (shift_increasing u x0 d xs); auto.
    - intros i j Hi Hj. specialize (Hspan i j Hi Hj). lia.
    - intros _. destruct xs as [|z xs0]; [cbn in S1; discriminate|].
      apply Hspan; cbn; lia. }
  destruct (crop_core_spec _ _ _ _ _ _ _ _ G' Hinc Hy S3) as (_ & _ & G'' & N).
  split; auto. intros x y v Hv. apply N in Hv. destruct Hv as (Hv & W1 & W2).
  repeat split; try apply W1; try apply W2. now apply Hn.
Qed.

(** ** Longitude conventions (C33) *)

Lemma even_axis_min x0 step n : 0 < step -> (0 < n)%nat ->
  np_min (even_axis x0 step n) = Ok x0.
Proof.
  intros Hs Hn. destruct (np_min (even_axis x0 step n)) as [mn|] eqn:E.
  - apply np_min_ok in E. destruct E as [E1 E2]. apply even_axis_In in E2.
    destruct E2 as (i & Hi & ->).
    assert (In x0 (even_axis x0 step n)) by (apply even_axis_In; exists 0%nat; lia).
    specialize (E1 _ H). f_equal. nia.
  - destruct n; [lia|]. cbn in E. discriminate.
Qed.

Lemma even_axis_max x0 step n : 0 < step -> (0 < n)%nat ->
  np_max (even_axis x0 step n) = Ok (x0 + (Z.of_nat n - 1) * step).
Proof.
  intros Hs Hn. destruct (np_max (even_axis x0 step n)) as [mn|] eqn:E.
  - apply np_max_ok in E. destruct E as [E1 E2]. apply even_axis_In in E2.
    destruct E2 as (i & Hi & ->).
    assert (H : In (x0 + (Z.of_nat n - 1) * step) (even_axis x0 step n)).
    { apply even_axis_In. exists (n - 1)%nat. split; [lia|].
      rewrite Nat2Z.inj_sub by lia. lia. }
    specialize (E1 _ H). f_equal. nia.
  - destruct n; [lia|]. cbn in E. discriminate.
Qed.

Lemma even_axis_ext u x0 step n : global_axis u x0 step n ->
  extend_if_global u step (even_axis x0 step n) = Ok (even_axis (x0 - step) step (n + 2)).
Proof.
  intros (Hu & Hs & Hn). unfold extend_if_global.
  assert (Hn0 : (0 < n)%nat) by nia.
  destruct (even_axis x0 step n) as [|a t] eqn:E.
  { apply (f_equal (@length Z)) in E. rewrite even_axis_length in E. cbn in E. lia. }
  assert (Ha : a = x0).
  { pose proof (even_axis_nth x0 step n 0 0 Hn0). rewrite E in H. cbn in H. lia. }
  assert (Hl : last (a :: t) a = x0 + (Z.of_nat n - 1) * step).
  { rewrite last_nth, <- E, even_axis_length, even_axis_nth by lia.
    rewrite Nat2Z.inj_sub by lia. lia. }
  unfold is_global_axis. rewrite Hl, Ha.
  destruct (x0 + (Z.of_nat n - 1) * step - x0 =? 360 * u - step) eqn:B; [|lia].
  rewrite <- Ha, <- E.
  destruct (extend_array (even_axis x0 step n) step) as [xs'|] eqn:X.
  - apply extend_array_even in X. now rewrite X, Ha.
  - rewrite E in X. cbn in X. discriminate.
Qed.

Lemma per_point_map u (f : Z -> Z) g xs :
  (forall x, In x xs -> same_meridian u (f x) x /\ g (f x) = false) ->
  per_point_ok u xs (map (fun x => (x, g x)) (map f xs)).
Proof.
  intros H. split; [now rewrite !map_length|].
  intros i x Hi. rewrite map_map. exists (f x).
  rewrite nth_error_map, Hi. cbn.
  destruct (H x (nth_error_In _ _ Hi)) as [H1 ->]. auto.
Qed.

Lemma np_min_nonempty x l : exists m, np_min (x :: l) = Ok m.
Proof. cbn; eauto. Qed.

Lemma add_neg_meridian u x : same_meridian u (if x <? 0 then x + 360 * u else x) x.
Proof. destruct (x <? 0); [exists 1|exists 0]; lia. Qed.
Lemma sub_big_meridian u x : same_meridian u (if x >? 180 * u then x - 360 * u else x) x.
Proof. destruct (x >? 180 * u); [exists (-1)|exists 0]; lia. Qed.

Lemma same_meridian_trans u x y z :
  same_meridian u x y -> same_meridian u y z -> same_meridian u x z.
Proof. intros [k1 H1] [k2 H2]. exists (k1 + k2). lia. Qed.

(** the OTIS correction when the axis covers [0,360] or [-180,180] *)
Lemma convention_otis_ok u lo hi xs out :
  0 < u ->
  (forall x, In x xs -> -180 * u <= x <= 360 * u) ->
  (lo <= 0 /\ 360 * u <= hi \/ lo <= -180 * u /\ 180 * u <= hi) ->
  convention_otis u lo hi xs = Ok out ->
  per_point_ok u xs (map (fun x => (x, outside lo hi x)) out).
Proof.
  intros Hu Hq Hc. unfold convention_otis.
  destruct (np_min xs) as [mn|] eqn:Emn; cbn [bind]; [|discriminate].
  apply np_min_ok in Emn. destruct Emn as [Mn1 Mn2].
  destruct (mn <? lo) eqn:B1.
  - destruct (np_max (add_neg u xs)) as [mx|] eqn:Emx; cbn [bind]; [|discriminate].
    apply np_max_ok in Emx. destruct Emx as [Mx1 Mx2].
    assert (Hadd : forall x, In x xs -> (if x <? 0 then x + 360 * u else x) <= mx).
    { intros x Hx. apply Mx1. unfold add_neg. apply in_map_iff. exists x; auto. }
    intros <-%Ok_inj. destruct (mx >? hi) eqn:B2.
    + unfold sub_big, add_neg. rewrite (map_map (fun x => if x <? 0 then x + 360 * u else x)).
      apply per_point_map. intros x Hx. split.
      * eapply same_meridian_trans; [apply sub_big_meridian|apply add_neg_meridian].
      * exfalso. pose proof (Hq _ Mn2).
        unfold add_neg in Mx2. apply in_map_iff in Mx2. destruct Mx2 as (z & Ez & Hz).
        pose proof (Hq z Hz). destruct (z <? 0) eqn:Bz; lia.
    + apply per_point_map. intros x Hx. split; [apply add_neg_meridian|].
      pose proof (Hq _ Mn2). specialize (Hq x Hx). specialize (Hadd x Hx). specialize (Mn1 x Hx).
      unfold outside. destruct (x <? 0) eqn:Bx; lia.
  - destruct (np_max xs) as [mx|] eqn:Emx; cbn [bind]; [|discriminate].
    apply np_max_ok in Emx. destruct Emx as [Mx1 Mx2].
    intros <-%Ok_inj. destruct (mx >? hi) eqn:B2.
    + apply per_point_map. intros x Hx. split; [apply sub_big_meridian|].
      specialize (Mn1 x Hx). specialize (Mx1 x Hx). pose proof (Hq x Hx). pose proof (Hq mx Mx2).
      unfold outside. destruct (x >? 180 * u) eqn:Bs; lia.
    + rewrite <- (map_id xs) at 2. apply per_point_map. intros x Hx.
      split; [apply same_meridian_refl|].
      specialize (Mn1 x Hx). specialize (Mx1 x Hx). unfold outside. lia.
Qed.
