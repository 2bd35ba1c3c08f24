(** C29: nearest-neighbour extrapolation (interpolate.py:279-445). *)
From Coq Require Import Reals List Bool Arith Lra Lia.
From Verif Require Import PyBase RBase MathModel GeoModel ConvertProps InterpModel InterpProps.
Import ListNotations.
Open Scope R_scope.

Definition below (d : R) (c : bound) : Prop := match c with None => True | Some c => d < c end.
Lemma within_iff d c : within d c = true <-> below d c.
Proof. destruct c as [c|]; cbn; [|tauto]. unfold rlt. destruct (Rlt_dec d c); split; auto; discriminate. Qed.

Section General.
  Context {P : Type} (dist : P -> P -> R) (coords : P -> list R).
  Lemma nearest_in q l n : nearest dist q l = Some n -> In n l /\ forall m, In m l -> dist q (fst n) <= dist q (fst m).
  Proof.
    revert n. induction l as [|a l IH]; intros n; cbn [nearest]; [discriminate|].
    destruct (nearest dist q l) as [m|] eqn:E.
    - destruct (IH m eq_refl) as [I L]. unfold rlt. destruct (Rlt_dec _ _) as [D|D]; intros [= <-].
      + split; [now right|]. intros k [<-|K]; [lra | auto].
      + split; [now left|]. intros k [<-|K]; [lra|]. specialize (L k K). lra.
    - intros [= <-]. destruct l; [|cbn in E; destruct (nearest dist q l); [destruct (rlt _ _)|]; discriminate].
      split; [now left|]. intros k [<-|[]]. lra.
  Qed.
  Lemma nearest_none q l : nearest dist q l = None -> l = [].
  Proof. destruct l; auto. cbn. destruct (nearest dist q l); [destruct (rlt _ _)|]; discriminate. Qed.

  Hypothesis coord_le : forall p q k, Rabs (nth k (coords p) 0 - nth k (coords q) 0) <= dist p q.

  Lemma in_bounds_near (c : bound) queries q p : match c with Some c => 0 <= c | None => True end ->
    In q queries -> below (dist q p) c -> in_bounds coords c queries p = true.
  Proof.
    intros Hc Hq Hd. unfold in_bounds. apply forallb_forall. intros k _. unfold in_range. destruct c as [c|]; [|reflexivity].
    cbn in Hd. pose proof (coord_le q p k) as B.
    assert (I : In (nth k (coords q) 0) (map (fun q => nth k (coords q) 0) queries)) by (apply in_map_iff; eauto).
    destruct (map _ queries) as [|a t]; [contradiction|].
    assert (Lo : rmin_list a t <= nth k (coords q) 0) by (destruct I as [->|I]; [apply rmin_list_le | now apply rmin_list_in]).
    assert (Hi : nth k (coords q) 0 <= rmax_list a t) by (destruct I as [->|I]; [apply rmax_list_ge | now apply rmax_list_in]).
    apply andb_true_iff. split; apply rle_t; unfold Rabs in B; destruct (Rcase_abs _) in B; lra.
  Qed.

  Lemma extrapolate_spec c fill nodes queries : match c with Some c => 0 <= c | None => True end -> queries <> [] ->
    exists out, extrapolate dist coords c fill nodes queries = Some out /\ length out = length queries
      /\ forall k q, nth_error queries k = Some q ->
         ((exists n, In n nodes /\ valid_cell (snd n) /\ below (dist q (fst n)) c) ->
            exists n, In n nodes /\ valid_cell (snd n) /\ below (dist q (fst n)) c
              /\ nth k out (Cell fill true) = Cell (cval (snd n)) false
              /\ forall m, In m nodes -> valid_cell (snd m) -> dist q (fst n) <= dist q (fst m))
         /\ (~ (exists n, In n nodes /\ valid_cell (snd n) /\ below (dist q (fst n)) c) -> nth k out (Cell fill true) = Cell fill true).
  Proof.
    intros Hc Hq. unfold extrapolate. destruct queries as [|q0 qs] eqn:Eq; [contradiction|]. rewrite <- Eq in *. clear Eq Hq q0 qs.
    set (near := filter (fun n => in_bounds coords c queries (fst n)) (filter (fun n => usable (snd n)) nodes)).
    eexists. split; [reflexivity|]. split; [apply map_length|]. intros k q Hk.
    assert (Iq : In q queries) by (eapply nth_error_In; eauto).
    rewrite (nth_indep _ _ (match query dist c q near with Some n => Cell (cval (snd n)) false | None => Cell fill true end))
      by (rewrite map_length; apply nth_error_Some; congruence).
    rewrite map_nth with (f := fun q => match query dist c q near with Some n => Cell (cval (snd n)) false | None => Cell fill true end).
    rewrite (nth_error_nth _ _ _ Hk).
    assert (Near : forall n, In n near -> In n nodes /\ valid_cell (snd n)).
    { intros n H. apply filter_In in H as [H _]. apply filter_In in H as [H U]. apply usable_iff in U. auto. }
    assert (Near' : forall n, In n nodes -> valid_cell (snd n) -> below (dist q (fst n)) c -> In n near).
    { intros n H V B. apply filter_In. split; [apply filter_In; split; auto; now apply usable_iff|]. eapply in_bounds_near; eauto. }
    unfold query. split.
    - intros (n & I & V & B). pose proof (Near' n I V B) as In_n.
      destruct (nearest dist q near) as [m|] eqn:E; [|apply nearest_none in E; rewrite E in In_n; contradiction].
      apply nearest_in in E as [Im Lm]. specialize (Lm n In_n) as Ln.
      assert (Bm : below (dist q (fst m)) c) by (destruct c; cbn in *; auto; lra).
      apply within_iff in Bm as Bm'. rewrite Bm'. exists m. destruct (Near m Im) as [Xm Ym]. split; [exact Xm|]. split; [exact Ym|]. split; [exact Bm|]. split; [reflexivity|].
      intros z Iz Vz. destruct (Rle_dec (dist q (fst z)) (dist q (fst m))) as [D|D]; [|lra].
      apply Lm. apply Near'; auto. destruct c; cbn in *; auto; lra.
    - intros N. destruct (nearest dist q near) as [m|] eqn:E; auto. destruct (within _ _) eqn:W; auto.
      exfalso. apply N. apply nearest_in in E as [Im _]. exists m. destruct (Near m Im). apply within_iff in W. auto.
  Qed.
End General.

Lemma sqrt_ge_abs a b : 0 <= b -> Rabs a <= sqrt (a ^ 2 + b).
Proof.
  intros H. rewrite <- (sqrt_Rsqr_abs a). apply sqrt_le_1; [apply Rle_0_sqr | | ]; unfold Rsqr; nra.
Qed.
Lemma coord_le3 p q k : Rabs (nth k (coords3 p) 0 - nth k (coords3 q) 0) <= dist3 p q.
Proof.
  unfold dist3. pose proof (pow2_ge_0 (vx p - vx q)). pose proof (pow2_ge_0 (vy p - vy q)). pose proof (pow2_ge_0 (vz p - vz q)).
  destruct k as [|[|[|k]]]; cbn [coords3 nth].
  - replace (_ + _ + _) with ((vx p - vx q) ^ 2 + ((vy p - vy q) ^ 2 + (vz p - vz q) ^ 2)) by ring. apply sqrt_ge_abs. lra.
  - replace (_ + _ + _) with ((vy p - vy q) ^ 2 + ((vx p - vx q) ^ 2 + (vz p - vz q) ^ 2)) by ring. apply sqrt_ge_abs. lra.
  - replace (_ + _ + _) with ((vz p - vz q) ^ 2 + ((vx p - vx q) ^ 2 + (vy p - vy q) ^ 2)) by ring. apply sqrt_ge_abs. lra.
  - destruct k; cbn [nth]; rewrite Rminus_diag_eq, Rabs_R0 by reflexivity; apply sqrt_pos.
Qed.
Lemma coord_le2 p q k : Rabs (nth k (coords2 p) 0 - nth k (coords2 q) 0) <= dist2 p q.
Proof.
  unfold dist2. pose proof (pow2_ge_0 (fst p - fst q)). pose proof (pow2_ge_0 (snd p - snd q)).
  destruct k as [|[|k]]; cbn [coords2 nth].
  - apply sqrt_ge_abs. lra.
  - rewrite Rplus_comm. apply sqrt_ge_abs. lra.
  - destruct k; cbn [nth]; rewrite Rminus_diag_eq, Rabs_R0 by reflexivity; apply sqrt_pos.
Qed.

Lemma in_combine_nth {A B} (a : list A) (b : list B) da db x y : length a = length b ->
  (In (x, y) (combine a b) <-> exists k, (k < length a)%nat /\ x = nth k a da /\ y = nth k b db).
Proof.
  intros L. split.
  - intros H. apply (In_nth _ _ (da, db)) in H as (k & Hk & E). rewrite combine_length in Hk.
    rewrite combine_nth in E by auto. injection E as <- <-. exists k. split; [lia | auto].
  - intros (k & Hk & -> & ->). rewrite <- combine_nth by auto. apply nth_In. rewrite combine_length. lia.
Qed.
Lemma mesh_in ilon ilat g n : grid_of ilon ilat g ->
  (In n (mesh ilon ilat g) <-> exists i j, (i < length ilon)%nat /\ (j < length ilat)%nat /\ n = ((nth i ilon 0, nth j ilat 0), node g j i)).
Proof.
  intros [L1 L2]. unfold mesh. rewrite in_flat_map. split.
  - intros ([y r] & Hr & Hn). cbn [fst snd] in Hn. apply in_map_iff in Hn as ([x c] & <- & Hc). cbn [fst snd].
    apply (in_combine_nth ilat g 0 []) in Hr as (j & Hj & -> & ->); [|lia].
    apply (in_combine_nth _ _ 0 (Cell Bad true)) in Hc as (i & Hi & -> & ->).
    + exists i, j. auto.
    + rewrite L2; auto. apply nth_In. lia.
  - intros (i & j & Hi & Hj & ->). exists (nth j ilat 0, nth j g []). split.
    + apply (in_combine_nth ilat g 0 []); [lia|]. exists j. auto.
    + cbn [fst snd]. apply in_map_iff. exists (nth i ilon 0, node g j i). split; [reflexivity|].
      apply (in_combine_nth _ _ 0 (Cell Bad true)); [|exists i; auto]. rewrite L2; auto. apply nth_In. lia.
Qed.

(** ** C29 *)
(** Projected grids: each output is the value of a nearest valid node if some valid
    node is closer than the cutoff, and a masked fill value otherwise.  The nearest
    is over the whole grid: the bounding box filter removes nothing relevant. *)
Definition in_grid (ilon ilat : list R) (i j : nat) : Prop := (i < length ilon)%nat /\ (j < length ilat)%nat.
Theorem C29_projected c fill ilon ilat g pts : match c with Some c => 0 <= c | None => True end ->
  grid_of ilon ilat g -> pts <> [] ->
  exists out, extrapolate_projected c fill ilon ilat g pts = Some out /\ length out = length pts
    /\ forall k x y, nth_error pts k = Some (x, y) ->
       let d i j := sqrt ((x - nth i ilon 0) ^ 2 + (y - nth j ilat 0) ^ 2) in
       let usable_at i j := in_grid ilon ilat i j /\ valid_cell (node g j i) /\ below (d i j) c in
       ((exists i j, usable_at i j) ->
          exists i j, usable_at i j /\ nth k out (Cell fill true) = Cell (cval (node g j i)) false
            /\ forall i' j', in_grid ilon ilat i' j' -> valid_cell (node g j' i') -> d i j <= d i' j')
       /\ (~ (exists i j, usable_at i j) -> nth k out (Cell fill true) = Cell fill true).
Proof.
  intros Hc G Hp. destruct (extrapolate_spec dist2 coords2 coord_le2 c fill (mesh ilon ilat g) pts Hc Hp) as (out & E & L & Sp).
  exists out. split; [exact E|]. split; [exact L|]. intros k x y Hk. cbv zeta. destruct (Sp k (x, y) Hk) as [S1 S2]. split.
  - intros (i & j & [Hi Hj] & V & B). destruct S1 as (n & I & Vn & Bn & En & Mn).
    { exists ((nth i ilon 0, nth j ilat 0), node g j i). split; [apply mesh_in; auto; exists i, j; auto|]. split; auto. }
    apply mesh_in in I as (i1 & j1 & H1 & H2 & ->); auto. exists i1, j1. split; [|split].
    + repeat split; auto; apply Vn.
    + exact En.
    + intros i' j' [Hi' Hj'] V'. apply (Mn ((nth i' ilon 0, nth j' ilat 0), node g j' i')); auto. apply mesh_in; auto. exists i', j'. auto.
  - intros N. apply S2. intros (n & I & Vn & Bn). apply N. apply mesh_in in I as (i1 & j1 & H1 & H2 & ->); auto.
    exists i1, j1. repeat split; auto; apply Vn.
Qed.
Print Assumptions C29_projected.

(** Geographic grids: the same with chord distances in kilometres between the points
    on the ellipsoid. *)
Definition chord (p q : R * R) : R := dist3 (on_ellipsoid p) (on_ellipsoid q).
Theorem C29_geographic c fill ilon ilat g pts : match c with Some c => 0 <= c | None => True end ->
  grid_of ilon ilat g -> pts <> [] ->
  exists out, extrapolate_geographic c fill ilon ilat g pts = Some out /\ length out = length pts
    /\ forall k p, nth_error pts k = Some p ->
       let d i j := chord p (nth i ilon 0, nth j ilat 0) in
       let usable_at i j := in_grid ilon ilat i j /\ valid_cell (node g j i) /\ below (d i j) c in
       ((exists i j, usable_at i j) ->
          exists i j, usable_at i j /\ nth k out (Cell fill true) = Cell (cval (node g j i)) false
            /\ forall i' j', in_grid ilon ilat i' j' -> valid_cell (node g j' i') -> d i j <= d i' j')
       /\ (~ (exists i j, usable_at i j) -> nth k out (Cell fill true) = Cell fill true).
Proof.
  intros Hc G Hp. unfold extrapolate_geographic.
  destruct (extrapolate_spec dist3 coords3 coord_le3 c fill (map (fun n => (on_ellipsoid (fst n), snd n)) (mesh ilon ilat g)) (map on_ellipsoid pts) Hc) as (out & E & L & Sp).
  { destruct pts; [contradiction | discriminate]. }
  assert (MI : forall n, In n (map (fun n => (on_ellipsoid (fst n), snd n)) (mesh ilon ilat g)) <->
     exists i j, in_grid ilon ilat i j /\ n = (on_ellipsoid (nth i ilon 0, nth j ilat 0), node g j i)).
  { intros n. rewrite in_map_iff. split.
    - intros (m & <- & I). apply mesh_in in I as (i & j & Hi & Hj & ->); auto. exists i, j. repeat split; auto.
    - intros (i & j & [Hi Hj] & ->). exists ((nth i ilon 0, nth j ilat 0), node g j i). split; [reflexivity|]. apply mesh_in; auto. exists i, j. auto. }
  exists out. split; [exact E|]. split; [now rewrite map_length in L|]. intros k p Hk. cbv zeta. unfold chord.
  destruct (Sp k (on_ellipsoid p)) as [S1 S2]; [now rewrite nth_error_map, Hk|]. split.
  - intros (i & j & Hij & V & B). destruct S1 as (n & I & Vn & Bn & En & Mn).
    { exists (on_ellipsoid (nth i ilon 0, nth j ilat 0), node g j i). split; [apply MI; exists i, j; auto|]. split; auto. }
    apply MI in I as (i1 & j1 & H1 & ->). exists i1, j1. split; [|split].
    + split; [exact H1|]. split; [exact Vn | exact Bn].
    + exact En.
    + intros i' j' H' V'. apply (Mn (on_ellipsoid (nth i' ilon 0, nth j' ilat 0), node g j' i')); auto. apply MI. exists i', j'. auto.
  - intros N. apply S2. intros (n & I & Vn & Bn). apply N. apply MI in I as (i1 & j1 & H1 & ->).
    exists i1, j1. split; [exact H1|]. split; [exact Vn | exact Bn].
Qed.
Print Assumptions C29_geographic.

(** No query points: None instead of an empty array. *)
Theorem C29_no_points c fill ilon ilat g :
  extrapolate_geographic c fill ilon ilat g [] = None /\ extrapolate_projected c fill ilon ilat g [] = None.
Proof. split; reflexivity. Qed.
Print Assumptions C29_no_points.

(** [_distance] is the Euclidean distance. *)
Lemma sumsq_expand a : forall b, length a = length b ->
  sumsq a - 2 * dotl a b + sumsq b = fold_right Rplus 0 (map (fun p => (fst p - snd p) ^ 2) (combine a b)).
Proof.
  unfold sumsq, dotl. induction a as [|x a IH]; intros [|y b] L; try discriminate; cbn [map combine fold_right fst snd]; [ring|].
  rewrite <- IH by (cbn in L; lia). ring.
Qed.
Theorem C29_distance c1 c2 k : (k < length c2)%nat -> (forall r, In r c2 -> length r = length c1) ->
  nth k (distance c1 c2) 0 = sqrt (fold_right Rplus 0 (map (fun p => (fst p - snd p) ^ 2) (combine c1 (nth k c2 [])))).
Proof.
  intros Hk H. unfold distance. rewrite nth_indep with (d' := sqrt (sumsq c1 - 2 * dotl c1 [] + sumsq [])) by (now rewrite map_length).
  rewrite map_nth with (f := fun r => sqrt (sumsq c1 - 2 * dotl c1 r + sumsq r)). f_equal. apply sumsq_expand. symmetry. apply H. now apply nth_In.
Qed.
Print Assumptions C29_distance.

Definition g29 : list (list cell) := [[Cell (Fin 1) false; Cell (Fin 2) true]; [Cell Bad false; Cell (Fin 4) false]].
(** one valid node within 5 of (0, 0), none within 0.5 of (10, 10) *)
Example C29_case : grid_of [3; 4] [4; 5] g29 /\ valid_cell (node g29 0 0) /\ ~ valid_cell (node g29 0 1) /\ ~ valid_cell (node g29 1 0)
  /\ below (sqrt ((0 - 3) ^ 2 + (0 - 4) ^ 2)) (Some 6).
Proof.
  repeat split.
  - intros r H. cbn in H. repeat destruct H as [<-|H]; try reflexivity. contradiction.
  - cbn. eauto.
  - intros [H _]. discriminate.
  - intros [_ [x H]]. discriminate.
  - cbn [below]. replace ((0 - 3) ^ 2 + (0 - 4) ^ 2) with (5 * 5) by ring. rewrite sqrt_square; lra.
Qed.
