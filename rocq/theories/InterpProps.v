(** C27, C28: bilinear interpolation (interpolate.py:35-118). *)
From Coq Require Import Reals List Bool Arith Lra Lia.
From Verif Require Import PyBase RBase MathModel GeoModel ConvertProps InterpModel.
Import ListNotations.
Open Scope R_scope.

(** ** Vocabulary of the statements *)
(** strictly increasing axis with at least one cell *)
Definition axis (l : list R) : Prop :=
  (2 <= length l)%nat /\ forall i j, (i < j < length l)%nat -> nth i l 0 < nth j l 0.
(** one row per latitude, one column per longitude *)
Definition grid_of (ilon ilat : list R) (g : list (list cell)) : Prop :=
  length g = length ilat /\ forall r, In r g -> length r = length ilon.
Definition node (g : list (list cell)) (j i : nat) : cell := nth i (nth j g []) (Cell Bad true).
(** the point lies in cell (i, j), and below the top, above the bottom of the grid *)
Definition in_cell (ilon ilat : list R) (i j : nat) (lon lat : R) : Prop :=
  (S i < length ilon)%nat /\ (S j < length ilat)%nat
  /\ nth i ilon 0 <= lon < nth (S i) ilon 0 /\ nth j ilat 0 <= lat < nth (S j) ilat 0 /\ nth 0 ilat 0 < lat.
(** within numpy's default tolerance *)
Definition close (a b : R) : Prop := Rabs (a - b) <= 1e-8 + 1e-5 * Rabs b.
Definition near_corner (ilon ilat : list R) (i j : nat) (lon lat : R) : Prop :=
  (close lon (nth i ilon 0) \/ close lon (nth (S i) ilon 0)) /\ (close lat (nth j ilat 0) \/ close lat (nth (S j) ilat 0)).
Definition valid_cell (c : cell) : Prop := cmask c = false /\ exists x, cval c = Fin x.

(** ** Lemmas *)
Lemma isclose_t a b : close a b -> isclose a b = true.
Proof. apply rle_t. Qed.
Lemma isclose_f a b : ~ close a b -> isclose a b = false.
Proof. intros H. unfold isclose, rle. destruct (Rle_dec _ _); auto. contradiction. Qed.
Lemma isclose_iff a b : isclose a b = true <-> close a b.
Proof. unfold isclose, close, rle. destruct (Rle_dec _ _); split; auto; discriminate. Qed.
Lemma close_refl a : close a a.
Proof. unfold close. replace (a - a) with 0 by ring. rewrite Rabs_R0. pose proof (Rabs_pos a). lra. Qed.

Lemma axis_tail a b t : axis (a :: b :: t) -> (t <> [] -> axis (b :: t)) /\ a < b /\ (forall k, (k < length t)%nat -> b < nth k t 0).
Proof.
  intros [_ H]. repeat split.
  - destruct t; cbn; [congruence|lia].
  - intros i j Hij. apply (H (S i) (S j)). cbn in *. lia.
  - apply (H 0%nat 1%nat). cbn. lia.
  - intros k Hk. apply (H 1%nat (S (S k))). cbn. lia.
Qed.
Lemma brackets_none l : forall i x, (forall k, (k < length l)%nat -> x < nth k l 0) -> brackets i l x = [].
Proof.
  induction l as [|a l IH]; intros i x H; cbn [brackets]; auto. destruct l as [|b t]; auto.
  rewrite (rle_f a x) by (apply (H 0%nat); cbn; lia). cbn [andb app]. apply IH. intros k Hk. apply (H (S k)). cbn in *. lia.
Qed.
Lemma brackets_one l : axis l -> forall i k x, (S k < length l)%nat -> nth k l 0 <= x < nth (S k) l 0 -> brackets i l x = [(i + k)%nat].
Proof.
  induction l as [|a l IH]; intros Hax i k x Hk Hx; [cbn in Hk; lia|]. destruct l as [|b t]; [cbn in Hk; lia|].
  destruct (axis_tail _ _ _ Hax) as (T1 & T2 & T3). cbn [brackets].
  destruct k as [|k].
  - cbn [nth] in Hx. rewrite (rle_t a x), (rlt_t x b) by lra. cbn [andb].
    change (match t with [] => [] | b0 :: _ => (if rle b x && rlt x b0 then [S i] else []) ++ brackets (S (S i)) t x end) with (brackets (S i) (b :: t) x).
    rewrite brackets_none; [now rewrite Nat.add_0_r|].
    intros [|k] Hk2; cbn [nth]; [lra|]. assert (b < nth k t 0) by (apply T3; cbn in Hk2; lia). lra.
  - assert (t <> []) by (destruct t; [cbn in Hk; lia | congruence]).
    assert (Hb : b <= x).
    { destruct k as [|k]; cbn [nth] in Hx; [lra|]. assert (b < nth k t 0) by (apply T3; cbn in Hk; lia). lra. }
    rewrite (rlt_f x b) by lra. rewrite andb_false_r. cbn [app].
    change (brackets (S i) (b :: t) x = [(i + S k)%nat]). rewrite (IH (T1 H) (S i) k x); [f_equal; lia | cbn in *; lia | exact Hx].
Qed.
Lemma get1_nth {A} (l : list A) d i : (i < length l)%nat -> get1 l i = Ok (nth i l d).
Proof. intros H. unfold get1. now rewrite (nth_error_nth' l d H). Qed.
Lemma get2_node ilon ilat g i j : grid_of ilon ilat g -> (i < length ilon)%nat -> (j < length ilat)%nat -> get2 g j i = Ok (node g j i).
Proof.
  intros [L1 L2] Hi Hj. unfold get2. rewrite (get1_nth g []) by lia. cbn [bind]. unfold node. apply get1_nth.
  rewrite L2; auto. apply nth_In. lia.
Qed.
Lemma rmin_list_le l : forall a, rmin_list a l <= a.
Proof. induction l as [|b l IH]; intros a; cbn; [lra|]. eapply Rle_trans; [apply Rmin_r | apply IH]. Qed.
Lemma rmin_list_in l : forall a x, In x l -> rmin_list a l <= x.
Proof.
  induction l as [|b l IH]; intros a x; cbn; [tauto|]. intros [<-|H]; [apply Rmin_l|]. eapply Rle_trans; [apply Rmin_r | now apply IH].
Qed.
Lemma rmin_list_ge l : forall a m, m <= a -> (forall x, In x l -> m <= x) -> m <= rmin_list a l.
Proof.
  induction l as [|b l IH]; intros a m Ha H; cbn; auto. apply Rmin_glb; [apply H; now left|]. apply IH; auto. intros x Hx. apply H. now right.
Qed.
Lemma rmax_list_ge l : forall a, a <= rmax_list a l.
Proof. induction l as [|b l IH]; intros a; cbn; [lra|]. eapply Rle_trans; [apply IH | apply Rmax_r]. Qed.
Lemma rmax_list_in l : forall a x, In x l -> x <= rmax_list a l.
Proof.
  induction l as [|b l IH]; intros a x; cbn; [tauto|]. intros [<-|H]; [apply Rmax_l|]. eapply Rle_trans; [now apply IH | apply Rmax_r].
Qed.
Lemma rmax_list_le l : forall a m, a <= m -> (forall x, In x l -> x <= m) -> rmax_list a l <= m.
Proof.
  induction l as [|b l IH]; intros a m Ha H; cbn; auto. apply Rmax_lub; [apply H; now left|]. apply IH; auto. intros x Hx. apply H. now right.
Qed.

Lemma axis_min l : axis l -> amin l = Ok (nth 0 l 0).
Proof.
  intros Hax. destruct l as [|a t]; [destruct Hax; cbn in *; lia|]. cbn [amin nth]. f_equal. apply Rle_antisym; [apply rmin_list_le|].
  apply rmin_list_ge; [lra|]. intros x Hx. apply (In_nth _ _ 0) in Hx as (k & Hk & <-). left. apply (proj2 Hax 0%nat (S k)). cbn. lia.
Qed.
Lemma axis_max l : axis l -> amax l = Ok (nth (length l - 1) l 0).
Proof.
  intros Hax. destruct l as [|a t]; [destruct Hax; cbn in *; lia|]. cbn [amax]. f_equal.
  assert (Top : forall x, In x (a :: t) -> x <= nth (length (a :: t) - 1) (a :: t) 0).
  { intros x Hx. apply (In_nth _ _ 0) in Hx as (k & Hk & <-). destruct (Nat.eq_dec k (length (a :: t) - 1)) as [->|N]; [lra|].
    left. apply (proj2 Hax). lia. }
  apply Rle_antisym.
  - apply rmax_list_le; [apply Top; now left|]. intros x Hx. apply Top. now right.
  - assert (I : In (nth (length (a :: t) - 1) (a :: t) 0) (a :: t)) by (apply nth_In; cbn; lia).
    destruct I as [<-|I]; [apply rmax_list_ge | now apply rmax_list_in].
Qed.
Lemma axis_mono l i j : axis l -> (i <= j < length l)%nat -> nth i l 0 <= nth j l 0.
Proof. intros Hax H. destruct (Nat.eq_dec i j) as [->|N]; [lra|]. left. apply (proj2 Hax). lia. Qed.

(** Everything the code computes for a point in cell (i, j). *)
Lemma point_eq ilon ilat g fill lon lat i j : axis ilon -> axis ilat -> grid_of ilon ilat g -> in_cell ilon ilat i j lon lat ->
  let x0 := nth i ilon 0 in let x1 := nth (S i) ilon 0 in let y0 := nth j ilat 0 in let y1 := nth (S j) ilat 0 in
  let corners := [(node g j i, (x1 - lon) * (y1 - lat)); (node g j (S i), (lon - x0) * (y1 - lat));
                  (node g (S j) i, (x1 - lon) * (lat - y0)); (node g (S j) (S i), (lon - x0) * (lat - y0))] in
  bilinear_point ilon ilat g fill (lon, lat) =
    Ok (if isclose lat y0 && isclose lon x0 then node g j i
        else if isclose lat y1 && isclose lon x0 then node g (S j) i
        else if isclose lat y0 && isclose lon x1 then node g j (S i)
        else if isclose lat y1 && isclose lon x1 then node g (S j) (S i)
        else if existsb (fun p => usable (fst p)) corners then Cell (weighted corners) false else Cell fill true).
Proof.
  intros A1 A2 G (Hi & Hj & Hx & Hy & Hlow). intros.
  unfold bilinear_point. rewrite (axis_min _ A1), (axis_max _ A1), (axis_min _ A2), (axis_max _ A2). cbn [bind].
  assert (L1 : nth 0 ilon 0 <= lon) by (pose proof (axis_mono ilon 0 i A1 ltac:(lia)); lra).
  assert (L2 : lon < nth (length ilon - 1) ilon 0) by (pose proof (axis_mono ilon (S i) (length ilon - 1) A1 ltac:(lia)); lra).
  assert (L3 : lat < nth (length ilat - 1) ilat 0) by (pose proof (axis_mono ilat (S j) (length ilat - 1) A2 ltac:(lia)); lra).
  rewrite (rle_t _ _ L1), (rle_t lon _) by lra. rewrite (rlt_t _ _ Hlow), (rlt_t _ _ L3). cbn [andb].
  unfold bilinear_inside. rewrite (brackets_one ilon A1 0 i lon Hi Hx), (brackets_one ilat A2 0 j lat Hj Hy). cbn [single bind Nat.add].
  rewrite !(get1_nth _ 0) by lia. cbn [bind]. rewrite !(get2_node ilon ilat g) by (auto; lia). cbn [bind].
  fold x0 x1 y0 y1.
  rewrite (Rabs_minus_sym lon x1), (Rabs_minus_sym lat y1). rewrite !Rabs_pos_eq by (unfold x0, x1, y0, y1; lra).
  fold corners.
  repeat match goal with |- context [if ?b && ?c then _ else _] => destruct (b && c); [reflexivity|] end.
  now destruct (existsb _ _).
Qed.

Lemma not_near ilon ilat i j lon lat : ~ near_corner ilon ilat i j lon lat ->
  isclose lat (nth j ilat 0) && isclose lon (nth i ilon 0) = false
  /\ isclose lat (nth (S j) ilat 0) && isclose lon (nth i ilon 0) = false
  /\ isclose lat (nth j ilat 0) && isclose lon (nth (S i) ilon 0) = false
  /\ isclose lat (nth (S j) ilat 0) && isclose lon (nth (S i) ilon 0) = false.
Proof.
  intros H. repeat split; apply not_true_is_false; rewrite andb_true_iff, !isclose_iff; intros [A B]; apply H; unfold near_corner; auto.
Qed.
Lemma usable_iff c : usable c = true <-> valid_cell c.
Proof.
  destruct c as [[x|] []]; unfold usable, valid_cell; cbn; split; try discriminate; intros H; try (destruct H as [? [? ?]]; congruence); eauto.
Qed.

(** ** C27 *)
(** Inside a cell with four valid corners the result is the bilinear function through
    the corners: every a + b x + c y + d x y is reproduced. *)
Theorem C27_exact_partial ilon ilat g fill lon lat i j a b c d :
  axis ilon -> axis ilat -> grid_of ilon ilat g -> in_cell ilon ilat i j lon lat ->
  ~ near_corner ilon ilat i j lon lat ->
  (forall k l, (k = j \/ k = S j) -> (l = i \/ l = S i) ->
     node g k l = Cell (Fin (a + b * nth l ilon 0 + c * nth k ilat 0 + d * nth l ilon 0 * nth k ilat 0)) false) ->
  bilinear_point ilon ilat g fill (lon, lat) = Ok (Cell (Fin (a + b * lon + c * lat + d * lon * lat)) false).
Proof.
  intros A1 A2 G C N F. rewrite (point_eq ilon ilat g fill lon lat i j A1 A2 G C). cbv zeta.
  destruct (not_near _ _ _ _ _ _ N) as (-> & -> & -> & ->).
  rewrite !F by auto. cbn [existsb fst usable finite cval cmask negb andb orb].
  destruct C as (Hi & Hj & Hx & Hy & _). set (x0 := nth i ilon 0) in *. set (x1 := nth (S i) ilon 0) in *. set (y0 := nth j ilat 0) in *. set (y1 := nth (S j) ilat 0) in *.
  unfold weighted. cbn [filter fst usable finite cval cmask negb andb map snd fold_right number].
  assert (Sw : (x1 - lon) * (y1 - lat) + ((lon - x0) * (y1 - lat) + ((x1 - lon) * (lat - y0) + ((lon - x0) * (lat - y0) + 0))) = (x1 - x0) * (y1 - y0)) by ring.
  assert (Px : 0 < x1 - x0) by lra. assert (Py : 0 < y1 - y0) by lra.
  assert (Pw : (x1 - x0) * (y1 - y0) <> 0) by (apply Rgt_not_eq, Rmult_lt_0_compat; lra).
  rewrite Sw. unfold req. destruct (Req_EM_T _ 0) as [Z|_]; [contradiction|]. do 3 f_equal. field. lra.
Qed.
Print Assumptions C27_exact_partial.

(** Nodes. *)
Theorem C27_node ilon ilat g fill i j : axis ilon -> axis ilat -> grid_of ilon ilat g ->
  (S i < length ilon)%nat -> (0 < j)%nat -> (S j < length ilat)%nat ->
  bilinear_point ilon ilat g fill (nth i ilon 0, nth j ilat 0) = Ok (node g j i).
Proof.
  intros A1 A2 G Hi Hj0 Hj. rewrite (point_eq ilon ilat g fill _ _ i j A1 A2 G).
  - cbv zeta. now rewrite !(isclose_t _ _ (close_refl _)).
  - repeat split; auto; try lra; apply A1 || apply A2; lia.
Qed.
Print Assumptions C27_node.

(** Near a node (within numpy's relative tolerance of 1e-5 of the coordinate, up to
    200 m at longitude 180) the node's entry is returned unchanged. *)
Theorem C27_snapped ilon ilat g fill lon lat i j : axis ilon -> axis ilat -> grid_of ilon ilat g -> in_cell ilon ilat i j lon lat ->
  near_corner ilon ilat i j lon lat ->
  exists k l, (k = j \/ k = S j) /\ (l = i \/ l = S i) /\ close lat (nth k ilat 0) /\ close lon (nth l ilon 0)
    /\ bilinear_point ilon ilat g fill (lon, lat) = Ok (node g k l).
Proof.
  intros A1 A2 G C N. rewrite (point_eq ilon ilat g fill lon lat i j A1 A2 G C). cbv zeta.
  destruct (isclose lat (nth j ilat 0) && isclose lon (nth i ilon 0)) eqn:E1.
  { apply andb_true_iff in E1 as [X Y]. rewrite isclose_iff in X, Y. exists j, i. auto. }
  destruct (isclose lat (nth (S j) ilat 0) && isclose lon (nth i ilon 0)) eqn:E2.
  { apply andb_true_iff in E2 as [X Y]. rewrite isclose_iff in X, Y. exists (S j), i. auto. }
  destruct (isclose lat (nth j ilat 0) && isclose lon (nth (S i) ilon 0)) eqn:E3.
  { apply andb_true_iff in E3 as [X Y]. rewrite isclose_iff in X, Y. exists j, (S i). auto. }
  destruct (isclose lat (nth (S j) ilat 0) && isclose lon (nth (S i) ilon 0)) eqn:E4.
  { apply andb_true_iff in E4 as [X Y]. rewrite isclose_iff in X, Y. exists (S j), (S i). auto. }
  exfalso. destruct N as [[X|X] [Y|Y]]; apply isclose_t in X; apply isclose_t in Y; rewrite X, Y in *; discriminate.
Qed.
Print Assumptions C27_snapped.

(** So the interpolant is not exact: the field x is not reproduced half a
    thousandth of a degree from a node. *)
Theorem C27_exact_refuted : exists ilon ilat g lon lat,
  axis ilon /\ axis ilat /\ grid_of ilon ilat g /\ in_cell ilon ilat 1 1 lon lat
  /\ (forall j i, (j < 3)%nat -> (i < 3)%nat -> node g j i = Cell (Fin (nth i ilon 0)) false)
  /\ bilinear_point ilon ilat g Bad (lon, lat) = Ok (Cell (Fin 100) false) /\ lon = 100.0005.
Proof.
  exists [99; 100; 101], [-1; 0; 1].
  exists (let r := [Cell (Fin 99) false; Cell (Fin 100) false; Cell (Fin 101) false] in [r; r; r]), 100.0005, 0.
  assert (A1 : axis [99; 100; 101]).
  { split; [cbn; lia|]. intros i j H. cbn [length] in H. do 3 (destruct i as [|i]; [do 3 (destruct j as [|j]; [cbn; lra || lia|]); lia|]). lia. }
  assert (A2 : axis [-1; 0; 1]).
  { split; [cbn; lia|]. intros i j H. cbn [length] in H. do 3 (destruct i as [|i]; [do 3 (destruct j as [|j]; [cbn; lra || lia|]); lia|]). lia. }
  assert (G : grid_of [99; 100; 101] [-1; 0; 1] (let r := [Cell (Fin 99) false; Cell (Fin 100) false; Cell (Fin 101) false] in [r; r; r])).
  { split; [reflexivity|]. intros r H. cbn in H. repeat destruct H as [<-|H]; try reflexivity. contradiction. }
  assert (C : in_cell [99; 100; 101] [-1; 0; 1] 1 1 100.0005 0) by (unfold in_cell; cbn; repeat split; try lia; lra).
  split; [exact A1|]. split; [exact A2|]. split; [exact G|]. split; [exact C|]. split; [|split; [|reflexivity]].
  - intros j i Hj Hi. do 3 (destruct j as [|j]; [do 3 (destruct i as [|i]; [reflexivity|]); lia|]). lia.
  - rewrite (point_eq _ _ _ Bad _ _ _ _ A1 A2 G C). cbv zeta. cbn [nth].
    rewrite (isclose_t 0 0 (close_refl 0)). rewrite (isclose_t 100.0005 100); [reflexivity|].
    unfold close. rewrite !Rabs_pos_eq; lra.
Qed.
Print Assumptions C27_exact_refuted.

(** Masked and non-finite corners: the result is a weighted mean of the valid
    corners only, so it lies between their extremes and does not depend on what the
    other corners hold.  (Strictly inside the cell, where all weights are positive.) *)
Lemma sum_filter_pos (l : list (cell * R)) : (forall p, In p l -> 0 < snd p) ->
  existsb (fun p => usable (fst p)) l = true ->
  0 < fold_right Rplus 0 (map snd (filter (fun p => usable (fst p)) l)).
Proof.
  induction l as [|p l IH]; cbn; [discriminate|]. intros Hp. destruct (usable (fst p)) eqn:E; cbn.
  - intros _. assert (0 <= fold_right Rplus 0 (map snd (filter (fun q => usable (fst q)) l))).
    { assert (Hp' : forall q, In q l -> 0 < snd q) by auto. clear - Hp'. induction l as [|q l IH]; cbn; [lra|].
      assert (0 < snd q) by (apply Hp'; now left). assert (0 <= fold_right Rplus 0 (map snd (filter (fun q => usable (fst q)) l))) by (apply IH; intros; apply Hp'; now right).
      destruct (usable (fst q)); cbn; lra. }
    assert (0 < snd p) by auto. lra.
  - intros H. apply IH; auto.
Qed.
Lemma sum_bounds (l : list (cell * R)) lo hi : (forall p, In p l -> 0 < snd p) ->
  (forall p, In p l -> usable (fst p) = true -> lo <= number (fst p) <= hi) ->
  let us := filter (fun p => usable (fst p)) l in
  lo * fold_right Rplus 0 (map snd us) <= fold_right Rplus 0 (map (fun p => snd p * number (fst p)) us) <= hi * fold_right Rplus 0 (map snd us).
Proof.
  intros Hp Hb. cbv zeta. induction l as [|p l IH]; cbn; [lra|].
  assert (IH' := IH (fun q H => Hp q (or_intror H)) (fun q H => Hb q (or_intror H))).
  destruct (usable (fst p)) eqn:E; cbn; auto.
  assert (0 < snd p) by (apply Hp; now left). assert (lo <= number (fst p) <= hi) by (apply Hb; auto; now left).
  split; nra.
Qed.

Theorem C27_between ilon ilat g fill lon lat i j lo hi :
  axis ilon -> axis ilat -> grid_of ilon ilat g -> in_cell ilon ilat i j lon lat -> ~ near_corner ilon ilat i j lon lat ->
  nth i ilon 0 < lon -> nth j ilat 0 < lat ->
  (exists k l, (k = j \/ k = S j) /\ (l = i \/ l = S i) /\ valid_cell (node g k l)) ->
  (forall k l x, (k = j \/ k = S j) -> (l = i \/ l = S i) -> node g k l = Cell (Fin x) false -> lo <= x <= hi) ->
  exists v, bilinear_point ilon ilat g fill (lon, lat) = Ok (Cell (Fin v) false) /\ lo <= v <= hi.
Proof.
  intros A1 A2 G C N Sx Sy (k & l & Hk & Hl & Hv) Hb.
  rewrite (point_eq ilon ilat g fill lon lat i j A1 A2 G C). cbv zeta.
  destruct (not_near _ _ _ _ _ _ N) as (-> & -> & -> & ->).
  destruct C as (Hi & Hj & Hx & Hy & _). set (x0 := nth i ilon 0) in *. set (x1 := nth (S i) ilon 0) in *. set (y0 := nth j ilat 0) in *. set (y1 := nth (S j) ilat 0) in *.
  set (corners := [(node g j i, (x1 - lon) * (y1 - lat)); (node g j (S i), (lon - x0) * (y1 - lat));
                  (node g (S j) i, (x1 - lon) * (lat - y0)); (node g (S j) (S i), (lon - x0) * (lat - y0))]).
  assert (Pos : forall p, In p corners -> 0 < snd p).
  { intros p Hp. cbn in Hp. repeat destruct Hp as [<-|Hp]; try contradiction; cbn [snd]; apply Rmult_lt_0_compat; lra. }
  assert (Ex : existsb (fun p => usable (fst p)) corners = true).
  { apply usable_iff in Hv. unfold corners. cbn [existsb fst].
    destruct Hk as [-> | ->], Hl as [-> | ->]; rewrite Hv; rewrite ?orb_true_r; reflexivity. }
  rewrite Ex. unfold weighted. pose proof (sum_filter_pos corners Pos Ex) as Sp.
  assert (Bd : forall p, In p corners -> usable (fst p) = true -> lo <= number (fst p) <= hi).
  { intros p Hp Hu. apply usable_iff in Hu as [Hm [x Hx2]].
    assert (E : forall c, cmask c = false -> cval c = Fin x -> c = Cell (Fin x) false) by (intros [cv cm] X Y; cbn in *; congruence).
    unfold number. rewrite Hx2. cbn in Hp. repeat destruct Hp as [<-|Hp]; try contradiction; cbn [fst] in *; (eapply Hb; [| |apply E; eassumption]; auto). }
  pose proof (sum_bounds corners lo hi Pos Bd) as Sb. cbv zeta in Sb.
  unfold req. destruct (Req_EM_T _ 0) as [Z|_]; [lra|]. eexists. split; [reflexivity|].
  set (sw := fold_right Rplus 0 (map snd (filter (fun p => usable (fst p)) corners))) in *.
  split; apply Rmult_le_reg_r with sw; auto; unfold Rdiv; rewrite Rmult_assoc, Rinv_l by lra; lra.
Qed.
Print Assumptions C27_between.

(** Invalid corners do not leak: two grids with the same valid entries give the same
    result away from the nodes. *)
Theorem C27_no_leak ilon ilat g g' fill lon lat i j :
  axis ilon -> axis ilat -> grid_of ilon ilat g -> grid_of ilon ilat g' -> in_cell ilon ilat i j lon lat -> ~ near_corner ilon ilat i j lon lat ->
  (forall k l, (k = j \/ k = S j) -> (l = i \/ l = S i) -> node g k l = node g' k l \/ (~ valid_cell (node g k l) /\ ~ valid_cell (node g' k l))) ->
  bilinear_point ilon ilat g fill (lon, lat) = bilinear_point ilon ilat g' fill (lon, lat).
Proof.
  intros A1 A2 G G' C N H.
  rewrite (point_eq ilon ilat g fill lon lat i j A1 A2 G C), (point_eq ilon ilat g' fill lon lat i j A1 A2 G' C). cbv zeta.
  destruct (not_near _ _ _ _ _ _ N) as (-> & -> & -> & ->). f_equal.
  assert (U : forall k l, (k = j \/ k = S j) -> (l = i \/ l = S i) -> usable (node g k l) = usable (node g' k l) /\ (usable (node g k l) = true -> node g k l = node g' k l)).
  { intros k l Hk Hl. destruct (H k l Hk Hl) as [-> | [X Y]]; auto.
    assert (Eg : usable (node g k l) = false) by (apply not_true_is_false; rewrite usable_iff; auto).
    assert (Eg' : usable (node g' k l) = false) by (apply not_true_is_false; rewrite usable_iff; auto).
    rewrite Eg, Eg'. split; auto; discriminate. }
  destruct (U j i ltac:(auto) ltac:(auto)) as [U1 E1]. destruct (U j (S i) ltac:(auto) ltac:(auto)) as [U2 E2].
  destruct (U (S j) i ltac:(auto) ltac:(auto)) as [U3 E3]. destruct (U (S j) (S i) ltac:(auto) ltac:(auto)) as [U4 E4].
  unfold weighted. cbn [existsb filter fst].
  destruct (usable (node g j i)) eqn:V1; rewrite <- U1; [rewrite (E1 eq_refl)|];
  (destruct (usable (node g j (S i))) eqn:V2; rewrite <- U2; [rewrite (E2 eq_refl)|]);
  (destruct (usable (node g (S j) i)) eqn:V3; rewrite <- U3; [rewrite (E3 eq_refl)|]);
  (destruct (usable (node g (S j) (S i))) eqn:V4; rewrite <- U4; [rewrite (E4 eq_refl)|]); reflexivity.
Qed.
Print Assumptions C27_no_leak.

(** No valid corner: masked, with the fill value. *)
Theorem C27_all_masked ilon ilat g fill lon lat i j :
  axis ilon -> axis ilat -> grid_of ilon ilat g -> in_cell ilon ilat i j lon lat -> ~ near_corner ilon ilat i j lon lat ->
  (forall k l, (k = j \/ k = S j) -> (l = i \/ l = S i) -> ~ valid_cell (node g k l)) ->
  bilinear_point ilon ilat g fill (lon, lat) = Ok (Cell fill true).
Proof.
  intros A1 A2 G C N H. rewrite (point_eq ilon ilat g fill lon lat i j A1 A2 G C). cbv zeta.
  destruct (not_near _ _ _ _ _ _ N) as (-> & -> & -> & ->).
  assert (U : forall k l, (k = j \/ k = S j) -> (l = i \/ l = S i) -> usable (node g k l) = false).
  { intros k l Hk Hl. apply not_true_is_false. rewrite usable_iff. auto. }
  cbn [existsb fst]. rewrite !U by auto. reflexivity.
Qed.
Print Assumptions C27_all_masked.

(** Outside (including the first and last latitude): masked, with the fill value. *)
Theorem C27_outside ilon ilat g fill lon lat : axis ilon -> axis ilat ->
  lon < nth 0 ilon 0 \/ nth (length ilon - 1) ilon 0 < lon \/ lat <= nth 0 ilat 0 \/ nth (length ilat - 1) ilat 0 <= lat ->
  bilinear_point ilon ilat g fill (lon, lat) = Ok (Cell fill true).
Proof.
  intros A1 A2 H. unfold bilinear_point. rewrite (axis_min _ A1), (axis_max _ A1), (axis_min _ A2), (axis_max _ A2). cbn [bind].
  destruct H as [H|[H|[H|H]]].
  - now rewrite (rle_f (nth 0 ilon 0) lon) by lra.
  - rewrite (rle_f lon) by lra. now rewrite andb_false_r.
  - rewrite (rlt_f (nth 0 ilat 0) lat) by lra. now rewrite andb_false_r.
  - rewrite (rlt_f lat) by lra. now rewrite !andb_false_r.
Qed.
Print Assumptions C27_outside.

(** A point on the left edge of a cell whose left corners are masked gets nan,
    unmasked, although the cell has valid corners. *)
Theorem C27_edge_nan_refuted ilon ilat g fill lat i j :
  axis ilon -> axis ilat -> grid_of ilon ilat g -> in_cell ilon ilat i j (nth i ilon 0) lat ->
  ~ near_corner ilon ilat i j (nth i ilon 0) lat ->
  cmask (node g j i) = true -> cmask (node g (S j) i) = true ->
  valid_cell (node g j (S i)) -> valid_cell (node g (S j) (S i)) ->
  bilinear_point ilon ilat g fill (nth i ilon 0, lat) = Ok (Cell Bad false).
Proof.
  intros A1 A2 G C N M1 M2 V1 V2. rewrite (point_eq ilon ilat g fill _ lat i j A1 A2 G C). cbv zeta.
  destruct (not_near _ _ _ _ _ _ N) as (-> & -> & -> & ->).
  assert (U1 : usable (node g j i) = false) by (unfold usable; rewrite M1; apply andb_false_r).
  assert (U2 : usable (node g (S j) i) = false) by (unfold usable; rewrite M2; apply andb_false_r).
  apply usable_iff in V1, V2. cbn [existsb fst]. rewrite U1, U2, V1, V2. cbn [orb].
  unfold weighted. cbn [filter fst]. rewrite U1, U2, V1, V2. cbn [map snd fold_right].
  unfold req. destruct (Req_EM_T _ 0) as [_|Z]; [reflexivity|]. exfalso. apply Z. ring.
Qed.
Print Assumptions C27_edge_nan_refuted.

(** ** C28 *)
(** Every cell of the accepted region is served, the last longitude excepted. *)
Lemma find_cell l x : axis l -> nth 0 l 0 <= x < nth (length l - 1) l 0 -> exists k, (S k < length l)%nat /\ nth k l 0 <= x < nth (S k) l 0.
Proof.
  intros Hax [H1 H2].
  assert (P : forall n, (n < length l)%nat -> x < nth n l 0 -> exists k, (S k <= n)%nat /\ nth k l 0 <= x < nth (S k) l 0).
  { induction n as [|n IH]; intros Hn Hx; [lra|]. destruct (Rlt_le_dec x (nth n l 0)) as [B|B].
    - destruct (IH ltac:(lia) B) as (k & K1 & K2). exists k. split; [lia | exact K2].
    - exists n. split; [lia|]. split; auto. }
  destruct Hax as [L _]. destruct (P (length l - 1)%nat ltac:(lia) H2) as (k & K1 & K2). exists k. split; [lia | exact K2].
Qed.
Theorem C28_served_partial ilon ilat g fill lon lat : axis ilon -> axis ilat -> grid_of ilon ilat g ->
  lon <> nth (length ilon - 1) ilon 0 -> exists c, bilinear_point ilon ilat g fill (lon, lat) = Ok c.
Proof.
  intros A1 A2 G Hn.
  destruct (Rlt_le_dec lon (nth 0 ilon 0)); [rewrite C27_outside by auto; eauto|].
  destruct (Rlt_le_dec (nth (length ilon - 1) ilon 0) lon); [rewrite C27_outside by auto; eauto|].
  destruct (Rle_lt_dec lat (nth 0 ilat 0)); [rewrite C27_outside by auto; eauto|].
  destruct (Rle_lt_dec (nth (length ilat - 1) ilat 0) lat); [rewrite C27_outside by auto; eauto|].
  destruct (find_cell ilon lon A1) as (i & Hi & Hx); [lra|]. destruct (find_cell ilat lat A2) as (j & Hj & Hy); [lra|].
  rewrite (point_eq ilon ilat g fill lon lat i j A1 A2 G); [eauto|]. unfold in_cell. auto.
Qed.
Print Assumptions C28_served_partial.

(** The last longitude is accepted as inside and raises, in every grid. *)
Lemma brackets_last l : axis l -> forall i, brackets i l (nth (length l - 1) l 0) = [].
Proof.
  intros Hax. assert (K : forall t i x, (forall k, (S k < length t)%nat -> nth (S k) t 0 <= x) -> brackets i t x = []).
  { induction t as [|a t IH]; intros i x H; cbn [brackets]; auto. destruct t as [|b t]; auto.
    rewrite (rlt_f x b) by (apply (H 0%nat); cbn; lia). rewrite andb_false_r. cbn [app]. apply IH. intros k Hk. apply (H (S k)). cbn in *. lia. }
  intros i. apply K. intros k Hk. apply axis_mono; auto. lia.
Qed.
Theorem C28_last_longitude_refuted ilon ilat g fill lat : axis ilon -> axis ilat ->
  nth 0 ilat 0 < lat < nth (length ilat - 1) ilat 0 ->
  bilinear_point ilon ilat g fill (nth (length ilon - 1) ilon 0, lat) = Err ValueError.
Proof.
  intros A1 A2 H. unfold bilinear_point. rewrite (axis_min _ A1), (axis_max _ A1), (axis_min _ A2), (axis_max _ A2). cbn [bind].
  pose proof (axis_mono ilon 0 (length ilon - 1) A1) as Lo. pose proof (proj1 A1) as Hl.
  rewrite (rle_t (nth 0 ilon 0)) by (apply Lo; lia). rewrite (rle_t (nth (length ilon - 1) ilon 0)) by lra. rewrite !rlt_t by lra. cbn [andb].
  unfold bilinear_inside. now rewrite (brackets_last ilon A1).
Qed.
Print Assumptions C28_last_longitude_refuted.
(** One such point makes the whole call fail. *)
Theorem C28_batch_refuted ilon ilat g fill pts lat : axis ilon -> axis ilat ->
  nth 0 ilat 0 < lat < nth (length ilat - 1) ilat 0 -> In (nth (length ilon - 1) ilon 0, lat) pts ->
  exists e, bilinear ilon ilat g fill pts = Err e.
Proof.
  intros A1 A2 H Hin. pose proof (C28_last_longitude_refuted ilon ilat g fill lat A1 A2 H) as E.
  unfold bilinear. induction pts as [|p pts IH]; [contradiction|]. cbn [mapM]. destruct Hin as [->|Hin].
  - rewrite E. cbn. eauto.
  - destruct (bilinear_point ilon ilat g fill p); cbn; [|eauto]. destruct (IH Hin) as [e ->]. cbn. eauto.
Qed.
Print Assumptions C28_batch_refuted.
(** Otherwise the batch is served point by point. *)
Theorem C28_batch ilon ilat g fill pts : axis ilon -> axis ilat -> grid_of ilon ilat g ->
  (forall lon lat, In (lon, lat) pts -> lon <> nth (length ilon - 1) ilon 0) ->
  exists out, bilinear ilon ilat g fill pts = Ok out /\ length out = length pts
    /\ forall k, (k < length pts)%nat -> bilinear_point ilon ilat g fill (nth k pts (0, 0)) = Ok (nth k out (Cell Bad true)).
Proof.
  intros A1 A2 G. unfold bilinear. induction pts as [|[lon lat] pts IH]; intros H.
  - exists []. cbn. repeat split; auto. intros; lia.
  - destruct (C28_served_partial ilon ilat g fill lon lat A1 A2 G (H lon lat (or_introl eq_refl))) as [c Ec].
    destruct IH as (out & Eo & Lo & No); [intros; eapply H; right; eauto|].
    exists (c :: out). cbn [mapM]. rewrite Ec. cbn [bind]. rewrite Eo. cbn [bind]. split; [reflexivity|]. split; [cbn; lia|].
    intros [|k] Hk; cbn [nth]; auto. apply No. cbn in Hk. lia.
Qed.
Print Assumptions C28_batch.

Definition ax3 : list R := [99; 100; 101].
Definition ay3 : list R := [-1; 0; 1].
Lemma ax3_axis : axis ax3.
Proof. split; [cbn; lia|]. intros i j H. cbn [ax3 length] in H. do 3 (destruct i as [|i]; [do 3 (destruct j as [|j]; [cbn; lra || lia|]); lia|]). lia. Qed.
Lemma ay3_axis : axis ay3.
Proof. split; [cbn; lia|]. intros i j H. cbn [ay3 length] in H. do 3 (destruct i as [|i]; [do 3 (destruct j as [|j]; [cbn; lra || lia|]); lia|]). lia. Qed.
(** a concrete cell: the centre is away from the corners *)
Example C27_case : in_cell ax3 ay3 0 1 99.5 0.5 /\ ~ near_corner ax3 ay3 0 1 99.5 0.5.
Proof.
  split; [unfold in_cell; cbn; repeat split; try lia; lra|]. intros [H _]. unfold close, ax3 in H. cbn [nth] in H.
  destruct H as [H|H]; unfold Rabs in H; repeat destruct (Rcase_abs _) in H; lra.
Qed.
Example C28_case : forall g, bilinear_point ax3 ay3 g Bad (101, 0) = Err ValueError.
Proof. intros g. apply (C28_last_longitude_refuted ax3 ay3 g Bad 0 ax3_axis ay3_axis). cbn. lra. Qed.
