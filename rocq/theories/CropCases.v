(** C83: cases meeting the hypotheses of the theorems. *)
From Coq Require Import Reals List Bool Arith ZArith Lra Lia.
From Verif Require Import PyBase RBase MathModel GeoModel ConvertProps GridModel InterpModel InterpProps ExtractModel ExtractSpec NodeProps ExtractProofs ExtractProps SplineProps ReturnProps CaseProps MergeSpec MergeProps SeriesModel SeriesSpec SeriesProofs SeriesProps SeriesProps2 SeriesProps3 SeriesCases RegularModel RegularSpec RegularProofs RegularProps RegularProps2 CropModel CropSpec CropProofs CropProofs2 CropProps CropProps2 CropProps3 CropProps4 CropProps5.
Import ListNotations.
Open Scope R_scope.

(** ten columns around the globe (18, 54, ..., 342) and three rows; column k has the constant k + 1 *)
Definition ramp (x0 : R) : sheet :=
  Sheet (steps x0 36 10) (steps 0 18 3) (repeat (map (fun k => (Some (INR k + 1, 0), false)) (seq 0 10)) 3).
Lemma ramp_grid x0 : sheet_grid true x0 36 10 0 18 3 (ramp x0).
Proof.
  unfold sheet_grid. cbn [ramp slon slat shc]. split; [apply steps_evenly; lra|]. split; [apply steps_evenly; lra|]. split; [lia|]. split; [lia|]. split.
  - split; [reflexivity|]. intros r Hr. apply repeat_spec in Hr as ->. reflexivity.
  - left. split; auto. cbn. lra.
Qed.
Lemma ramp_entry x0 j k : (j < 3)%nat -> (k < 10)%nat -> entry (None, true) (shc (ramp x0)) j k = (Some (INR k + 1, 0), false).
Proof.
  intros Hj Hk. unfold entry, ramp. cbn [shc]. assert (E : forall l : list (gcell cpx), nth j (repeat l 3) [] = l) by (intros l; do 3 (destruct j as [|j]; [reflexivity|]); lia).
  rewrite E. do 10 (destruct k as [|k]; [reflexivity|]). lia.
Qed.
Lemma ramp_numbers x0 : numbers 3 10 (ramp x0).
Proof. intros j i Hj Hi. rewrite ramp_entry by auto. discriminate. Qed.
Lemma one_limit x y : x <> 0 -> for_points None [(x, y)] (Limits x x y y) /\ some_limit (Limits x x y y).
Proof.
  intros Hx. split.
  - split; cbn [x_min x_max y_min y_max map fst snd]; (split; [now left|split; [now left|]]); intros a [<-|[]]; lra.
  - intros (K & _). cbn [x_min] in K. lra.
Qed.
Lemma ramp_closest : closest_column 18 36 10 180 4.
Proof.
  split; [lia|]. intros k Hk. cbn [INR]. rewrite (Rabs_left1 (18 + (1 + 1 + 1 + 1) * 36 - 180)) by lra.
  do 10 (destruct k as [|k]; [cbn [INR]; first [rewrite Rabs_left1 by lra | rewrite Rabs_pos_eq by lra]; split; [lra|intros; first [lra|lia]]|]). lia.
Qed.
(** the window of a point east and west of Greenwich, and the columns there are *)
Lemma ramp_east x : 0 <= x <= 180 -> window 18 36 10 x x 0.
Proof. intros. apply window_same; [rewrite Rmin_left by lra|rewrite Rmax_left by lra]; lra. Qed.
Lemma ramp_west x : x < 0 -> window 18 36 10 x x (-6).
Proof. intros. change (-6)%Z with (Z.of_nat 4 - Z.of_nat 10)%Z. apply window_west; [rewrite Rmin_left by lra; lra|cbn; lra|apply ramp_closest|lia]. Qed.
Lemma ramp_rows x : row_stays (Limits x x 9 9) 144 0 18 0 /\ row_stays (Limits x x 9 9) 144 0 18 1.
Proof. split; unfold row_stays, stays, node_y; cbn; lra. Qed.
Lemma ramp_column src x f i : (f <= i < f + 10)%Z -> x - 144 <= 18 + IZR i * 36 <= x + 144 -> column_available (Limits x x 9 9) 144 src true 18 36 10 f i.
Proof. intros H1 H2. left. split; [cbn; lia|]. unfold stays, node_x. cbn [x_min x_max]. lra. Qed.
Lemma ramp_returns src w x f i : w <> Regular Unknown -> x <> 0 -> window 18 36 10 x x f -> (f <= i < f + 9)%Z -> x - 144 <= 18 + IZR i * 36 <= x + 100 ->
  (w = Quick Bilinear -> x < 18 + IZR i * 36 + 36) -> exists r, extract_cropped src w 1 None None [ramp 18] [(x, 9)] = Ok [[r]].
Proof.
  intros Hw Hx W Hi Hb Hl. destruct (one_limit x 9 Hx) as [L1 L2]. destruct (ramp_rows x) as [R1 R2].
  assert (A1 : column_available (Limits x x 9 9) 144 src true 18 36 10 f i) by (apply ramp_column; [lia|lra]).
  assert (A2 : column_available (Limits x x 9 9) 144 src true 18 36 10 f (i + 1)) by (apply ramp_column; [lia|rewrite plus_IZR; lra]).
  destruct (C83_returns src w 1 None None (Limits x x 9 9) [ramp 18] [(x, 9)]) as (out & Ho & Lo); auto; try discriminate.
  - intros s [<-|[]]. exists true, 18, 36, 10%nat, 0, 18, 3%nat, 144, f, i, 0%nat. split; [apply ramp_grid|]. split; [cbn; lra|]. split; [exact W|]. split; [right; split; auto; lra|].
    repeat (split; [auto; lia|]). intros Ew p [<-|[]]. exists (i + 1)%Z. split; auto. unfold node_x. rewrite plus_IZR. cbn [fst]. specialize (Hl Ew). lra.
  - destruct (crop_inv src w 1 None None (Limits x x 9 9) 144 [ramp 18] [(x, 9)] out 0 (ramp 18) 0 (x, 9) true 18 36 10 0 18 3 f i 0) as (glob & a & na & j0 & k & u & e & cs & r & X); auto; try lia.
    + cbn. lra.
    + apply ramp_grid.
    + right. split; auto. lra.
    + destruct X as (_ & _ & _ & _ & _ & _ & _ & _ & _ & O1 & O2 & O3 & _). rewrite Ho. destruct out as [|c [|]]; try discriminate. cbn in O1. injection O1 as ->. destruct cs as [|c [|]]; try discriminate. eauto.
Qed.
Lemma mean_of w1 w2 w3 w4 a b c d o1 o2 o3 o4 v : w1 + w2 + w3 + w4 <> 0 -> o1 = Some a -> o2 = Some b -> o3 = Some c -> o4 = Some d -> w1 * a + w2 * b + w3 * c + w4 * d = v * (w1 + w2 + w3 + w4) ->
  mean [(w1, o1); (w2, o2); (w3, o3); (w4, o4)] = Some v.
Proof.
  intros H -> -> -> -> E. unfold mean, weight, total. cbn [map fst snd fold_right]. destruct (Req_EM_T _ 0) as [K|K]; [exfalso; apply H; lra|]. f_equal.
  apply (Rmult_eq_reg_r (w1 + (w2 + (w3 + (w4 + 0))))); [|exact K]. unfold Rdiv. rewrite Rmult_assoc, Rinv_l by exact K. lra.
Qed.
Lemma some_inj {A} (a b : A) : Some a = Some b -> a = b.
Proof. congruence. Qed.
(** an amplitude of a positive real constant *)
Lemma amplitude_real v r : 0 <= v -> scaled 1 (Some (v, 0)) r -> exists p, r = Some (v, p).
Proof.
  intros Hv (a & p & (A1 & A2 & A3 & A4) & ->). cbn [fst snd] in A3, A4. exists p. do 2 f_equal.
  pose proof (sin2_cos2 (p * PI / 180)) as Q. unfold Rsqr in Q. set (C := cos _) in *. set (Sn := sin _) in *.
  assert (a * a = v * v) by (assert (a * a * (Sn * Sn + C * C) = v * v) by (replace (a * a * (Sn * Sn + C * C)) with ((a * C) * (a * C) + (a * Sn) * (a * Sn)) by ring; replace (a * Sn) with 0 by lra; rewrite <- A3; lra); nra). nra.
Qed.
Lemma ramp_means x i k1 k2 v z : column 10 i = k1 -> column 10 (i + 1) = k2 -> (k1 < 10)%nat -> (k2 < 10)%nat ->
  v = ((18 + IZR i * 36 + 36 - x) * (INR k1 + 1) + (x - 18 - IZR i * 36) * (INR k2 + 1)) / 36 ->
  z = corners Heights 18 36 0 18 10 x 9 i 0 (fun j i => valid (entry (None, true) (shc (ramp 18)) j i)) ->
  complete z /\ both (mean (part fst z)) (mean (part snd z)) = Some (v, 0).
Proof.
  intros E1 E2 H1 H2 Ev ->. unfold corners. rewrite E1, E2, !ramp_entry by lia. unfold valid. cbn [fst snd]. split.
  - intros p Hp _. cbn [In] in Hp. destruct Hp as [<-|[<-|[<-|[<-|[]]]]]; discriminate.
  - unfold part. cbn [map fst snd]. unfold node_x, node_y. rewrite plus_IZR. cbn [INR]. set (a := INR k1) in *. set (b := INR k2) in *. set (h := IZR i) in *.
    erewrite mean_of with (v := v); [erewrite mean_of with (v := 0); [reflexivity|..]|..]; try reflexivity; cbn [fst snd option_map]; try lra.
Qed.

(** the middle of a cell east of Greenwich, the middle of one west of it: the model is cut
    next to 180 degrees and columns 8 and 9 are at -54 and -18 degrees *)
Example C83_spline_case : forall src, exists p p', extract_cropped src (Quick Spline) 1 None None [ramp 18] [(36, 9)] = Ok [[Some (3 / 2, p)]] /\
  extract_cropped src (Quick Spline) 1 None None [ramp 18] [(-36, 9)] = Ok [[Some (19 / 2, p')]].
Proof.
  intros src.
  assert (Go : forall x f i k1 k2 v, x <> 0 -> window 18 36 10 x x f -> (f <= i < f + 9)%Z -> 18 + IZR i * 36 <= x < 18 + IZR i * 36 + 36 -> column 10 i = k1 -> column 10 (i + 1) = k2 -> (k1 < 10)%nat -> (k2 < 10)%nat ->
    v = ((18 + IZR i * 36 + 36 - x) * (INR k1 + 1) + (x - 18 - IZR i * 36) * (INR k2 + 1)) / 36 -> 0 <= v -> exists p, extract_cropped src (Quick Spline) 1 None None [ramp 18] [(x, 9)] = Ok [[Some (v, p)]]).
  { intros x f i k1 k2 v Hx W Hi Hb K1 K2 L1 L2 Ev Hv. destruct (ramp_returns src (Quick Spline) x f i) as (r & Er); auto; try discriminate; [lra|]. rewrite Er.
    destruct (C83_default_spline src 1 [ramp 18] [(x, 9)] [[r]] 0 (ramp 18) 0 x 9 true 18 36 10 0 18 3 f i 0 x x) as (cs & r' & O1 & _ & O3 & O4 & _); auto; try lia.
    - exists (x, 9). split; [now left|]. intros K. injection K as K _. lra.
    - apply ramp_grid.
    - apply ramp_numbers.
    - lra.
    - split; [now left|]. split; [now left|]. intros a [<-|[]]. cbn. lra.
    - right. split; auto. lra.
    - unfold node_x. rewrite plus_IZR. lra.
    - left. unfold node_y. cbn [INR]. lra.
    - cbn in O1. injection O1 as <-. cbn in O3. injection O3 as <-.
      destruct (ramp_means x i k1 k2 v _ K1 K2 L1 L2 Ev eq_refl) as [Q1 Q2]. destruct (O4 Q1) as [_ O5]. rewrite Q2 in O5. destruct (amplitude_real v r Hv O5) as (p & ->). now exists p. }
  destruct (Go 36 0%Z 0%Z 0%nat 1%nat (3 / 2)) as (p & E1); try lia; try lra; [apply ramp_east; lra|reflexivity|reflexivity|cbn; lra|].
  destruct (Go (-36) (-6)%Z (-2)%Z 8%nat 9%nat (19 / 2)) as (p' & E2); try lia; try lra; [apply ramp_west; lra|reflexivity|reflexivity|cbn; lra|]. eauto.
Qed.

(** the linear method and the bilinear one in the same cells; the nearest node *)
Example C83_linear_case : forall src, exists p, extract_cropped src (Regular Linear) 1 None None [ramp 18] [(-36, 9)] = Ok [[Some (19 / 2, p)]].
Proof.
  intros src. destruct (ramp_returns src (Regular Linear) (-36) (-6) (-2)) as (r & Er); auto; try discriminate; try lia; try lra; [apply ramp_west; lra|]. rewrite Er.
  destruct (one_limit (-36) 9 ltac:(lra)) as [L1 L2]. destruct (ramp_rows (-36)) as [R1 R2].
  destruct (ramp_means (-36) (-2) 8 9 (19 / 2) _ eq_refl eq_refl ltac:(lia) ltac:(lia) ltac:(cbn; lra) eq_refl) as [Q1 Q2].
  destruct (C83_linear src 1 None None (Limits (-36) (-36) 9 9) 144 [ramp 18] [(-36, 9)] [[r]] 0 (ramp 18) 0 (-36) 9 true 18 36 10 0 18 3 (-6) (-2) 0) as (cs & r' & O1 & _ & O3 & O4 & _); auto; try lia.
  - cbn. lra.
  - apply ramp_grid.
  - apply ramp_numbers.
  - cbn [x_min x_max]. apply ramp_west. lra.
  - right. split; auto. lra.
  - apply ramp_column; [lia|lra].
  - apply ramp_column; [lia|cbn [Z.add Z.pos_sub Pos.pred_double]; lra].
  - unfold node_x. cbn [Z.add Z.pos_sub Pos.pred_double]. lra.
  - left. unfold node_y. cbn [INR]. lra.
  - rewrite Q2. intros K. apply some_inj in K. assert (K' : 19 / 2 = fst (100000000000000000000, 0)) by (rewrite <- K; reflexivity). cbn [fst] in K'. lra.
  - cbn in O1. injection O1 as <-. cbn in O3. injection O3 as <-. destruct (O4 Q1) as [_ O5]. rewrite Q2 in O5. destruct (amplitude_real (19 / 2) r ltac:(lra) O5) as (p & ->). now exists p.
Qed.
Example C83_cell_case : forall src, exists p, extract_cropped src (Quick Bilinear) 1 None None [ramp 18] [(-36, 9)] = Ok [[Some (19 / 2, p)]].
Proof.
  intros src. destruct (ramp_returns src (Quick Bilinear) (-36) (-6) (-2)) as (r & Er); auto; try discriminate; try lia; try lra; [apply ramp_west; lra|]. rewrite Er.
  destruct (one_limit (-36) 9 ltac:(lra)) as [L1 L2]. destruct (ramp_rows (-36)) as [R1 R2].
  destruct (ramp_means (-36) (-2) 8 9 (19 / 2) _ eq_refl eq_refl ltac:(lia) ltac:(lia) ltac:(cbn; lra) eq_refl) as [Q1 Q2].
  destruct (C83_cell src 1 None None (Limits (-36) (-36) 9 9) 144 [ramp 18] [(-36, 9)] [[r]] 0 (ramp 18) 0 (-36) 9 true 18 36 10 0 18 3 (-6) (-2) 0) as (cs & r' & O1 & _ & O3 & O4); auto; try lia.
  - cbn. lra.
  - apply ramp_grid.
  - cbn [x_min x_max]. apply ramp_west. lra.
  - right. split; auto. lra.
  - apply ramp_column; [lia|lra].
  - apply ramp_column; [lia|cbn [Z.add Z.pos_sub Pos.pred_double]; lra].
  - left. unfold node_y. cbn [INR]. lra.
  - unfold between_nodes, node_x, node_y. cbn [INR Z.add Z.pos_sub Pos.pred_double]. repeat split; lra.
  - intros [[K|K] _]; revert K; apply not_close; unfold node_x; cbn [Z.add Z.pos_sub Pos.pred_double]; [apply abs_ge|apply abs_le|apply abs_ge|apply abs_le]; lra.
  - cbn in O1. injection O1 as <-. cbn in O3. injection O3 as <-. rewrite Q2 in O4. destruct (amplitude_real (19 / 2) r ltac:(lra) O4) as (p & ->). now exists p.
Qed.
Example C83_nearest_case : forall src, exists p, extract_cropped src (Regular Nearest) 1 None None [ramp 18] [(-40, 9)] = Ok [[Some (9, p)]].
Proof.
  intros src. destruct (ramp_returns src (Regular Nearest) (-40) (-6) (-2)) as (r & Er); auto; try discriminate; try lia; try lra; [apply ramp_west; lra|]. rewrite Er.
  destruct (one_limit (-40) 9 ltac:(lra)) as [L1 L2]. destruct (ramp_rows (-40)) as [R1 R2].
  assert (Ev : valid (entry (None, true) (shc (ramp 18)) 0 (column 10 (-2))) = Some (9, 0)) by (change (column 10 (-2)) with 8%nat; rewrite ramp_entry by lia; unfold valid; cbn [fst snd INR]; do 2 f_equal; lra).
  destruct (C83_nearest src 1 None None (Limits (-40) (-40) 9 9) 144 [ramp 18] [(-40, 9)] [[r]] 0 (ramp 18) 0 (-40) 9 true 18 36 10 0 18 3 (-6) (-2) 0 (-2) 0) as (cs & r' & O1 & _ & O3 & O4); auto; try lia.
  - cbn. lra.
  - apply ramp_grid.
  - cbn [x_min x_max]. apply ramp_west. lra.
  - right. split; auto. lra.
  - apply ramp_column; [lia|lra].
  - apply ramp_column; [lia|cbn [Z.add Z.pos_sub Pos.pred_double]; lra].
  - unfold node_x. cbn [Z.add Z.pos_sub Pos.pred_double]. lra.
  - unfold node_y. cbn [INR]. lra.
  - unfold nearest_node, node_x, node_y. cbn [INR]. lra.
  - rewrite Ev. intros K. apply some_inj in K. assert (K' : 9 = fst (100000000000000000000, 0)) by (rewrite <- K; reflexivity). cbn [fst] in K'. lra.
  - cbn in O1. injection O1 as <-. cbn in O3. injection O3 as <-. rewrite Ev in O4. destruct (amplitude_real 9 r ltac:(lra) O4) as (p & ->). now exists p.
Qed.

(** next to the last column: nothing with FES, the edge with GOT; without cropping the
    interpolant across the seam *)
Example C83_seam_case : extract_cropped FES (Quick Spline) 1 None None [ramp 18] [(10, 9)] = Ok [[None]] /\
  (exists r, extract_series FES Spline 1 [ramp 18] [(10, 9)] = Ok [[Some r]]) /\
  exists p, extract_cropped GOT (Quick Spline) 1 None None [ramp 18] [(10, 9)] = Ok [[Some (1, p)]].
Proof.
  destruct (C83_seam_refuted 1 None 144 (ramp 18) 10 9 18 36 10 0 18 3 0) as [S1 S2]; try lra; try lia.
  - apply ramp_grid.
  - cbn. lra.
  - unfold node_x. cbn. lra.
  - left. unfold node_y. cbn [INR]. lra.
  - intros j i Hj Hi. rewrite ramp_entry by auto. discriminate.
  - split; auto. split; auto. destruct (ramp_returns GOT (Quick Spline) 10 0 0) as (r & Er); try discriminate; try lia; try lra; [apply ramp_east; lra|]. rewrite Er.
    destruct (one_limit 10 9 ltac:(lra)) as [L1 L2]. destruct (ramp_rows 10) as [R1 R2].
    destruct (C83_edge_refuted 1 None None (Limits 10 10 9 9) 144 [ramp 18] [(10, 9)] [[r]] 0 (ramp 18) 0 10 9 18 36 10 0 18 3 0 0 0) as (cs & r' & O1 & O3 & O4 & _); auto; try lia; try lra.
    + cbn. lra.
    + apply ramp_grid.
    + apply ramp_numbers.
    + cbn [x_min x_max]. apply ramp_east. lra.
    + apply ramp_column; [lia|lra].
    + apply ramp_column; [lia|cbn [Z.add]; lra].
    + intros k [[K _]|(_ & _ & K & _)]; [lia|]. exfalso. unfold stays, node_x in K. cbn in K. lra.
    + unfold node_x. lra.
    + left. unfold node_y. cbn [INR]. lra.
    + cbn in O1. injection O1 as <-. cbn in O3. injection O3 as <-.
      destruct (ramp_means (node_x Heights 18 36 0) 0 0 1 1 _ eq_refl eq_refl ltac:(lia) ltac:(lia) ltac:(unfold node_x; cbn; lra) eq_refl) as [Q1 Q2].
      destruct (O4 Q1) as [_ O5]. rewrite Q2 in O5. destruct (amplitude_real 1 r ltac:(lra) O5) as (p & ->). now exists p.
Qed.

(** bounds between two columns with a small buffer; a model that begins at 180 degrees *)
Example C83_empty_case : forall src w, extract_cropped src w 1 (Some (Limits 30 40 0 20)) (Some 1) [ramp 18] [(36, 9)] = Err IndexError.
Proof.
  intros src w. apply (C83_empty src w 1 (Some (Limits 30 40 0 20)) (Some 1) (Limits 30 40 0 20) 1 (ramp 18) [] [(36, 9)] true 18 36 10 0 18 3 0); try discriminate.
  - reflexivity.
  - intros (K & _). cbn in K. lra.
  - cbn. left. lra.
  - apply ramp_grid.
  - cbn [x_min x_max]. apply window_same; [rewrite Rmin_left by lra|rewrite Rmax_right by lra]; lra.
  - now left.
  - left. intros i Hi. unfold stays, node_x. cbn [x_min x_max]. destruct (Z.le_gt_cases i 0) as [K|K].
    + apply IZR_le in K. lra.
    + assert (K' : (1 <= i)%Z) by lia. apply IZR_le in K'. lra.
Qed.
Example C83_first_column_case : forall src w, extract_cropped src w 1 None None [ramp 180] [(-10, 9)] = Err ValueError.
Proof.
  intros src w. destruct (one_limit (-10) 9 ltac:(lra)) as [L1 L2].
  apply (C83_first_column_refuted src w 1 None None (Limits (-10) (-10) 9 9) (ramp 180) [] [(-10, 9)] true 180 36 10 0 18 3); try discriminate; auto.
  - apply ramp_grid.
  - left. cbn [x_min x_max]. rewrite Rmin_left by lra. split; [lra|]. split; [cbn; lra|]. split; [lia|]. intros k Hk. cbn [INR]. split; [|lia].
    replace (180 + 0 * 36 - 180) with 0 by ring. rewrite Rabs_R0. apply Rabs_pos.
Qed.

(** the same constants with and without cropping, also west of Greenwich *)
Example C83_same_case : forall src, exists r, extract_cropped src (Quick Spline) 1 None None [ramp 18] [(-36, 9)] = Ok [[r]] /\ extract_series src Spline 1 [ramp 18] [(-36, 9)] = Ok [[r]].
Proof.
  intros src. destruct (ramp_returns src (Quick Spline) (-36) (-6) (-2)) as (r & Er); auto; try discriminate; try lia; try lra; [apply ramp_west; lra|].
  assert (Fr : forall s, In s [ramp 18] -> framed Eastern (slon s)) by (intros s [<-|[]]; apply (eastern_frame 18 36 10 0 18 3); [apply ramp_grid|lra|lra]).
  assert (Fp : forall q, In q [(-36, 9)] -> -360 <= fst q <= 540) by (intros q [<-|[]]; cbn; lra).
  destruct (C69_returns src Spline 1 Eastern [ramp 18] [(-36, 9)]) as (out & Ho & Lo); auto; try discriminate.
  { intros s [<-|[]]. split; [apply Fr; now left|]. exists true, 18, 36, 10%nat, 0, 18, 3%nat. split; [apply ramp_grid|discriminate]. }
  destruct (one_limit (-36) 9 ltac:(lra)) as [L1 L2]. destruct (ramp_rows (-36)) as [R1 R2].
  destruct (C83_same_spline src 1 None None (Limits (-36) (-36) 9 9) 144 Eastern [ramp 18] [(-36, 9)] [[r]] out 0 (ramp 18) 0 (-36) 9 true 18 36 10 0 18 3 (-6) (-2) 0 1) as (cs & cs' & r' & O1 & O2 & O3 & O4); auto; try lia.
  - cbn. lra.
  - apply ramp_grid.
  - apply ramp_numbers.
  - cbn [x_min x_max]. apply ramp_west. lra.
  - right. split; auto. lra.
  - apply ramp_column; [lia|lra].
  - apply ramp_column; [lia|cbn [Z.add Z.pos_sub Pos.pred_double]; lra].
  - cbn. unfold eastward. destruct (Rlt_dec (-36) 0); lra.
  - destruct src; cbn; lia.
  - destruct src; cbn; lia.
  - unfold node_x. cbn [Z.add Z.pos_sub Pos.pred_double]. lra.
  - left. unfold node_y. cbn [INR]. lra.
  - cbn in O1. injection O1 as <-. cbn in O3. injection O3 as <-. exists r. split; auto. rewrite Ho. destruct out as [|c [|]]; try discriminate. cbn in O2. injection O2 as ->.
    destruct (series_inv _ _ _ _ _ _ _ 0%nat (ramp 18) 0%nat (-36, 9) _ _ _ _ _ _ _ Fr Fp Ho eq_refl (ramp_grid 18) eq_refl) as (_ & cs2 & _ & _ & _ & _ & _ & K1 & K2 & _). cbn in K1. injection K1 as <-. destruct cs' as [|c [|]]; try discriminate. cbn in O4. injection O4 as ->. reflexivity.
Qed.
