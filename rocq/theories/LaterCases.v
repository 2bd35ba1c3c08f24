(** C89: cases meeting the hypotheses of the theorems. *)
From Coq Require Import Reals List Bool Arith ZArith Lra Lia.
From Verif Require Import PyBase RBase MathModel GeoModel ConvertProps GridModel GridProofs InterpModel InterpProps ExtrapProps ExtractModel ExtractSpec NodeProps ExtractProofs ExtractProps SplineProps ReturnProps CaseProps MergeSpec MergeProps SeriesModel SeriesSpec SeriesProofs SeriesProps SeriesProps2 SeriesProps3 SeriesCases RegularModel RegularSpec RegularProofs RegularProps RegularProps2 CropModel CropSpec CropProofs CropProofs2 CropProps CropProps2 CropProps3 CropProps4 CropProps5 CropCases ShoreModel ShoreSpec ShoreProofs ShoreProps ShoreProps2 ShoreCases LaterModel LaterSpec LaterProofs LaterProps LaterProps2 LaterProps3 LaterProps4.
Import ListNotations.
Open Scope R_scope.

(** the columns at 54 and 90 degrees, and those at -54 and -18 degrees: a point at 324
    degrees is moved to -36 *)
Lemma ramp_later src lo hi f i x x' k1 k2 v : window 18 36 10 lo hi f -> lo <> 0 -> (f <= i < f + 9)%Z -> lo <= 18 + IZR i * 36 -> 18 + IZR i * 36 + 36 <= hi ->
  moved (kept_longitude (Limits lo hi 0 20) 0 src true 18 36 10 f) [(x, 9)] [(x', 9)] -> 18 + IZR i * 36 <= x' < 18 + IZR i * 36 + 36 ->
  column 10 i = k1 -> column 10 (i + 1) = k2 -> (k1 < 10)%nat -> (k2 < 10)%nat -> v = ((18 + IZR i * 36 + 36 - x') * (INR k1 + 1) + (x' - 18 - IZR i * 36) * (INR k2 + 1)) / 36 -> 0 <= v ->
  exists t p, read_options src true (Some (Limits lo hi 0 20)) 0 [ramp 18] = Ok t /\ interpolate_options src (Quick Spline) 1 None t [(x, 9)] = Ok [[Some (v, p)]].
Proof.
  intros W Hlo Hi L1 L2 Mv Hx K1 K2 B1 B2 Ev Hv. set (b := Limits lo hi 0 20) in *.
  assert (Sb : some_limit b) by (intros (K & _); cbn [x_min b] in K; contradiction).
  assert (A1 : forall m, 0 <= m -> column_available b m src true 18 36 10 f i) by (intros; left; split; [cbn; lia|]; unfold stays, node_x; cbn [x_min x_max b]; lra).
  assert (A2 : forall m, 0 <= m -> column_available b m src true 18 36 10 f (i + 1)) by (intros; left; split; [cbn; lia|]; unfold stays, node_x; rewrite plus_IZR; cbn [x_min x_max b]; lra).
  assert (R1 : forall m, 0 <= m -> row_stays b m 0 18 0) by (intros; unfold row_stays, stays, node_y; cbn; lra). assert (R2 : forall m, 0 <= m -> row_stays b m 0 18 1) by (intros; unfold row_stays, stays, node_y; cbn; lra).
  destruct (margin_exists b 0 18 36 10 0 18 3 f) as (m' & Hm' & Sk).
  destruct (C89_cropped src (Quick Spline) 1 None b 0 m' [ramp 18] [(x, 9)] [(x', 9)] true 18 36 10 0 18 3 f i 0) as (t & T & E); auto; try discriminate; try (cbn; lra); try lia.
  - intros s [<-|[]]. split; [apply ramp_grid|]. right. right. apply ramp_numbers.
  - apply A1. lra. - apply A2. lra. - apply R1. lra. - apply R2. lra.
  - exists t. rewrite T. rewrite C84_off in E. destruct Sk as [Sk1 Sk2].
    destruct (C83_returns src (Quick Spline) 1 (Some b) (Some m') b [ramp 18] [(x', 9)]) as (out & Ho & Lo); auto; try discriminate; [reflexivity| |].
    + intros s [<-|[]]. exists true, 18, 36, 10%nat, 0, 18, 3%nat, m', f, i, 0%nat. split; [apply ramp_grid|]. split; [now left|]. split; auto. split; [right; split; auto; lra|].
      split; [apply (available_same b 0 m' src true 18 36 10 0 18 3 f); [lia|split; auto|apply A1; lra]|]. split; [apply (available_same b 0 m' src true 18 36 10 0 18 3 f); [lia|split; auto|apply A2; lra]|].
      split; [lia|]. split; [apply Sk2; [lia|apply R1; lra]|]. split; [apply Sk2; [lia|apply R2; lra]|]. discriminate.
    + rewrite Ho in E. destruct (C89_spline src 1 b 0 [ramp 18] [(x, 9)] [(x', 9)] t out 0 (ramp 18) 0 x' 9 true 18 36 10 0 18 3 f i 0) as (cs & r & O1 & O2 & O3 & O4 & _); auto; try (cbn; lra); try lia.
      * intros s [<-|[]]. split; [apply ramp_grid | apply ramp_numbers].
      * apply A1. lra. * apply A2. lra. * apply R1. lra. * apply R2. lra.
      * unfold node_x. rewrite plus_IZR. lra.
      * left. unfold node_y. cbn [INR]. lra.
      * destruct (ramp_means x' i k1 k2 v _ K1 K2 B1 B2 Ev eq_refl) as [Q1 Q2]. destruct (O4 Q1) as [_ O5]. rewrite Q2 in O5. destruct (amplitude_real v r Hv O5) as (p & ->). exists p. split; auto. rewrite E.
        destruct out as [|c [|]]; try discriminate. cbn in O1. injection O1 as ->. destruct cs as [|c [|]]; try discriminate. cbn in O3. now injection O3 as ->.
Qed.
Example C89_cropped_case : forall src, exists t p, read_options src true (Some (Limits 20 100 0 20)) 0 [ramp 18] = Ok t /\ interpolate_options src (Quick Spline) 1 None t [(72, 9)] = Ok [[Some (5 / 2, p)]].
Proof.
  intros src. apply (ramp_later src 20 100 0 1 72 72 1 2); try lra; try lia; try reflexivity; [| |cbn; lra].
  - apply window_same; [rewrite Rmin_left by lra|rewrite Rmax_right by lra]; lra.
  - apply moved_not; left; intros p [<-|[]]; cbn; lra.
Qed.
Example C89_moved_case : forall src, exists t p, read_options src true (Some (Limits (-60) (-10) 0 20)) 0 [ramp 18] = Ok t /\ interpolate_options src (Quick Spline) 1 None t [(324, 9)] = Ok [[Some (19 / 2, p)]].
Proof.
  intros src. apply (ramp_later src (-60) (-10) (-6) (-2) 324 (-36) 8 9); try lra; try lia; try reflexivity; [| |cbn; lra].
  - change (-6)%Z with (Z.of_nat 4 - Z.of_nat 10)%Z. apply window_west; [rewrite Rmin_left by lra; lra|cbn; lra|apply ramp_closest|lia].
  - replace [(-36, 9)] with (map (fun p => (westward (fst p), snd p)) [(324, 9)]). 2:{ cbn [map fst snd]. unfold westward. destruct (Rlt_dec 180 324); [|lra]. do 2 f_equal. lra. }
    apply moved_west.
    + left. intros p [<-|[]]. cbn. lra.
    + exists (324, 9). split; [now left|cbn; lra].
    + exists (-54). split; [|lra]. exists (-2)%Z. split; [left; split; [lia|]; unfold stays, node_x; cbn [x_min x_max]; lra|unfold node_x; lra].
Qed.

(** beyond the northern row the constant of the nearest valid node with GOT, none with FES *)
Example C89_filled_case : exists t t' p, read_options GOT false None 0 [isles two] = Ok t /\ interpolate_options GOT (Regular Linear) 1 (Some None) t [(126, 45)] = Ok [[Some (3, p)]] /\
  read_options FES false None 0 [isles two] = Ok t' /\ interpolate_options FES (Regular Linear) 1 (Some None) t' [(126, 45)] = Ok [[None]].
Proof.
  assert (K : forall src, exists t, read_options src false None 0 [isles two] = Ok t /\ interpolate_options src (Regular Linear) 1 (Some None) t [(126, 45)] = extract_options src (Regular Linear) 1 false None None (Some None) [isles two] [(126, 45)]).
  { intros src. apply (C89_read src (Regular Linear) 1 (Some None) Eastern None None [isles two] [(126, 45)] true 18 36 10 0 18 3); try discriminate.
    - intros s Hs. split; [now apply (isles_frame two)|]. destruct Hs as [<-|[]]. split; [apply isles_grid|]. right. right. apply isles_numbers.
    - intros q [<-|[]]. cbn. lra.
    - right. left. split; auto. right. right. intros p [<-|[]]. cbn. lra. }
  destruct (K GOT) as (t & T1 & T2), (K FES) as (t' & T1' & T2'). destruct C84_nearest_case as (p & E1 & E2). exists t, t', p. rewrite T2, T2'. auto.
Qed.

(** between the columns at 54 and 90 degrees; the column at 54 degrees alone *)
Example C89_default_case : forall src, read_options src true (Some (Limits 72 72 9 9)) 0 [ramp 18] = Err IndexError /\
  exists out, extract_options src (Quick Spline) 1 true (Some (Limits 72 72 9 9)) None None [ramp 18] [(72, 9)] = Ok out /\ length out = 1%nat.
Proof.
  intros src. apply (C89_default_refuted src (Quick Spline) 1 (ramp 18) [] 72 9 true 18 36 10 0 18 3 0 1 0); try discriminate; auto; try lia; try lra.
  - apply ramp_grid. - intros s []. - apply ramp_east. lra. - unfold node_x. cbn. lra. - unfold node_y. cbn. lra.
Qed.
Example C89_single_case : forall src, read_options src true (Some (Limits 40 60 0 20)) 0 [ramp 18] = Err IndexError.
Proof.
  intros src. apply (C89_single src (Limits 40 60 0 20) 0 (ramp 18) [] true 18 36 10 0 18 3 0 1 0); auto; try lia.
  - intros (K & _). cbn in K. lra.
  - apply ramp_grid.
  - apply window_same; cbn [x_min x_max]; [rewrite Rmin_left by lra|rewrite Rmax_right by lra]; lra.
  - intros i Hi. unfold stays, node_x. cbn [x_min x_max]. split; [|intros ->; lra]. intros K. assert (0 < i < 2)%Z; [|lia]. split; apply lt_IZR; lra.
  - unfold row_stays, stays, node_y. cbn. lra.
Qed.
