(** C86: concrete cases. *)
From Coq Require Import Reals List Bool Arith ZArith Lra Lia.
From Verif Require Import PyBase RBase MathModel GeoModel ConvertProps GridModel GridProofs InterpModel InterpProps ExtractModel ExtractSpec NodeProps ExtractProofs ExtractProps SplineProps ReturnProps SeriesModel SeriesProps SeriesProps3 RegularModel CropModel CropSpec CropProofs CropProofs2 CropProps ShoreModel CoastModel CoastProps CoastProps3 NarrowModel NarrowSpec NarrowProofs NarrowProps NarrowProps2 NarrowProps3 NarrowProps4 NarrowProps5.
Import ListNotations.
Open Scope R_scope.

(** the bay cropped to its two western columns: meridional transports between them *)
Definition half_bay : limits := Limits 0 8 (-3) 20.
Lemma half_frame : frame false 0 10 3 (x_min half_bay) (x_max half_bay) 0.
Proof. left. auto. Qed.
Lemma half_kept : nothing_lost false false Meridional 0 10 3 0 10 3 half_bay 2 0.
Proof.
  split; [discriminate|]. intros _ (j & _ & _ & L). unfold node_y, half_bay in L. cbn [y_min] in L. pose proof (pos_INR j). lra.
Qed.
Lemma half_cell : cell_stays Meridional 0 10 3 0 10 3 half_bay 2 0 0 1.
Proof.
  unfold cell_stays, stays, node_x, node_y, half_bay. cbn [x_min x_max y_min y_max Z.add INR pred]. repeat split; try lia; try lra; try discriminate; try (intros _; right; lra).
Qed.
Lemma half_columns : columns_kept 0 10 3 (x_min half_bay) (x_max half_bay) 2 0 0 2.
Proof.
  split; [lia|]. split; [lia|]. intros i Hi. unfold stays, node_x, half_bay. cbn [x_min x_max]. assert (i = 0 \/ i = 1 \/ i = 2)%Z as [-> | [-> | ->]] by lia; split; intros; try lia; lra.
Qed.
Example cropped_bay : exists depths cols,
  extract_narrow (fun p => p) false (Quick Bilinear) VV None true (Some half_bay) (Some 2) bay [bay_tide] [(5, 8)] = Ok (depths, cols) /\
  exists z col r, mean (corners Meridional 0 10 0 10 3 5 8 0 1 bay_water) = z /\ nth_error depths 0 = Some (z, no_value z) /\
    nth_error cols 0 = Some col /\ nth_error col 0 = Some r.
Proof.
  destruct half_cell as (C1 & C2 & C3 & C4 & C5 & C6 & C7 & _).
  destruct (C86_returns (fun p => p) false false (Quick Bilinear) VV Meridional None (Some half_bay) (Some 2) half_bay 2 0 10 3 0 10 3 bay [bay_tide] [(5, 8)] 0 0 1 bay_grid eq_refl) as (ds & cols & E);
    try discriminate; try reflexivity; auto using half_frame, half_kept; try lia.
  { unfold some_limit, half_bay. cbn [x_min x_max y_min y_max]. lra. } { cbn [margin]. left. lra. }
  { intros _ p x [<-|[]] [->|[H _]] i; [|discriminate]. cbn [fst]. unfold node_x. intros H. assert (Hh : IZR (2 * i) = 1) by (rewrite mult_IZR; lra). apply eq_IZR in Hh. lia. }
  exists ds, cols. split; [exact E|].
  destruct (C86_cell (fun p => p) false false VV Meridional (Some half_bay) (Some 2) half_bay 2 0 10 3 0 10 3 bay [bay_tide] [(5, 8)] 0 0 2 0 1 ds cols 0 (5, 8) 5 8 bay_grid eq_refl) as (D & L & Oc);
    try discriminate; try reflexivity; auto using half_frame, half_kept, half_cell, half_columns.
  { unfold some_limit, half_bay. cbn [x_min x_max y_min y_max]. lra. } { cbn [margin]. left. lra. } { intros [H _]. discriminate. }
  { apply settled_same. now left. } { unfold node_y. cbn [INR]. lra. } { left. unfold node_y. cbn [INR]. lra. }
  { unfold between_nodes, node_x, node_y. cbn [Z.add INR]. lra. }
  { unfold at_node, ExtractSpec.close, node_x, node_y. cbn [Z.add INR]. intros [[A|A] _]; revert A; [replace (5 - (0 + 0 * 10)) with 5 by lra | replace (5 - (0 + 1 * 10)) with (- (5)) by lra; rewrite Rabs_Ropp]; rewrite !Rabs_pos_eq by lra; lra. }
  destruct (Oc 0%nat bay_tide eq_refl) as (col & r & O1 & O2 & _). eauto 8.
Qed.
(** bounds which lose a column to zonal and a row to meridional transports: the whole model
    has a result *)
Definition east_bay : limits := Limits 7 20 0 20.
Definition north_bay : limits := Limits 0 20 7 20.
Example lost_column out : extract_narrow (fun p => p) false (Quick Spline) VU None true (Some east_bay) (Some 1) bay [bay_tide] [(12, 8)] <> Ok out.
Proof.
  apply (C86_zonal_refuted (fun p => p) false false (Quick Spline) VU None (Some east_bay) (Some 1) east_bay 1 0 10 3 0 10 3 bay [bay_tide] [(12, 8)] 1 0 out bay_grid eq_refl); try discriminate; try reflexivity; try lia.
  - unfold some_limit, east_bay. cbn [x_min x_max y_min y_max]. lra. - cbn [margin]. left. lra. - left. auto.
  - unfold stays, node_x, east_bay. cbn [x_min x_max]. lra. - change (1 + 1)%Z with 2%Z. unfold stays, node_x, east_bay. cbn [x_min x_max]. lra.
  - unfold stays, node_y, east_bay. cbn [y_min y_max INR]. lra. - unfold stays, node_y, east_bay. cbn [y_min y_max INR]. lra.
  - exists 1%Z. split; [lia|]. unfold stays, node_x, east_bay. cbn [x_min x_max]. lra.
Qed.
Example lost_row out : extract_narrow (fun p => p) false (Quick Spline) VV None true (Some north_bay) (Some 1) bay [bay_tide] [(12, 12)] <> Ok out.
Proof.
  apply (C86_meridional_refuted (fun p => p) false false (Quick Spline) VV None (Some north_bay) (Some 1) north_bay 1 0 10 3 0 10 3 bay [bay_tide] [(12, 12)] 0 0 1 out bay_grid eq_refl); try discriminate; try reflexivity; try lia.
  - unfold some_limit, north_bay. cbn [x_min x_max y_min y_max]. lra. - cbn [margin]. left. lra. - left. auto.
  - unfold stays, node_x, north_bay. cbn [x_min x_max]. lra. - unfold stays, node_x, north_bay. cbn [x_min x_max Z.add]. lra.
  - unfold stays, node_y, north_bay. cbn [y_min y_max INR]. lra. - unfold stays, node_y, north_bay. cbn [y_min y_max INR]. lra.
  - exists 1%nat. split; [lia|]. unfold stays, node_y, north_bay. cbn [y_min y_max INR]. lra.
Qed.
Example whole_bay : exists depths cols, extract_narrow (fun p => p) false (Quick Spline) VU None false (Some east_bay) (Some 1) bay [bay_tide] [(12, 8)] = Ok (depths, cols).
Proof.
  destruct (C85_returns (fun p => p) false false (Quick Spline) VU Zonal 0 10 3 0 10 3 bay [bay_tide] [(12, 8)] None bay_grid eq_refl) as (d & c & E); try discriminate.
  exists d, c. rewrite <- E. apply C86_off. now left.
Qed.

(** a strip of six columns: a point three quarters of the way from one column to the next *)
Definition strip : grid := Grid [0; 10; 20; 30; 40; 50] [0; 10; 20] (repeat (repeat 100 6) 3) (repeat (repeat 1%Z 6) 3).
Definition strip_tide : field := repeat (repeat (Some (3, 0), false) 6) 3.
Lemma strip_grid : model_grid false false 0 10 6 0 10 3 strip [strip_tide].
Proof.
  split; [split; [lra|]; split; [reflexivity|]; intros [|[|[|[|[|[|i]]]]]] Hi; cbn; lra || lia|]. split; [exact bay_axis|]. split; [lia|]. split; [lia|].
  split; [split; [reflexivity | intros r Hr; apply repeat_spec in Hr as ->; reflexivity]|]. split; [split; [reflexivity | intros r Hr; apply repeat_spec in Hr as ->; reflexivity]|].
  split; [|right; auto]. intros hc [<-|[]]. split; [reflexivity | intros r Hr; apply repeat_spec in Hr as ->; reflexivity].
Qed.
Example strip_lost out : extract_narrow (fun p => p) false (Quick Spline) Vu None true None None strip [strip_tide] [(37.5, 8)] <> Ok out.
Proof.
  apply (C86_default_refuted (fun p => p) false (Quick Spline) Vu None (Limits 37.5 37.5 8 8) 0 10 6 0 10 3 strip [strip_tide] [(37.5, 8)] 4 0 out strip_grid eq_refl); try discriminate; try lia.
  - cbn [for_points map fst snd x_min x_max y_min y_max]. split; (split; [now left|]; split; [now left|]; intros x [<-|[]]; lra).
  - unfold some_limit. cbn [x_min x_max y_min y_max]. lra.
  - unfold node_x. cbn [x_min]. lra.
  - unfold stays, node_y. cbn [y_min y_max INR]. lra. - unfold stays, node_y. cbn [y_min y_max INR]. lra.
Qed.
(** reading the bay cropped to two columns *)
Example read_half : exists g' hcs', read_narrow false VV true (Some half_bay) 2 bay [bay_tide] = read_constants false VV g' hcs' /\ block 0 3 0 2 0 3 (ghz bay) (ghz g').
Proof.
  destruct half_cell as (C1 & C2 & C3 & C4 & C5 & C6 & C7 & _).
  destruct (C86_reading false false VV Meridional half_bay 2 0 10 3 0 10 3 bay [bay_tide] 0 0 1 bay_grid eq_refl) as (ar & a & na & c & nr & g' & hcs' & Cm & E); try discriminate; auto using half_frame, half_kept; try lia.
  { unfold some_limit, half_bay. cbn [x_min x_max y_min y_max]. lra. }
  exists g', hcs'. split; [exact E|]. destruct Cm as ((A1 & A2 & A3) & (B1 & B2) & _ & M' & Bh & _).
  assert (Q : forall i, (0 <= i < 3)%Z -> (a <= i < a + Z.of_nat na)%Z <-> (0 <= i < 0 + Z.of_nat 2)%Z) by (intros i Hi; rewrite A3 by lia; rewrite (proj2 (proj2 half_columns) i) by lia; reflexivity).
  assert (P : forall j, (j < 3)%nat -> (c <= j < c + nr)%nat <-> (0 <= j < 0 + 3)%nat).
  { intros j Hj. rewrite B2 by lia. split; [lia|]. intros _. unfold stays, node_y, half_bay. cbn [y_min y_max]. destruct j as [|[|[|j]]]; [| | |lia]; cbn [INR]; lra. }
  pose proof (proj2 (Q 0%Z ltac:(lia)) ltac:(lia)). pose proof (proj2 (Q 1%Z ltac:(lia)) ltac:(lia)). assert (~ (a <= 2 < a + Z.of_nat na)%Z) by (intros H2; apply Q in H2; lia).
  pose proof (proj2 (P 0%nat ltac:(lia)) ltac:(lia)). pose proof (proj2 (P 2%nat ltac:(lia)) ltac:(lia)).
  replace a with 0%Z in Bh by lia. replace na with 2%nat in Bh by lia. replace c with 0%nat in Bh by lia. replace nr with 3%nat in Bh by lia. exact Bh.
Qed.

(** bounds beyond the bay *)
Example beyond_bay : extract_narrow (fun p => p) false (Quick Spline) VV None true (Some (Limits 100 120 0 20)) (Some 2) bay [bay_tide] [(5, 8)] = Err IndexError.
Proof.
  apply (C86_empty (fun p => p) false false (Quick Spline) VV None (Some (Limits 100 120 0 20)) (Some 2) (Limits 100 120 0 20) 2 0 10 3 0 10 3 bay [bay_tide] [(5, 8)] 0 bay_grid); try discriminate; try reflexivity.
  - unfold some_limit. cbn [x_min x_max y_min y_max]. lra. - cbn [margin]. left. lra. - left. auto. - now left.
  - left. intros i Hi [H _]. unfold node_x in H. cbn [x_min] in H. assert (IZR i <= 2) by (apply IZR_le; lia). lra.
Qed.
