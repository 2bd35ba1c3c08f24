(** C72: cases meeting the hypotheses of the theorems. *)
From Coq Require Import Reals List Bool Arith ZArith Lra Lia.
From Verif Require Import PyBase RBase MathModel GeoModel ConvertProps GridModel InterpModel InterpProps ExtractModel ExtractSpec NodeProps ExtractProofs ExtractProps SplineProps ReturnProps SeriesModel SeriesSpec SeriesCases AtlasNcModel AtlasNcSpec AtlasNcProps AtlasNcProps2 AtlasNcProps3 AtlasNcProps4 AtlasNcCases MaskModel MaskSpec MaskProps MaskProps2 MaskProps3 MaskProps4.
Import ListNotations.
Open Scope R_scope.

Definition same (q : R * R) : R * R := q.
Lemma basin_axes : ascending (nlon basin) /\ ascending (nlat basin) /\ gridded (nlon basin) (nlat basin) (Satlas Vu ocean).
Proof.
  destruct (grid_axes basin true 90 90 0 10 4 3 basin_grid) as (A1 & A2 & _). split; [exact A1|]. split; [exact A2|].
  apply (gridded_nodes ocean Vu basin true 90 90 4 0 10 3); [constructor|reflexivity|apply basin_grid].
Qed.
Lemma basin_position x y : 0 <= x -> position same (Satlas Vu ocean) (same (x, y)) = (x, y).
Proof. intros. cbn. unfold eastward. destruct (Rlt_dec x 0); [lra|reflexivity]. Qed.
Lemma basin_open j i d : entry 0 (ndepth basin) i j = d -> d <> 0 -> open_at j i (Satlas Vu ocean).
Proof. intros E Hd. apply (Open_atlas j i Vu ocean basin d); [constructor|now apply depth_v]. Qed.
Lemma basin_land : ~ open_at 1 2 (Satlas Vu ocean).
Proof. intros H. apply (open_depth_at ocean Vu basin) in H; [|constructor]. apply H. apply depth_n. reflexivity. Qed.
Ltac next := unfold beside, nlon, nlat, basin; repeat split; [cbn; lia|intros k Hk; do 4 (destruct k as [|k]; [try lia; cbn; lra|]); lia|intros k Hk; cbn [length] in Hk; do 4 (destruct k as [|k]; [try lia; cbn; lra|]); lia].

(** between water and land; far from land; outside; west of Greenwich *)
Example C72_spline_case : exists out, tide_masks same same Mspline (Satlas Vu ocean) (P1 [(225, 5); (270, 10); (50, 5); (-90, 5)]) = Ok out /\
  out = [Some true; Some false; Some false; Some true].
Proof.
  destruct basin_axes as (A1 & A2 & G). set (pts := [(225, 5); (270, 10); (50, 5); (-90, 5)]).
  destruct (C72_spline same same (Satlas Vu ocean) _ _ pts A1 A2 G) as (out & E & L & H). exists out. split; [exact E|].
  destruct (H 0%nat (225, 5) 225 5 eq_refl) as (b0 & E0 & H0); [apply basin_position; lra|].
  destruct (H 1%nat (270, 10) 270 10 eq_refl) as (b1 & E1 & H1); [apply basin_position; lra|].
  destruct (H 2%nat (50, 5) 50 5 eq_refl) as (b2 & E2 & H2); [apply basin_position; lra|].
  destruct (H 3%nat (-90, 5) 270 5 eq_refl) as (b3 & E3 & H3); [cbn; unfold eastward; destruct (Rlt_dec (-90) 0); [f_equal; lra|lra]|].
  assert (b0 = true) as ->. { apply H0. split; [unfold boxed, spanned; cbn; lra|]. exists 0%nat, 1%nat. split; [next|]. split; [next|]. apply (basin_open _ _ 300); [reflexivity|lra]. }
  assert (b1 = false) as ->.
  { destruct b1; [|reflexivity]. exfalso. destruct (proj1 H1 eq_refl) as (_ & j & i & Bj & Bi & O).
    assert (j = 1)%nat. { destruct Bj as (K1 & K2 & K3). cbn [nlat basin length] in *. destruct j as [|[|[|j]]]; [|reflexivity| |lia]; [specialize (K3 1%nat ltac:(lia)); cbn in K3; lra|specialize (K2 1%nat ltac:(lia)); cbn in K2; lra]. }
    assert (i = 2)%nat. { destruct Bi as (K1 & K2 & K3). cbn [nlon basin length] in *. destruct i as [|[|[|[|i]]]]; [| |reflexivity| |lia]; [specialize (K3 2%nat ltac:(lia)); cbn in K3; lra|specialize (K3 2%nat ltac:(lia)); cbn in K3; lra|specialize (K2 2%nat ltac:(lia)); cbn in K2; lra]. }
    subst. now apply basin_land. }
  assert (b2 = false) as ->. { destruct b2; [|reflexivity]. exfalso. destruct (proj1 H2 eq_refl) as (K & _). unfold boxed, spanned in K. cbn in K. lra. }
  assert (b3 = true) as ->. { apply H3. split; [unfold boxed, spanned; cbn; lra|]. exists 0%nat, 2%nat. split; [next|]. split; [next|]. apply (basin_open _ _ 100); [reflexivity|lra]. }
  destruct out as [|o0 [|o1 [|o2 [|o3 [|]]]]]; try discriminate. cbn in E0, E1, E2, E3. congruence.
Qed.

(** near land: one of the nodes around has water, the nearest is land; the same point
    given west of Greenwich *)
Example C72_linear_case : exists out, tide_masks same same Mlinear (Satlas Vu ocean) (P1 [(260, 12); (-100, 12)]) = Ok out /\ out = [Some true; Some false].
Proof.
  destruct basin_axes as (A1 & A2 & G). set (pts := [(260, 12); (-100, 12)]).
  destruct (C72_linear same same (Satlas Vu ocean) _ _ pts A1 A2 G) as (out & E & L & H). exists out. split; [exact E|].
  destruct (H 0%nat (260, 12) 260 12 eq_refl) as (b0 & E0 & H0); [apply basin_position; lra|]. cbn [fst snd] in H0.
  assert (b0 = true) as ->. { apply H0. split; [unfold boxed, spanned; cbn; lra|]. split; [unfold boxed, spanned; cbn; lra|]. exists 1%nat, 1%nat. split; [next|]. split; [next|]. apply (basin_open _ _ 300); [reflexivity|lra]. }
  destruct (C72_regular_refuted same same Mlinear (Satlas Vu ocean) _ _ pts 1 (-100, 12) A1 A2 G) as (out' & E' & E1); auto; [cbn; lra|cbn; lra|].
  assert (out' = out) by congruence. subst out'. destruct out as [|o0 [|o1 [|]]]; try discriminate. cbn in E0, E1. congruence.
Qed.
Lemma nearer_to l i x : (i < length l)%nat -> (forall k, (k < length l)%nat -> k <> i -> Rabs (x - nth i l 0) < Rabs (x - nth k l 0)) -> nearest l i x.
Proof. intros Hi H. split; [exact Hi|]. intros k Hk Hne. left. now apply H. Qed.
Example C72_nearest_case : exists out, tide_masks same same Mnearest (Satlas Vu ocean) (P1 [(260, 12); (220, 12)]) = Ok out /\ out = [Some false; Some true].
Proof.
  destruct basin_axes as (A1 & A2 & G). set (pts := [(260, 12); (220, 12)]).
  destruct (C72_nearest same same (Satlas Vu ocean) _ _ pts A1 A2 G) as (out & E & L & H). exists out. split; [exact E|].
  destruct (H 0%nat (260, 12) 260 12 eq_refl) as (b0 & E0 & H0); [apply basin_position; lra|]. cbn [fst snd] in H0.
  destruct (H 1%nat (220, 12) 220 12 eq_refl) as (b1 & E1 & H1); [apply basin_position; lra|]. cbn [fst snd] in H1.
  assert (Nr : nearest (nlat basin) 1 12).
  { apply nearer_to; [cbn; lia|]. intros k Hk Hne. cbn [nlat basin length] in *. do 3 (destruct k as [|k]; [try lia; cbn [nth]; unfold Rabs; repeat destruct Rcase_abs; lra|]). lia. }
  assert (b0 = false) as ->.
  { destruct b0; [|reflexivity]. exfalso. destruct (proj1 H0 eq_refl) as (_ & _ & j & i & Nj & Ni & O).
    assert (Nc : nearest (nlon basin) 2 260).
    { apply nearer_to; [cbn; lia|]. intros k Hk Hne. cbn [nlon basin length] in *. do 4 (destruct k as [|k]; [try lia; cbn [nth]; unfold Rabs; repeat destruct Rcase_abs; lra|]). lia. }
    assert (j = 1)%nat by (apply (nearest_unique (nlat basin) _ _ 12); auto). assert (i = 2)%nat by (apply (nearest_unique (nlon basin) _ _ 260); auto). subst. now apply basin_land. }
  assert (b1 = true) as ->.
  { apply H1. split; [unfold boxed, spanned; cbn; lra|]. split; [unfold boxed, spanned; cbn; lra|]. exists 1%nat, 1%nat. split; [exact Nr|]. split.
    - apply nearer_to; [cbn; lia|]. intros k Hk Hne. cbn [nlon basin length] in *. do 4 (destruct k as [|k]; [try lia; cbn [nth]; unfold Rabs; repeat destruct Rcase_abs; lra|]). lia.
    - apply (basin_open _ _ 300); [reflexivity|lra]. }
  destruct out as [|o0 [|o1 [|]]]; try discriminate. cbn in E0, E1. congruence.
Qed.

(** at a node of land, in the middle of a cell, on the first row; and one point on the
    last column, for which all are refused *)
Example C72_bilinear_case : exists out, tide_masks same same Mbilinear (Satlas Vu ocean) (P1 [(270, 10); (225, 5); (225, 0)]) = Ok out /\ out = [Some false; Some true; None].
Proof.
  destruct basin_axes as (A1 & A2 & G). set (pts := [(270, 10); (225, 5); (225, 0)]).
  destruct (C72_bilinear same same (Satlas Vu ocean) _ _ pts A1 A2 G) as (out & E & L & H).
  { intros p Hp. destruct Hp as [<-|[<-|[<-|[]]]]; rewrite basin_position by lra; cbn; lra. }
  exists out. split; [exact E|].
  destruct (H 0%nat (270, 10) 270 10 eq_refl) as (H0 & _); [apply basin_position; lra|]. destruct H0 as (b0 & E0 & _ & _ & H0); [unfold spanned; cbn; lra|].
  destruct (H 1%nat (225, 5) 225 5 eq_refl) as (H1 & _); [apply basin_position; lra|]. destruct H1 as (b1 & E1 & H1 & _); [unfold spanned; cbn; lra|].
  destruct (H 2%nat (225, 0) 225 0 eq_refl) as (_ & E2); [apply basin_position; lra|]. specialize (E2 ltac:(right; left; cbn; lra)).
  assert (b0 = false) as ->. { destruct b0; [|reflexivity]. exfalso. apply basin_land. apply (H0 1%nat 2%nat); [cbn; lia|cbn; lia|reflexivity|reflexivity|reflexivity]. }
  assert (b1 = true) as ->.
  { apply H1; [|exists 0%nat, 1%nat; split; [next|]; split; [next|]; apply (basin_open _ _ 300); [reflexivity|lra]].
    intros j i Hj Hi [C1 _]. cbn [nlon basin length] in *. revert C1. do 4 (destruct i as [|i]; [cbn [nth]; apply not_close; unfold Rabs; repeat destruct Rcase_abs; lra|]). lia. }
  destruct out as [|o0 [|o1 [|o2 [|]]]]; try discriminate. cbn in E0, E1, E2. congruence.
Qed.
Example C72_last_column_case : exists e, tide_masks same same Mbilinear (Satlas Vu ocean) (P1 [(225, 5); (360, 5)]) = Err e.
Proof.
  destruct basin_axes as (A1 & A2 & G). apply (C72_last_column_refuted same same (Satlas Vu ocean) _ _ [(225, 5); (360, 5)] (360, 5) A1 A2 G).
  - right. now left.
  - rewrite basin_position by lra. reflexivity.
  - rewrite basin_position by lra. cbn. lra.
Qed.

(** ** Beside the extraction of constants *)
Lemma far_basin b a : (b < 3)%nat -> (a < 4)%nat -> ~ (ExtractSpec.close 225 (node_x Heights 90 90 (Z.of_nat a)) /\ ExtractSpec.close 5 (node_y Heights 0 10 b)).
Proof.
  intros Hb Ha [_ C]. revert C. unfold node_y. do 3 (destruct b as [|b]; [apply not_close; cbn; unfold Rabs; repeat destruct Rcase_abs; lra|]). lia.
Qed.
Lemma cell_225 : between_nodes Heights 90 90 0 10 225 5 (Z.of_nat 1) 0.
Proof. unfold between_nodes, node_x, node_y. cbn [Z.of_nat Pos.of_succ_nat Z.add Pos.add Pos.succ INR]. lra. Qed.
Example C72_agrees_case : exists out masks cs r, extract_atlas Bilinear Vu 1 ocean [flows] [(225, 5)] = Ok out /\ nth_error (aconst out) 0 = Some cs /\ nth_error cs 0 = Some (Some r) /\
  tide_masks same same Mbilinear (Satlas Vu ocean) (P1 [(225, 5)]) = Ok masks /\ nth_error masks 0 = Some (Some true).
Proof.
  destruct basin_axes as (A1 & A2 & G). set (pts := [(225, 5)]).
  destruct (flow_result Bilinear Vu basin 90 pts) as (out & Ho & Lo & Ln); auto; [discriminate|intros q [<-|[]]; cbn; lra|].
  destruct (C72_bilinear same same (Satlas Vu ocean) _ _ pts A1 A2 G) as (m & E & L & H).
  { intros p Hp. destruct Hp as [<-|[]]; rewrite (basin_position 225 5) by lra; cbn; lra. }
  destruct (C72_agrees same Vu 1 ocean basin [flows] pts out m 0 flows flow 0 (225, 5) true 90 90 4 0 10 3 225 5 1 0) as (cs & r & b & Q1 & Q2 & Q3 & Q4); auto.
  { constructor. } { apply basin_grid. } { apply basin_frame. } { constructor. } { apply flow_grid. } { apply flow_numbers. }
  { apply (east 225). lra. } { apply cell_225. } { intros; now apply far_basin. }
  destruct (H 0%nat (225, 5) 225 5 eq_refl (basin_position 225 5 ltac:(lra))) as (H1 & _). destruct H1 as (b1 & E1 & H1 & _); [unfold spanned; cbn; lra|].
  assert (b1 = b) by congruence. subst b1.
  assert (b = true) as ->.
  { apply H1; [|exists 0%nat, 1%nat; split; [next|]; split; [next|]; apply (basin_open _ _ 300); [reflexivity|lra]].
    intros j i Hj Hi [C1 _]. cbn [nlon basin length] in *. revert C1. do 4 (destruct i as [|i]; [cbn [nth]; apply not_close; unfold Rabs; repeat destruct Rcase_abs; lra|]). lia. }
  destruct r as [r|]; [|exfalso; now apply (proj1 Q4 eq_refl)]. exists out, m, cs, r. auto.
Qed.
(** the same point with splines: within the domain, but no constant *)
Example C72_spline_refuted_case : exists out masks cs, extract_atlas Spline Vu 1 ocean [flows] [(225, 5)] = Ok out /\ nth_error (aconst out) 0 = Some cs /\ nth_error cs 0 = Some None /\
  tide_masks same same Mspline (Satlas Vu ocean) (P1 [(225, 5)]) = Ok masks /\ nth_error masks 0 = Some (Some true).
Proof.
  destruct basin_axes as (A1 & A2 & G). set (pts := [(225, 5)]).
  destruct (flow_result Spline Vu basin 90 pts) as (out & Ho & Lo & Ln); auto; [discriminate|intros q [<-|[]]; cbn; lra|].
  destruct (C72_spline same same (Satlas Vu ocean) _ _ pts A1 A2 G) as (m & E & L & H).
  destruct (C72_spline_refuted same Vu 1 ocean basin [flows] pts out m 0 flows flow 0 (225, 5) true 90 90 4 0 10 3 225 5 1 0) as (cs & Q1 & Q2 & Q3); auto.
  { constructor. } { apply basin_grid. } { apply basin_frame. } { constructor. } { apply flow_grid. } { apply flow_numbers. }
  { apply (east 225). lra. } { apply cell_225. }
  { exists 1%nat, 2%nat. split; [next|]. split; [next|]. now apply depth_n. }
  { exists 0%nat, 1%nat. split; [next|]. split; [next|]. rewrite (depth_v basin 0 1 300); [discriminate|reflexivity|lra]. }
  exists out, m, cs. auto.
Qed.
(** between 315 and 360 degrees on a grid from 45 to 315 *)
Example C72_seam_case : exists out masks cs r, extract_atlas Bilinear Vv 1 ocean [flows] [(340, 5)] = Ok out /\ nth_error (aconst out) 0 = Some cs /\ nth_error cs 0 = Some (Some r) /\
  tide_masks same same Mspline (Satlas Vv ocean) (P1 [(340, 5)]) = Ok masks /\ nth_error masks 0 <> Some (Some true).
Proof.
  set (pts := [(340, 5)]).
  destruct (flow_result Bilinear Vv half 45 pts) as (out & Ho & Lo & Ln); auto; [discriminate|intros q [<-|[]]; cbn; lra|].
  destruct (grid_axes half true 45 90 0 10 4 3 half_grid) as (A1 & A2 & _).
  assert (G : gridded (nlon half) (nlat half) (Satlas Vv ocean)) by (apply (gridded_nodes ocean Vv half true 45 90 4 0 10 3); [constructor|reflexivity|apply half_grid]).
  destruct (C72_spline same same (Satlas Vv ocean) _ _ pts A1 A2 G) as (m & E & L & H).
  destruct (C72_seam_refuted same Mspline Vv 1 ocean half [flows] pts out m 0 flows flow 0 (340, 5) 45 90 4 0 10 3 340 5 0) as ((cs & r & Q1 & Q2) & Q3); auto.
  { constructor. } { apply half_grid. } { apply half_frame. } { constructor. } { apply flow_grid. } { apply flow_numbers. }
  { apply (east 340). lra. } { cbn. lra. } { unfold between_nodes, node_x, node_y. cbn. lra. }
  { intros [_ [C|C]]; revert C; unfold node_y; apply not_close; cbn; unfold Rabs; repeat destruct Rcase_abs; lra. }
  { rewrite (depth_v half 0 (4 - 1) 100); [discriminate|reflexivity|lra]. }
  exists out, m, cs, r. repeat split; auto. destruct Q3 as [-> | ->]; discriminate.
Qed.
Definition west : nodes := Nodes [-90; 0; 90; 180] [0; 10; 20] deep.
Definition west_ocean : grid_file := GridFile 4 3 west west west.
Lemma west_grid : nodes_grid true (-90) 90 4 0 10 3 west.
Proof.
  unfold nodes_grid. cbn [nlon nlat ndepth west]. split; [|split; [apply even3|split; [lia|split; [lia|split; [apply rect43|left; split; [reflexivity|cbn; lra]]]]]].
  replace [-90; 0; 90; 180] with [-90; -90 + 90; -90 + 180; -90 + 270] by (repeat f_equal; lra). apply even4.
Qed.
Lemma west_frame : framed Western (nlon west).
Proof. split; [exists (-90); split; [cbn; tauto|lra]|]. intros a H. cbn in H. repeat (destruct H as [<-|H]; [lra|]). destruct H. Qed.
Example C72_west_case : exists out masks cs r, extract_atlas Bilinear Vu 1 west_ocean [flows] [(-45, 5)] = Ok out /\ nth_error (aconst out) 0 = Some cs /\ nth_error cs 0 = Some (Some r) /\
  tide_masks same same Mlinear (Satlas Vu west_ocean) (P1 [(-45, 5)]) = Ok masks /\ nth_error masks 0 <> Some (Some true).
Proof.
  set (pts := [(-45, 5)]).
  destruct (C71_returns Bilinear Vu 1 Western west_ocean west [flows] pts true (-90) 90 4 0 10 3) as (out & Ho & Lo & Ln); auto.
  { constructor. } { apply west_grid. } { apply west_frame. } { apply flow_files. now left. } { discriminate. }
  { intros _ p [<-|[]]. rewrite last4. unfold node_x. cbn [placed fst]. unfold westward. destruct (Rlt_dec 180 (-45)); lra. }
  destruct (grid_axes west true (-90) 90 0 10 4 3 west_grid) as (A1 & A2 & _).
  assert (G : gridded (nlon west) (nlat west) (Satlas Vu west_ocean)) by (apply (gridded_nodes west_ocean Vu west true (-90) 90 4 0 10 3); [constructor|reflexivity|apply west_grid]).
  destruct (C72_linear same same (Satlas Vu west_ocean) _ _ pts A1 A2 G) as (m & E & L & H).
  destruct (C72_west_refuted same Mlinear Vu 1 west_ocean west [flows] pts out m 0 flows flow 0 (-45, 5) true (-90) 90 4 0 10 3 0 0) as ((cs & r & Q1 & Q2) & Q3); auto.
  { constructor. } { apply west_grid. } { apply west_frame. } { constructor. } { apply flow_grid. } { apply flow_numbers. }
  { cbn. lra. } { unfold between_nodes, node_x, node_y. cbn. lra. }
  { intros [_ [C|C]]; revert C; unfold node_y; apply not_close; cbn; unfold Rabs; repeat destruct Rcase_abs; lra. }
  { rewrite (depth_v west 0 0 100); [discriminate|reflexivity|lra]. }
  exists out, m, cs, r. repeat split; auto. destruct Q3 as [-> | ->]; discriminate.
Qed.
(** numbers and tables of two rows are refused, one row is not *)
Example C72_shapes_case : (forall p out, tide_masks same same Mspline (Satlas Vu ocean) (P0 p) <> Ok out) /\ (forall a b out, tide_masks same same Mspline (Satlas Vu ocean) (P2 [[a]; [b]]) <> Ok out) /\
  exists out, tide_masks same same Mspline (Satlas Vu ocean) (P2 [[(225, 5); (270, 10); (50, 5); (-90, 5)]]) = Ok out.
Proof.
  split; [|split].
  - intros p out H. destruct (C72_shapes_refuted _ _ _ _ _ _ H) as (row & [K|(rows & K & _)]); discriminate.
  - intros a b out H. destruct (C72_shapes_refuted _ _ _ _ _ _ H) as (row & [K|(rows & K & [Q|Q])]); try discriminate; injection K as <-; discriminate.
  - destruct C72_spline_case as (out & E & _). exists out. exact E.
Qed.
