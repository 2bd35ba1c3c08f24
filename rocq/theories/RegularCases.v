(** C82: cases meeting the hypotheses of the theorems (those of the linear method for OTIS
    models are in RegularProps6.v). *)
From Coq Require Import Reals List Bool Arith ZArith Lra Lia.
From Verif Require Import PyBase RBase MathModel GeoModel ConvertProps GridModel InterpModel InterpProps ExtractModel ExtractSpec NodeProps ExtractProofs ExtractProps SplineProps ReturnProps MergeSpec MergeProps SeriesModel SeriesSpec SeriesProofs SeriesProps SeriesProps2 SeriesProps3 SeriesCases StretchProofs AtlasNcModel AtlasNcSpec AtlasNcProps AtlasNcProps2 AtlasNcProps3 AtlasNcProps4 AtlasNcCases RegularModel RegularSpec RegularProofs.
From Verif Require RegularProps RegularProps2 RegularProps3 RegularProps4 RegularProps5 RegularProps6 CaseProps.
Import ListNotations.
Open Scope R_scope.

Lemma quarter_returns src me pts : me <> Unknown -> pts <> [] -> (forall q, In q pts -> -360 <= fst q <= 540) -> exists out, extract_series_regular src me 1 [quarter] pts = Ok out /\ length out = 1%nat.
Proof.
  intros Hm Hn Hp. apply (RegularProps2.C82_returns src me 1 Eastern [quarter] pts Hm Hn Hp). intros s [<-|[]]. split; [apply quarter_frame|]. exists true, 0, 90, 4%nat, 0, 10, 3%nat. apply quarter_grid.
Qed.
(** the middle of a cell: the mean of the constants is 3 + 4 i *)
Example C82_linear_case : exists p, extract_series_regular GOT Linear 1 [quarter] [(45, 5)] = Ok [[Some (5, p)]].
Proof.
  destruct (quarter_returns GOT Linear [(45, 5)]) as (out & Ho & Lo); [discriminate|discriminate|apply one_point; lra|].
  destruct (RegularProps.C82_linear GOT 1 Eastern [quarter] [(45, 5)] out 0 quarter 0 (45, 5) true 0 90 4 0 10 3 45 5 0%Z 0%nat) as (cs & r & O1 & O2 & O3 & O4 & _); auto.
  - apply quarter_files.
  - apply one_point. lra.
  - apply quarter_grid.
  - apply quarter_numbers.
  - apply east. cbn. lra.
  - cbn. lia.
  - cbn. lia.
  - left. unfold node_x. cbn [Z.add]. lra.
  - left. unfold node_y. cbn [INR]. lra.
  - match goal with |- unfilled (both (mean ?l1) (mean ?l2)) => assert (E1 : mean l1 = Some 3); [|rewrite E1; destruct (mean l2); [intros E; injection E as E; lra|discriminate]] end.
    cbn [corners part map fst snd column Z.modulo Z.add]. eapply mean4; try (unfold node_x, node_y; cbn [INR Z.add]; lra); try reflexivity. cbn [fst snd]. lra.
  - cbn [corners part map fst snd column Z.modulo Z.add] in O4. destruct O4 as [_ O4].
    { intros q Hq _. destruct Hq as [<-|[<-|[<-|[<-|[]]]]]; discriminate. }
    match type of O4 with scaled _ (both (mean ?l1) (mean ?l2)) _ => assert (E1 : mean l1 = Some 3); [|assert (E2 : mean l2 = Some 4)] end.
    + eapply mean4; try (unfold node_x, node_y; cbn [INR]; lra); try reflexivity. cbn [fst snd]. lra.
    + eapply mean4; try (unfold node_x, node_y; cbn [INR]; lra); try reflexivity. cbn [fst snd]. lra.
    + rewrite E1, E2 in O4. cbn [both scaled] in O4. destruct O4 as (a & p & Ap & ->). rewrite (abs5 _ _ Ap), Rmult_1_r in O3.
      destruct out as [|c [|]]; try discriminate. cbn in O1. injection O1 as ->. destruct cs as [|c [|]]; try discriminate. cbn in O3. injection O3 as ->. exists p. exact Ho.
Qed.
(** the node at (270, 10) is the nearest; beside it the nearest constant is masked *)
Example C82_nearest_case : exists p, extract_series_regular FES Nearest 1 [quarter] [(290, 7); (190, 14)] = Ok [[Some (5, p); None]].
Proof.
  set (pts := [(290, 7); (190, 14)]).
  assert (Hp : forall q, In q pts -> -360 <= fst q <= 540) by (intros q [<-|[<-|[]]]; cbn; lra).
  destruct (quarter_returns FES Nearest pts) as (out & Ho & Lo); [discriminate|discriminate|exact Hp|].
  destruct (RegularProps.C82_nearest FES 1 Eastern [quarter] pts out 0 quarter 0 (290, 7) true 0 90 4 0 10 3 290 7 3%Z 1%nat) as (cs & r & O1 & O2 & O3 & O4); auto; try (cbn; lia).
  - apply quarter_files.
  - apply quarter_grid.
  - apply east. cbn. lra.
  - unfold node_x. cbn. lra.
  - unfold node_y. cbn. lra.
  - unfold nearest_node, node_x, node_y. cbn [INR]. lra.
  - intros E. injection E as E. lra.
  - destruct (RegularProps.C82_nearest FES 1 Eastern [quarter] pts out 0 quarter 1 (190, 14) true 0 90 4 0 10 3 190 14 2%Z 1%nat) as (cs' & r' & P1 & _ & P3 & P4); auto; try (cbn; lia).
    + apply quarter_files.
    + apply quarter_grid.
    + apply east. cbn. lra.
    + unfold node_x. cbn. lra.
    + unfold node_y. cbn. lra.
    + unfold nearest_node, node_x, node_y. cbn [INR]. lra.
    + discriminate.
    + destruct out as [|c [|]]; try discriminate. cbn in O1, P1. injection O1 as ->. injection P1 as <-. destruct cs as [|c [|c' [|]]]; try discriminate. cbn in O3, P3. injection O3 as ->. injection P3 as ->.
      change (scaled 1 None r') in P4. cbn [scaled] in P4. subst r'. change (scaled 1 (Some (5, 0)) r) in O4. destruct O4 as (a & p & Ap & ->). rewrite (abs50 _ _ Ap), Rmult_1_r in Ho. exists p. exact Ho.
Qed.
Example C82_outside_case : extract_series_regular GOT Nearest 1 [quarter] [(45, 21)] = Ok [[None]].
Proof.
  destruct (quarter_returns GOT Nearest [(45, 21)]) as (out & Ho & Lo); [discriminate|discriminate|apply one_point; lra|].
  destruct (RegularProps.C82_outside GOT Nearest 1 Eastern [quarter] [(45, 21)] out 0 quarter 0 (45, 21) true 0 90 4 0 10 3 45 21) as (cs & O1 & O2); auto.
  - apply quarter_files.
  - apply one_point. lra.
  - apply quarter_grid.
  - apply east. cbn. lra.
  - right. right. right. unfold node_y. cbn [INR Nat.sub]. lra.
  - pose proof (RegularProps2.C82_returns GOT Nearest 1 Eastern [quarter] [(45, 21)]) as _.
    destruct (RegularProps.extract_regular_nth GOT Nearest 1 Eastern [quarter] quarter_files [(45, 21)] out) as [_ K]; [apply one_point; lra|exact Ho|].
    destruct (K 0%nat quarter eq_refl) as (e & cs' & _ & Em & Ec). assert (cs' = cs) as -> by congruence. apply mapM_len in Em. destruct out as [|c [|]]; try discriminate. cbn in O1. injection O1 as ->.
    destruct cs as [|c [|]]; try discriminate Em. cbn in O2. injection O2 as ->. exact Ho.
Qed.
(** reading first gives the same *)
Example C82_read_case : exists t, read_series FES [quarter] = Ok t /\ interpolate_series_regular FES Nearest 1 t [(110, 7)] = extract_series_regular FES Nearest 1 [quarter] [(110, 7)].
Proof.
  apply (RegularProps2.C82_read FES Nearest 1 Eastern [quarter] [(110, 7)] true 0 90 4 0 10 3); [discriminate| | |].
  - intros s [<-|[]]. split; [apply quarter_frame|]. split; [apply quarter_grid|discriminate].
  - apply one_point. lra.
  - right. left. split; auto. right. right. intros p [<-|[]]. cbn. lra.
Qed.

(** ** ATLAS netCDF: transports and depths *)
Example C82_atlas_case : exists out p, extract_atlas_regular Linear Vu 1 ocean [flows] [(135, 5)] = Ok out /\
  aconst out = [[Some (5 / 2, p)]] /\ map open_depth (adepth out) = [Some 200] /\ anames out = [[109; 50]%Z].
Proof.
  destruct (RegularProps3.C82_atlas_returns Linear Vu 1 Eastern ocean basin [flows] [(135, 5)] true 90 90 4 0 10 3) as (out & Ho & Lo & Ln); auto; try discriminate.
  { constructor. } { apply basin_grid. } { apply basin_frame. } { apply flow_files. auto. }
  destruct (RegularProps3.C82_atlas_linear Vu 1 Eastern ocean basin [flows] [(135, 5)] out 0 flows flow 0 (135, 5) true 90 90 4 0 10 3 135 5 0%Z 0%nat) as (D & cs & r & O1 & O2 & O4 & O5 & O6 & O7 & O8 & _); auto.
  - constructor.
  - apply basin_grid.
  - apply basin_frame.
  - constructor.
  - apply flow_grid.
  - apply flow_numbers.
  - apply east. cbn. lra.
  - cbn. lia.
  - cbn. lia.
  - left. unfold node_x. cbn [Z.add]. lra.
  - left. unfold node_y. cbn [INR]. lra.
  - assert (Ed : mean (corners Heights 90 90 0 10 4 135 5 0 0 (depth_of basin)) = Some 200).
    { apply (mean4 _ _ _ _ 100 300 100 300); try (apply depth_v; [reflexivity|lra]); try (unfold node_x, node_y; cbn [INR Z.add]; lra). }
    assert (E1 : mean (part fst (corners Heights 90 90 0 10 4 135 5 0 0 (constant_of basin flow))) = Some 3).
    { unfold corners, part. cbv zeta. cbn [map fst snd]. rewrite (constant_v basin flow 0 (column 4 0) 100 (2, 4)), (constant_v basin flow 0 (column 4 (0 + 1)) 300 (4, 4)), (constant_v basin flow 1 (column 4 0) 100 (2, 4)), (constant_v basin flow 1 (column 4 (0 + 1)) 300 (4, 4)) by (try reflexivity; lra).
      cbn [option_map fst]. eapply mean4; try (unfold node_x, node_y; cbn [INR Z.add]; lra); try reflexivity. lra. }
    assert (E2 : mean (part snd (corners Heights 90 90 0 10 4 135 5 0 0 (constant_of basin flow))) = Some 4).
    { unfold corners, part. cbv zeta. cbn [map fst snd]. rewrite (constant_v basin flow 0 (column 4 0) 100 (2, 4)), (constant_v basin flow 0 (column 4 (0 + 1)) 300 (4, 4)), (constant_v basin flow 1 (column 4 0) 100 (2, 4)), (constant_v basin flow 1 (column 4 (0 + 1)) 300 (4, 4)) by (try reflexivity; lra).
      cbn [option_map snd]. eapply mean4; try (unfold node_x, node_y; cbn [INR Z.add]; lra); try reflexivity. lra. }
    destruct O8 as (_ & O3 & _ & O8).
    { intros q Hq _. unfold corners in Hq. cbv zeta in Hq. rewrite (depth_v basin 0 (column 4 0) 100), (depth_v basin 0 (column 4 (0 + 1)) 300), (depth_v basin 1 (column 4 0) 100), (depth_v basin 1 (column 4 (0 + 1)) 300) in Hq by (try reflexivity; lra). destruct Hq as [<-|[<-|[<-|[<-|[]]]]]; discriminate. }
    rewrite E1, E2 in O8. rewrite Ed in O3, O8. cbn [both reported AtlasNcSpec.velocity] in O8. destruct O8 as (a & p & Ap & ->). exists out, p. split; [exact Ho|].
    destruct (aconst out) as [|c0 [|]]; try discriminate. cbn in O5. injection O5 as ->. destruct cs as [|c1 [|]]; try discriminate. cbn in O7. injection O7 as ->.
    destruct (adepth out) as [|d0 [|]]; try discriminate. cbn in O1. injection O1 as ->. destruct (anames out) as [|n0 [|]]; try discriminate. cbn [nth_error] in O4. injection O4 as ->.
    rewrite (abs5 _ _ Ap). split; [|split; [cbn [map]; now rewrite O3|reflexivity]]. do 4 f_equal. lra.
Qed.
(** the nearest node is land *)
Example C82_atlas_nearest_case : exists out, extract_atlas_regular Nearest Vu 1 ocean [flows] [(260, 12)] = Ok out /\ aconst out = [[None]] /\ map open_depth (adepth out) = [None].
Proof.
  destruct (RegularProps3.C82_atlas_returns Nearest Vu 1 Eastern ocean basin [flows] [(260, 12)] true 90 90 4 0 10 3) as (out & Ho & Lo & Ln); auto; try discriminate.
  { constructor. } { apply basin_grid. } { apply basin_frame. } { apply flow_files. auto. }
  destruct (RegularProps3.C82_atlas_nearest Vu 1 Eastern ocean basin [flows] [(260, 12)] out 0 flows flow 0 (260, 12) true 90 90 4 0 10 3 260 12 2%Z 1%nat) as (D & cs & r & O1 & O2 & O3 & _ & O5 & O6 & O7 & O8); auto; try (cbn; lia).
  - constructor.
  - apply basin_grid.
  - apply basin_frame.
  - constructor.
  - apply flow_grid.
  - apply east. cbn. lra.
  - unfold node_x. cbn. lra.
  - unfold node_y. cbn. lra.
  - unfold nearest_node, node_x, node_y. cbn [INR]. lra.
  - assert (Ez : depth_of basin 1 (column 4 2) = None) by (apply depth_n; reflexivity). rewrite Ez in O3, O8.
    exists out. split; [exact Ho|]. destruct (aconst out) as [|c0 [|]]; try discriminate. cbn in O5. injection O5 as ->. destruct cs as [|c1 [|]]; try discriminate. cbn in O7. injection O7 as ->.
    destruct (adepth out) as [|d0 [|]]; try discriminate. cbn in O1. injection O1 as ->. split; [|cbn [map]; now rewrite O3].
    unfold reported in O8. destruct (constant_of basin flow 1 (column 4 2)); now rewrite O8.
Qed.

(** ** OTIS: the node (1, 0) of the bay is the nearest; the nearest is land *)
Example C82_otis_nearest_case : exists ph, extract_otis_regular CaseProps.here false Nearest Vz CaseProps.bay [CaseProps.bay_tide] [(3 / 4, 1 / 4)] = Ok [((Some 20, false), [Some (5, ph)])].
Proof.
  pose proof CaseProps.bay_model as M.
  destruct (RegularProps5.C82_otis_returns CaseProps.here false false Nearest Vz Heights 0 1 3 0 1 3 CaseProps.bay [CaseProps.bay_tide] [(3 / 4, 1 / 4)] M eq_refl) as (out & Eo & Lo); [discriminate|discriminate|].
  destruct (RegularProps4.C82_otis_nearest CaseProps.here false false Vz Heights 0 1 3 0 1 3 CaseProps.bay [CaseProps.bay_tide] [(3 / 4, 1 / 4)] out 0 (3 / 4, 1 / 4) (3 / 4) (1 / 4) 1 0 M eq_refl Eo eq_refl) as (D & cs & O1 & O2 & O3 & O4).
  { now apply projected. } { reflexivity. } { unfold reach. cbn. lra. } { unfold in_rows. cbn. lra. } { unfold node_x. cbn. lra. } { unfold node_y. cbn. lra. } { cbn; lia. } { lia. }
  { unfold nearest_node, node_x, node_y. cbn [INR]. lra. } { discriminate. }
  assert (Ew : water (entry 0 (ghz CaseProps.bay)) (entry 0%Z (gmz CaseProps.bay)) false 3 Heights 0 (column 3 1) = Some 20).
  { change (column 3 1) with 1%nat. unfold water, entry, CaseProps.bay, CaseProps.flat. cbn [ghz gmz nth repeat]. destruct (Req_EM_T 20 0); [lra|reflexivity]. }
  rewrite Ew in O3, O4. destruct (O4 0%nat _ eq_refl) as (r & R1 & R2 & _). change (fst (entry (None, true) CaseProps.bay_tide 0 (column 3 1))) with (Some (3, - 4)) in R2.
  destruct R2 as (a & ph & Ha & Er); [discriminate|intros E; injection E as E; lra|]. exists ph. rewrite Eo. f_equal.
  assert (a = 5).
  { destruct Ha as (A1 & A2 & A3 & A4). cbn [fst snd] in A3, A4. assert (a * a = 25); [|nra]. pose proof (sin2_cos2 (ph * PI / 180)) as Q. unfold Rsqr in Q. set (C := cos _) in *. set (Sn := sin _) in *.
    replace (a * a) with (a * a * (Sn * Sn + C * C)) by (rewrite Q; ring). replace (a * a * (Sn * Sn + C * C)) with ((a * C) * (a * C) + (- (a * Sn)) * (- (a * Sn))) by ring. rewrite <- A3, <- A4. ring. }
  subst a. assert (D = (Some 20, false)) as <- by (destruct D as [? []]; cbn in O3; [discriminate|now subst]). apply (CaseProps.one_result out D cs); auto. rewrite R1, Er. reflexivity.
Qed.
