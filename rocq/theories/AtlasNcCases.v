(** C71: cases meeting the hypotheses of the theorems. *)
From Coq Require Import Reals List Bool Arith ZArith Lra Lia.
From Verif Require Import PyBase RBase MathModel GeoModel ConvertProps GridModel InterpModel InterpProps ExtractModel ExtractSpec NodeProps ExtractProofs ExtractProps SplineProps ReturnProps MergeSpec MergeProps SeriesModel SeriesSpec SeriesProofs SeriesProps SeriesProps2 SeriesProps3 SeriesCases StretchProofs AtlasNcModel AtlasNcSpec AtlasNcProps AtlasNcProps2 AtlasNcProps3 AtlasNcProps4.
Import ListNotations.
Open Scope R_scope.

(** four columns around the globe and three rows; the third column has land in its middle row *)
Definition deep : list (list R) := [[100; 100; 100]; [300; 300; 100]; [100; 0; 100]; [100; 100; 100]].
Definition basin : nodes := Nodes [90; 180; 270; 360] [0; 10; 20] deep.
Definition half : nodes := Nodes [45; 135; 225; 315] [0; 10; 20] deep.
Definition ocean : grid_file := GridFile 4 3 basin basin half.
Definition flow : parts :=
  ([[Some 2; Some 2; Some 1]; [Some 4; Some 4; Some 1]; [Some 9; Some 9; Some 9]; [Some 5; Some 5; Some 5]],
   [[Some 4; Some 4; Some 0]; [Some 4; Some 4; Some 0]; [Some 0; Some 0; Some 0]; [Some 0; Some 0; Some 0]]).
Definition flows : tide_file := TideFile 4 3 [109; 50; 32; 32]%Z false None (Some flow) (Some flow).

Lemma even4 a : evenly a 90 4 [a; a + 90; a + 180; a + 270].
Proof. repeat split; [lra|]. intros i Hi. do 4 (destruct i as [|i]; [cbn; lra|]). lia. Qed.
Lemma even3 : evenly 0 10 3 [0; 10; 20].
Proof. repeat split; [lra|]. intros i Hi. do 3 (destruct i as [|i]; [cbn; lra|]). lia. Qed.
Lemma rect43 {A} (a b c d e f g h i j k l : A) : rect 4 3 [[a; b; c]; [d; e; f]; [g; h; i]; [j; k; l]].
Proof. split; [reflexivity|]. intros r Hr. repeat (destruct Hr as [<-|Hr]; [reflexivity|]). destruct Hr. Qed.
Lemma basin_grid : nodes_grid true 90 90 4 0 10 3 basin.
Proof.
  unfold nodes_grid. cbn [nlon nlat ndepth basin]. split; [|split; [apply even3|split; [lia|split; [lia|split; [apply rect43|left; split; [reflexivity|cbn; lra]]]]]].
  replace [90; 180; 270; 360] with [90; 90 + 90; 90 + 180; 90 + 270] by (repeat f_equal; lra). apply even4.
Qed.
Lemma half_grid : nodes_grid true 45 90 4 0 10 3 half.
Proof.
  unfold nodes_grid. cbn [nlon nlat ndepth half]. split; [|split; [apply even3|split; [lia|split; [lia|split; [apply rect43|left; split; [reflexivity|cbn; lra]]]]]].
  replace [45; 135; 225; 315] with [45; 45 + 90; 45 + 180; 45 + 270] by (repeat f_equal; lra). apply even4.
Qed.
Lemma basin_frame : framed Eastern (nlon basin).
Proof. split; [exists 270; split; [cbn; tauto|lra]|]. intros a H. cbn in H. repeat (destruct H as [<-|H]; [lra|]). destruct H. Qed.
Lemma half_frame : framed Eastern (nlon half).
Proof. split; [exists 315; split; [cbn; tauto|lra]|]. intros a H. cbn in H. repeat (destruct H as [<-|H]; [lra|]). destruct H. Qed.
Lemma flow_grid : file_grid 4 3 flows flow.
Proof. split; [reflexivity|]. split; apply rect43. Qed.
Lemma flow_numbers j i : (j < 3)%nat -> (i < 4)%nat -> number_of flow j i <> None.
Proof. intros Hj Hi. do 3 (destruct j as [|j]; [do 4 (destruct i as [|i]; [cbn; discriminate|]); lia|]). lia. Qed.
Lemma flow_files t : t = Vu \/ t = Vv -> forall f, In f [flows] -> exists pa, parts_for f t (Some pa) /\ file_grid 4 3 f pa.
Proof. intros Ht f [<-|[]]. exists flow. split; [destruct Ht as [-> | ->]; constructor|apply flow_grid]. Qed.
Lemma east x : 0 <= x -> placed Eastern x = x.
Proof. intros. cbn. unfold eastward. destruct (Rlt_dec x 0); lra. Qed.
Lemma last4 : last_of 1 true 4 = 4%Z.
Proof. reflexivity. Qed.

Lemma flow_result me t nd x0 pts : t = Vu /\ nd = basin /\ x0 = 90 \/ t = Vv /\ nd = half /\ x0 = 45 -> pts <> [] -> (forall p, In p pts -> 0 <= fst p < 400) ->
  exists out, extract_atlas me t 1 ocean [flows] pts = Ok out /\ length (aconst out) = 1%nat /\ length (anames out) = 1%nat.
Proof.
  intros H Hn Hp. apply (C71_returns me t 1 Eastern ocean nd [flows] pts true x0 90 4 0 10 3); auto.
  - destruct H as [(-> & -> & _)|(-> & -> & _)]; constructor.
  - destruct H as [(_ & -> & ->)|(_ & -> & ->)]; [apply basin_grid|apply half_grid].
  - destruct H as [(_ & -> & _)|(_ & -> & _)]; [apply basin_frame|apply half_frame].
  - apply flow_files. tauto.
  - intros _ p Hin. specialize (Hp p Hin). rewrite east by lra. rewrite last4. unfold node_x. destruct H as [(_ & _ & ->)|(_ & _ & ->)]; lra.
Qed.
Lemma depth_v n j i d : entry 0 (ndepth n) i j = d -> d <> 0 -> depth_of n j i = Some d.
Proof. intros E Hd. unfold depth_of. rewrite E. destruct (Req_EM_T d 0); [contradiction|reflexivity]. Qed.
Lemma depth_n n j i : entry 0 (ndepth n) i j = 0 -> depth_of n j i = None.
Proof. intros E. unfold depth_of. rewrite E. destruct (Req_EM_T 0 0); [reflexivity|congruence]. Qed.
Lemma constant_v n p j i d z : entry 0 (ndepth n) i j = d -> d <> 0 -> number_of p j i = Some z -> constant_of n p j i = Some z.
Proof. intros E Hd Ez. unfold constant_of. rewrite (depth_v n j i d) by auto. exact Ez. Qed.
Lemma abs5 a p : amplitude_phase (3, 4) a p -> a = 5.
Proof.
  intros (A1 & A2 & A3 & A4). cbn [fst snd] in A3, A4. assert (a * a = 25); [|nra].
  pose proof (sin2_cos2 (p * PI / 180)) as Q. unfold Rsqr in Q. set (C := cos _) in *. set (Sn := sin _) in *.
  replace (a * a) with (a * a * (Sn * Sn + C * C)) by (rewrite Q; ring). replace (a * a * (Sn * Sn + C * C)) with ((a * C) * (a * C) + (- (a * Sn)) * (- (a * Sn))) by ring. rewrite <- A3, <- A4. ring.
Qed.
Lemma abs50 a p : amplitude_phase (5, 0) a p -> a = 5.
Proof.
  intros (A1 & A2 & A3 & A4). cbn [fst snd] in A3, A4. assert (a * a = 25); [|nra].
  pose proof (sin2_cos2 (p * PI / 180)) as Q. unfold Rsqr in Q. set (C := cos _) in *. set (Sn := sin _) in *.
  replace (a * a) with (a * a * (Sn * Sn + C * C)) by (rewrite Q; ring). replace (a * a * (Sn * Sn + C * C)) with ((a * C) * (a * C) + (- (a * Sn)) * (- (a * Sn))) by ring. rewrite <- A3, <- A4. ring.
Qed.

(** in the middle of a cell: the mean of the transports is 3 + 4 i, that of the depths 200 *)
Example C71_cell_case : exists out p, extract_atlas Bilinear Vu 1 ocean [flows] [(135, 5)] = Ok out /\
  aconst out = [[Some (5 / 2, p)]] /\ map open_depth (adepth out) = [Some 200] /\ anames out = [[109; 50]%Z].
Proof.
  destruct (flow_result Bilinear Vu basin 90 [(135, 5)]) as (out & Ho & Lo & Ln); auto; [discriminate|intros q [<-|[]]; cbn; lra|].
  destruct (C71_cell Vu 1 Eastern ocean basin [flows] [(135, 5)] out 0 flows flow 0 (135, 5) true 90 90 4 0 10 3 135 5 0%Z 0%nat) as (D & cs & r & O1 & O2 & O3 & O4 & O5 & O6 & O7 & O8); auto.
  - constructor.
  - apply basin_grid.
  - apply basin_frame.
  - constructor.
  - apply flow_grid.
  - apply east. lra.
  - cbn. lia.
  - cbn. lia.
  - unfold between_nodes, node_x, node_y. cbn [INR Z.add]. repeat split; lra.
  - intros [[K|K] _]; revert K; apply not_close; unfold node_x; cbn [Z.add]; [apply abs_ge|apply abs_le|apply abs_ge|apply abs_le]; lra.
  - assert (Ed : mean (corners Heights 90 90 0 10 4 135 5 0 0 (depth_of basin)) = Some 200).
    { apply (mean4 _ _ _ _ 100 300 100 300); try (apply depth_v; [reflexivity|lra]); try (unfold node_x, node_y; cbn [INR Z.add]; lra). }
    assert (E1 : mean (part fst (corners Heights 90 90 0 10 4 135 5 0 0 (constant_of basin flow))) = Some 3).
    { unfold corners, part. cbv zeta. cbn [map fst snd]. rewrite (constant_v basin flow 0 (column 4 0) 100 (2, 4)), (constant_v basin flow 0 (column 4 (0 + 1)) 300 (4, 4)), (constant_v basin flow 1 (column 4 0) 100 (2, 4)), (constant_v basin flow 1 (column 4 (0 + 1)) 300 (4, 4)) by (try reflexivity; lra).
      cbn [option_map fst]. eapply mean4; try (unfold node_x, node_y; cbn [INR Z.add]; lra); try reflexivity. lra. }
    assert (E2 : mean (part snd (corners Heights 90 90 0 10 4 135 5 0 0 (constant_of basin flow))) = Some 4).
    { unfold corners, part. cbv zeta. cbn [map fst snd]. rewrite (constant_v basin flow 0 (column 4 0) 100 (2, 4)), (constant_v basin flow 0 (column 4 (0 + 1)) 300 (4, 4)), (constant_v basin flow 1 (column 4 0) 100 (2, 4)), (constant_v basin flow 1 (column 4 (0 + 1)) 300 (4, 4)) by (try reflexivity; lra).
      cbn [option_map snd]. eapply mean4; try (unfold node_x, node_y; cbn [INR Z.add]; lra); try reflexivity. lra. }
    rewrite E1, E2 in O8. rewrite Ed in O3, O8. cbn [both reported velocity] in O8. destruct O8 as (a & p & Ap & ->). exists out, p. split; [exact Ho|].
    destruct (aconst out) as [|c0 [|]]; try discriminate. cbn in O5. injection O5 as ->. destruct cs as [|c1 [|]]; try discriminate. cbn in O7. injection O7 as ->.
    destruct (adepth out) as [|d0 [|]]; try discriminate. cbn in O1. injection O1 as ->. destruct (anames out) as [|n0 [|]]; try discriminate. cbn [nth_error] in O4. injection O4 as ->.
    rewrite (abs5 _ _ Ap). split; [|split; [cbn [map]; now rewrite O3|reflexivity]]. do 4 f_equal. lra.
Qed.

(** at a node, with land beside it *)
Example C71_node_case : exists out p, extract_atlas Bilinear Vu 1 ocean [flows] [(360, 10); (270, 10)] = Ok out /\
  aconst out = [[Some (5, p); None]] /\ map open_depth (adepth out) = [Some 100; None].
Proof.
  set (pts := [(360, 10); (270, 10)]).
  destruct (flow_result Bilinear Vu basin 90 pts) as (out & Ho & Lo & Ln); auto; [discriminate|intros q [<-|[<-|[]]]; cbn; lra|].
  destruct (C71_node Vu 1 Eastern ocean basin [flows] pts out 0 flows flow 0 (360, 10) true 90 90 4 0 10 3 360 10 3%Z 1%nat) as (a & b & D & cs & r & _ & _ & _ & _ & Eab & O1 & O2 & O3 & _ & O5 & O6 & O7 & O8); auto.
  - constructor.
  - apply basin_grid.
  - apply basin_frame.
  - constructor.
  - apply flow_grid.
  - apply east. lra.
  - cbn. lia.
  - cbn. lia.
  - unfold between_nodes, node_x, node_y. cbn [INR Z.add Pos.add Pos.succ]. repeat split; lra.
  - split; left; unfold node_x, node_y; cbn [INR]; unfold ExtractSpec.close; [replace (360 - (90 + 3 * 90)) with 0 by ring; pose proof (Rabs_pos (90 + 3 * 90))|replace (10 - (0 + 1 * 10)) with 0 by ring; pose proof (Rabs_pos (0 + 1 * 10))]; rewrite Rabs_R0; lra.
  - destruct Eab as [-> ->]; [unfold node_x; lra|unfold node_y; cbn [INR]; lra|].
    destruct (C71_node Vu 1 Eastern ocean basin [flows] pts out 0 flows flow 1 (270, 10) true 90 90 4 0 10 3 270 10 2%Z 1%nat) as (a & b & D' & cs' & r' & _ & _ & _ & _ & Eab & P1 & P2 & P3 & _ & P5 & P6 & P7 & P8); auto.
    + constructor.
    + apply basin_grid.
    + apply basin_frame.
    + constructor.
    + apply flow_grid.
    + apply east. lra.
    + cbn. lia.
    + cbn. lia.
    + unfold between_nodes, node_x, node_y. cbn [INR Z.add Pos.add Pos.succ]. repeat split; lra.
    + split; left; unfold node_x, node_y; cbn [INR]; unfold ExtractSpec.close; [replace (270 - (90 + 2 * 90)) with 0 by ring; pose proof (Rabs_pos (90 + 2 * 90))|replace (10 - (0 + 1 * 10)) with 0 by ring; pose proof (Rabs_pos (0 + 1 * 10))]; rewrite Rabs_R0; lra.
    + destruct Eab as [-> ->]; [unfold node_x; lra|unfold node_y; cbn [INR]; lra|].
      rewrite (depth_v basin 1 (column 4 3) 100) in O3, O8 by (try reflexivity; lra). rewrite (constant_v basin flow 1 (column 4 3) 100 (5, 0)) in O8 by (try reflexivity; lra).
      rewrite (depth_n basin 1 (column 4 2)) in P3, P8 by reflexivity. unfold constant_of in P8. rewrite (depth_n basin 1 (column 4 2)) in P8 by reflexivity. cbn [reported] in P8. subst r'.
      cbn [reported velocity] in O8. destruct O8 as (am & p & Ap & ->). exists out, p. split; [exact Ho|].
      destruct (aconst out) as [|c0 [|]]; try discriminate. cbn in O5, P5. injection O5 as ->. injection P5 as ->. destruct cs' as [|c1 [|c2 [|]]]; try discriminate. cbn in O7, P7. injection O7 as ->. injection P7 as ->.
      destruct (adepth out) as [|d0 [|d1 [|]]]; try discriminate. cbn in O1, P1. injection O1 as ->. injection P1 as ->.
      rewrite (abs50 _ _ Ap). split; [|cbn [map]; now rewrite O3, P3]. do 4 f_equal. lra.
Qed.

(** splines: nothing beside land; nothing outside *)
Example C71_spline_case : exists out r, extract_atlas Spline Vu 1 ocean [flows] [(135, 5); (225, 5); (135, 25)] = Ok out /\ aconst out = [[Some r; None; None]].
Proof.
  set (pts := [(135, 5); (225, 5); (135, 25)]).
  destruct (flow_result Spline Vu basin 90 pts) as (out & Ho & Lo & Ln); auto; [discriminate|intros q [<-|[<-|[<-|[]]]]; cbn; lra|].
  destruct (C71_spline Vu 1 Eastern ocean basin [flows] pts out 0 flows flow 0 (135, 5) true 90 90 4 0 10 3 135 5 0%Z 0%nat) as (D & cs & r & O1 & O2 & _ & O4 & O5 & O6 & O7 & _); auto.
  { constructor. } { apply basin_grid. } { apply basin_frame. } { constructor. } { apply flow_grid. } { apply flow_numbers. } { apply east; lra. } { cbn; lia. } { cbn; lia. }
  { left. unfold node_x. cbn [Z.add]. lra. } { left. unfold node_y. cbn [INR]. lra. }
  destruct (C71_spline Vu 1 Eastern ocean basin [flows] pts out 0 flows flow 1 (225, 5) true 90 90 4 0 10 3 225 5 1%Z 0%nat) as (D' & cs' & r' & _ & _ & _ & P4 & P5 & P6 & _ & P7); auto.
  { constructor. } { apply basin_grid. } { apply basin_frame. } { constructor. } { apply flow_grid. } { apply flow_numbers. } { apply east; lra. } { cbn; lia. } { cbn; lia. }
  { left. unfold node_x. cbn [Z.add Pos.add]. lra. } { left. unfold node_y. cbn [INR]. lra. }
  destruct (C71_outside Spline Vu 1 Eastern ocean basin [flows] pts out 0 flows flow 2 (135, 25) true 90 90 4 0 10 3 135 25) as (cs'' & Q1 & Q2); auto.
  { constructor. } { apply basin_grid. } { apply basin_frame. } { constructor. } { apply flow_grid. } { apply east; lra. } { right. right. right. unfold node_y. cbn. lra. }
  assert (P8 : r' = None).
  { apply P7. intros K. assert (K' := K (45 * 5, depth_of basin 1 (column 4 (1 + 1)))). unfold corners in K'. cbv zeta in K'. cbn [fst snd] in K'. apply K'; [|lra|apply depth_n; reflexivity].
    right. right. right. left. f_equal. unfold node_x, node_y. cbn [INR Z.add Pos.add]. lra. }
  destruct O7 as (M1 & _ & M2 & M3).
  { intros q Hq _. unfold corners in Hq. cbv zeta in Hq. destruct Hq as [<-|[<-|[<-|[<-|[]]]]]; cbn [snd]; [rewrite (depth_v basin _ _ 100)|rewrite (depth_v basin _ _ 300)|rewrite (depth_v basin _ _ 100)|rewrite (depth_v basin _ _ 300)]; try discriminate; try reflexivity; lra. }
  assert (exists rr, r = Some rr) as (rr & ->).
  { unfold reported in M3. destruct (both _ _); [|congruence]. destruct (mean (corners Heights 90 90 0 10 4 135 5 0 0 (depth_of basin))); [|congruence]. destruct M3 as (am & ph & _ & ->). eauto. }
  subst r'. exists out, rr. split; [exact Ho|]. destruct (aconst out) as [|c0 [|]]; try discriminate. cbn in O4, P4, Q1. injection O4 as ->. injection P4 as ->. injection Q1 as ->.
  destruct cs'' as [|c1 [|c2 [|c3 [|]]]]; try discriminate. cbn in O6, P6, Q2. congruence.
Qed.

(** on the western edge of the cell with land in it: found before and lost after
    interpolating bilinearly anywhere *)
Example C71_changed_case : exists c r bo bd c' o1 o2, read_atlas Vu ocean [flows] = Ok c /\
  interpolate_atlas_constants Spline Vu 1 c [(180, 5)] = Ok ([[Some r]], o1, c) /\
  interpolate_atlas_constants Bilinear Vu 1 c [(135, 5)] = Ok (bo, bd, c') /\
  interpolate_atlas_constants Spline Vu 1 c' [(180, 5)] = Ok ([[None]], o2, c').
Proof.
  assert (Fn : forall f, In f [flows] -> exists pa, parts_for f Vu (Some pa) /\ file_grid 4 3 f pa /\ forall j i, (j < 3)%nat -> (i < 4)%nat -> number_of pa j i <> None).
  { intros f [<-|[]]. exists flow. split; [constructor|]. split; [apply flow_grid|apply flow_numbers]. }
  assert (Sf : forall pts, same_frame FES Eastern true 90 90 4 pts) by (intros; right; left; split; [reflexivity|left; lra]).
  assert (Go : forall me x, (me = Spline -> x = 180) -> 90 <= x < 200 -> exists c out ds c', read_atlas Vu ocean [flows] = Ok c /\ interpolate_atlas_constants me Vu 1 c [(x, 5)] = Ok (out, ds, c')).
  { intros me x Hm Hx. destruct (flow_result me Vu basin 90 [(x, 5)]) as (a & Ea & _); auto; [discriminate|intros q [<-|[]]; cbn; lra|].
    destruct (C71_read me Vu 1 Eastern ocean basin [flows] [(x, 5)] true 90 90 4 0 10 3) as (c & Ec & Sa); auto.
    { constructor. } { apply basin_grid. } { apply basin_frame. } { intros f Hf. destruct (Fn f Hf) as (pa & P1 & P2 & P3). exists pa. auto. }
    rewrite Ea in Sa. unfold same_answers in Sa. destruct (interpolate_atlas_constants me Vu 1 c [(x, 5)]) as [[[out ds] c']|] eqn:E; [|destruct Sa]. eauto 10. }
  destruct (Go Spline 180) as (c & out & ds & c0 & Ec & E1); auto; [lra|]. destruct (Go Bilinear 135) as (c2 & bo & bd & c' & Ec2 & E2); [discriminate|lra|].
  assert (c2 = c) by congruence. subst c2. clear Ec2. pose proof (C71_spline_keeps _ _ _ _ _ _ _ E1) as K0. subst c0.
  assert (exists out' ds' c'', interpolate_atlas_constants Spline Vu 1 c' [(180, 5)] = Ok (out', ds', c'')) as (out' & ds' & c'' & E3).
  { assert (Ec' : c' = AtlasTides (alon c) (alat c) (map (map sunk) (abath c)) (afields c)).
    { unfold interpolate_atlas_constants in E2. destruct (adjust _ _); [|discriminate]. cbn [bind] in E2. destruct (mapM (outside_axes _ _) _); [|discriminate]. cbn [bind] in E2.
      destruct (mapM (sounding _ _ _ _) _); [|discriminate]. cbn [bind] in E2. match type of E2 with bind ?m _ = _ => destruct m; [|discriminate] end; cbn [bind] in E2; congruence. }
    subst c'. unfold interpolate_atlas_constants in E1 |- *. cbn [alon alat abath afields] in E1 |- *. destruct (adjust (alon c) [(180, 5)]) as [pts'|] eqn:Ea; [|discriminate]. cbn [bind] in E1 |- *.
    destruct (mapM (outside_axes (alon c) (alat c)) pts') as [inv|]; [|discriminate]. cbn [bind] in E1 |- *.
    destruct (read_atlas_axes Vu ocean basin [flows] true 90 90 4 0 10 3 c) as (Elat & Hxi & Rb & Lf & Nb); auto; [constructor|apply basin_grid|].
    destruct (mapM_ok (sounding Spline (alon c) (alat c) (map (map sunk) (abath c))) pts') as (ds' & ->).
    { intros q _. apply (sounding_ok true 90 90 4 0 10 3); auto; [rewrite Elat; apply even3|now apply map_rect|discriminate]. }
    cbn [bind].
    destruct (mapM (sounding Spline (alon c) (alat c) (abath c)) pts') as [dd|]; [|discriminate]. cbn [bind] in E1.
    match type of E1 with bind ?m _ = _ => destruct m as [oo|] eqn:Eo; [|discriminate] end. clear E1.
    match goal with |- exists _ _ _, bind (mapM ?F (afields c)) _ = _ => destruct (mapM_ok F (afields c)) as (o' & ->) end; [|cbn [bind]; eauto].
    intros f Hin. apply mapM_ok. intros [q [i D]] Hq. unfold atlas_constant. destruct (spline_total (0, 0) cadd cscale (alon c) (alat c) (map (map (filled Spline)) (fst f)) q) as (h & Eh).
    - apply (st_axes (bef true) (aft FES true) 4 3 90 90 0 10 (alon c) (alat c)); auto; rewrite Elat; apply even3.
    - apply (st_axes (bef true) (aft FES true) 4 3 90 90 0 10 (alon c) (alat c)); auto; rewrite Elat; apply even3.
    - destruct (st_lengths (bef true) (aft FES true) 4 3 90 90 0 10 (alon c) (alat c)) as [-> ->]; [auto|rewrite Elat; apply even3|]. apply map_rect.
      rewrite (read_atlas_inv Vu ocean basin [flows] true 90 90 4 0 10 3 (alon c) (abath c)) in Ec.
      + cbn [mapM] in Ec. destruct (atlas_file Vu flows flow true 4 3 (abath c)) as (r & e & hc & Er & Ee & Eh & Rh & _); auto; [constructor|apply flow_grid|].
        rewrite Er in Ec. cbn [bind fst] in Ec. rewrite Ee in Ec. cbn [bind] in Ec. rewrite Eh in Ec. cbn [bind] in Ec. apply Ok_inj in Ec. rewrite <- Ec in Hin. cbn [afields] in Hin. destruct Hin as [<-|[]]. exact Rh.
      + constructor.
      + apply basin_grid.
      + destruct (atlas_setup Vu ocean basin true 90 90 4 0 10 3) as (xi & b & Exi & Eb & _); [constructor|reflexivity|apply basin_grid|].
        rewrite (read_atlas_inv Vu ocean basin [flows] true 90 90 4 0 10 3 xi b) in Ec; auto; [|constructor|apply basin_grid]. match type of Ec with bind ?m _ = _ => destruct m; [|discriminate] end. cbn [bind] in Ec. apply Ok_inj in Ec. rewrite <- Ec. exact Exi.
      + destruct (atlas_setup Vu ocean basin true 90 90 4 0 10 3) as (xi & b & Exi & Eb & _); [constructor|reflexivity|apply basin_grid|].
        rewrite (read_atlas_inv Vu ocean basin [flows] true 90 90 4 0 10 3 xi b) in Ec; auto; [|constructor|apply basin_grid]. match type of Ec with bind ?m _ = _ => destruct m; [|discriminate] end. cbn [bind] in Ec. apply Ok_inj in Ec. rewrite <- Ec. exact Eb.
    - unfold cspline. match goal with |- exists _, bind ?m _ = _ => replace m with (Ok h) by (symmetry; exact Eh) end. cbn [bind]. eauto. }
  pose proof (C71_spline_keeps _ _ _ _ _ _ _ E3) as K3. subst c''.
  destruct (C71_changed_refuted Vu 1 1 Eastern ocean basin [flows] [(180, 5)] [(135, 5)] c out ds c bo bd c' out' ds' c' 0 flows flow 0 (180, 5) true 90 90 4 0 10 3 180 5 1%Z 0%nat) as (cs & cs' & r & O1 & O2 & O3 & O4); auto.
  { constructor. } { apply basin_grid. } { apply basin_frame. } { constructor. } { apply flow_grid. } { apply east; lra. } { cbn; lia. } { cbn; lia. }
  { left. unfold node_x. cbn [Z.add Pos.add]. lra. } { left. unfold node_y. cbn [INR]. lra. }
  { intros q Hq Hw. unfold corners in Hq. cbv zeta in Hq. destruct Hq as [<-|[<-|[<-|[<-|[]]]]]; cbn [fst snd] in *.
    - rewrite (depth_v basin _ _ 300); try discriminate; try reflexivity; lra.
    - exfalso. apply Hw. unfold node_x. lra.
    - rewrite (depth_v basin _ _ 300); try discriminate; try reflexivity; lra.
    - exfalso. apply Hw. unfold node_x. lra. }
  { exists ((180 - node_x Heights 90 90 1) * (5 - node_y Heights 0 10 0)). unfold corners. cbv zeta. right. right. right. left. f_equal. apply depth_n. reflexivity. }
  assert (Len : forall me cc oo dd ce x, read_atlas Vu ocean [flows] = Ok c -> afields cc = afields c -> interpolate_atlas_constants me Vu 1 cc [(x, 5)] = Ok (oo, dd, ce) -> length oo = 1%nat /\ forall l, In l oo -> length l = 1%nat).
  { intros me cc oo dd ce x Hc Ha H. destruct (read_atlas_axes Vu ocean basin [flows] true 90 90 4 0 10 3 c) as (_ & _ & _ & Lf & _); auto; [constructor|apply basin_grid|].
    unfold interpolate_atlas_constants in H. destruct (adjust (alon cc) [(x, 5)]) as [pts'|] eqn:Ea; [|discriminate]. cbn [bind] in H. destruct (mapM (outside_axes _ _) pts') as [inv|] eqn:Ei; [|discriminate]. cbn [bind] in H.
    match type of H with bind ?m _ = _ => destruct m as [d1|] eqn:Ed; [|discriminate] end. cbn [bind] in H. match type of H with bind ?m _ = _ => destruct m as [o1|] eqn:Eo; [|discriminate] end. cbn [bind] in H.
    assert (o1 = oo) by congruence. subst o1. split; [rewrite (mapM_len _ _ _ Eo), Ha; exact Lf|]. intros l Hl. apply In_nth_error in Hl as (k & Hk).
    assert (Hk' : (k < length (afields cc))%nat) by (rewrite <- (mapM_len _ _ _ Eo); apply nth_error_Some; congruence). apply nth_error_Some in Hk'. destruct (nth_error (afields cc) k) as [f|] eqn:Ef; [|congruence].
    destruct (mapM_nth _ _ _ _ _ Eo Ef) as (l' & M1 & M2). assert (l' = l) by congruence. subst l'. apply mapM_len in M1. rewrite M1. apply mapM_len in Ei. apply mapM_len in Ed. rewrite !combine_length, Ei, Ed.
    unfold adjust in Ea. cbn [map fst amin amax bind] in Ea. destruct (amin (alon cc)); [|discriminate]. cbn [bind] in Ea. destruct (amax (alon cc)); [|discriminate]. cbn [bind] in Ea. apply Ok_inj in Ea. rewrite <- Ea.
    repeat match goal with |- context [if ?b then _ else _] => destruct b end; reflexivity. }
  destruct (Len Spline c out ds c 180 Ec eq_refl E1) as [L1 L1'].
  assert (Ef : afields c' = afields c).
  { unfold interpolate_atlas_constants in E2. destruct (adjust _ _); [|discriminate]. cbn [bind] in E2. destruct (mapM (outside_axes _ _) _); [|discriminate]. cbn [bind] in E2.
    destruct (mapM (sounding _ _ _ _) _); [|discriminate]. cbn [bind] in E2. match type of E2 with bind ?m _ = _ => destruct m; [|discriminate] end; cbn [bind] in E2. assert (K : c' = AtlasTides (alon c) (alat c) (map (map sunk) (abath c)) (afields c)) by congruence. now rewrite K. }
  destruct (Len Spline c' out' ds' c' 180 Ec Ef E3) as [L3 L3'].
  exists c, r, bo, bd, c', ds, ds'. split; [exact Ec|].
  destruct out as [|c1 [|]]; try discriminate. destruct out' as [|c2 [|]]; try discriminate. cbn in O1, O3. injection O1 as ->. injection O3 as ->.
  specialize (L1' cs (or_introl eq_refl)). specialize (L3' cs' (or_introl eq_refl)). destruct cs as [|v1 [|]]; try discriminate. destruct cs' as [|v2 [|]]; try discriminate. cbn in O2, O4. injection O2 as ->. injection O4 as ->. auto.
Qed.

(** nodes half a cell from the meridian: a point at 200 degrees east is found by
    extraction, and nothing after reading first *)
Example C71_read_case : exists a c o d c' r, extract_atlas Bilinear Vv 1 ocean [flows] [(200, 5)] = Ok a /\ aconst a = [[Some r]] /\
  read_atlas Vv ocean [flows] = Ok c /\ interpolate_atlas_constants Bilinear Vv 1 c [(200, 5)] = Ok (o, d, c') /\ o = [[None]].
Proof.
  destruct (flow_result Bilinear Vv half 45 [(200, 5)]) as (a & Ea & La & _); [right; auto|discriminate|intros q [<-|[]]; cbn; lra|].
  destruct (C71_cell Vv 1 Eastern ocean half [flows] [(200, 5)] a 0 flows flow 0 (200, 5) true 45 90 4 0 10 3 200 5 1%Z 0%nat) as (D & cs & r & O1 & O2 & O3 & O4 & O5 & O6 & O7 & O8); auto.
  { constructor. } { apply half_grid. } { apply half_frame. } { constructor. } { apply flow_grid. } { apply east; lra. } { cbn; lia. } { cbn; lia. }
  { unfold between_nodes, node_x, node_y. cbn [INR Z.add Pos.add]. repeat split; lra. }
  { intros [[K|K] _]; revert K; apply not_close; unfold node_x; cbn [Z.add Pos.add]; [apply abs_ge|apply abs_le|apply abs_ge|apply abs_le]; lra. }
  assert (exists rr, r = Some rr) as (rr & ->).
  { assert (Wt : forall V (f : V -> R) (l : list (R * option V)), 0 < weight l -> exists m, mean (part f l) = Some m).
    { intros V f l Hw. unfold mean. assert (E : weight (part f l) = weight l) by (unfold weight, part; rewrite map_map; f_equal; apply map_ext; intros [w [v|]]; reflexivity). rewrite E. destruct (Req_EM_T (weight l) 0); [lra|eauto]. }
    assert (Wz : 0 < weight (corners Heights 45 90 0 10 4 200 5 1 0 (constant_of half flow))).
    { unfold corners. cbv zeta. rewrite (constant_v half flow 0 (column 4 1) 300 (4, 4)), (constant_v half flow 0 (column 4 (1 + 1)) 100 (9, 0)), (constant_v half flow 1 (column 4 1) 300 (4, 4)) by (try reflexivity; lra).
      unfold constant_of. rewrite (depth_n half 1 (column 4 (1 + 1))) by reflexivity. unfold weight. cbn [map fst snd fold_right]. unfold node_x, node_y. cbn [INR Z.add Pos.add]. lra. }
    assert (Wd : 0 < weight (corners Heights 45 90 0 10 4 200 5 1 0 (depth_of half))).
    { unfold corners. cbv zeta. rewrite (depth_v half 0 (column 4 1) 300), (depth_v half 0 (column 4 (1 + 1)) 100), (depth_v half 1 (column 4 1) 300) by (try reflexivity; lra).
      rewrite (depth_n half 1 (column 4 (1 + 1))) by reflexivity. unfold weight. cbn [map fst snd fold_right]. unfold node_x, node_y. cbn [INR Z.add Pos.add]. lra. }
    destruct (Wt _ fst _ Wz) as (m1 & E1). destruct (Wt _ snd _ Wz) as (m2 & E2). rewrite E1, E2 in O8. cbn [both] in O8. unfold mean in O8. destruct (Req_EM_T (weight (corners Heights 45 90 0 10 4 200 5 1 0 (depth_of half))) 0); [lra|]. cbn [reported] in O8. destruct O8 as (am & ph & _ & ->). eauto. }
  assert (exists c, read_atlas Vv ocean [flows] = Ok c) as (c & Ec).
  { destruct (C71_read Bilinear Vv 1 Eastern ocean half [flows] [(0, 5)] true 45 90 4 0 10 3) as (c & Ec & _); eauto.
    { constructor. } { apply half_grid. } { apply half_frame. } { intros f Hf. destruct (flow_files Vv (or_intror eq_refl) f Hf) as (pa & P1 & P2). exists pa. split; auto. split; auto. discriminate. }
    right. left. split; [reflexivity|]. right. right. intros p [<-|[]]. cbn. lra. }
  destruct (aconst a) as [|c0 [|]] eqn:Eac; try discriminate. cbn in O5. injection O5 as ->. destruct cs as [|c1 [|]]; try discriminate. cbn in O7. injection O7 as ->.
  destruct (C71_read_returns Bilinear Vv 1 ocean half [flows] [(200, 5)] c true 45 90 4 0 10 3) as (o & d & c' & Ei & Lo & Ld & Lc); auto.
  { constructor. } { apply half_grid. } { apply flow_files. auto. } { discriminate. }
  { intros _ p k [<-|[]] K. unfold node_x in K. rewrite last4 in K. cbn [fst] in K. assert (K' : IZR (k * 360) = IZR 205) by (rewrite mult_IZR; lra). apply eq_IZR in K'. lia. }
  exists a, c, o, d, c', rr. repeat (split; [assumption|]).
  destruct (C71_read_refuted Bilinear Vv 1 ocean half [flows] [(200, 5)] c o d c' 0 (200, 5) 45 90 4 0 10 3) as [L N]; auto.
  { constructor. } { apply half_grid. } { lra. } { intros q [<-|[]]; cbn; lra. } { cbn. lra. }
  destruct o as [|l [|]]; try discriminate. specialize (N l (or_introl eq_refl)). specialize (Lc l (or_introl eq_refl)). destruct l as [|v [|]]; try discriminate. cbn in N. injection N as ->. reflexivity.
Qed.
