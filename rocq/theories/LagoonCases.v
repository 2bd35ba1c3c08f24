(** C90: concrete cases. *)
From Coq Require Import Reals List Bool Arith ZArith Lra Lia.
From Verif Require Import PyBase RBase MathModel GeoModel ConvertProps GridModel GridProofs InterpModel InterpProps ExtrapProps ExtractModel ExtractSpec NodeProps ExtractProofs ExtractProps SplineProps ReturnProps SeriesModel SeriesSpec SeriesProofs SeriesProps SeriesProps2 SeriesProps3 StretchProofs AtlasNcModel AtlasNcSpec AtlasNcProps AtlasNcProps2 AtlasNcProps3 RegularModel RegularProps3 CropModel CropSpec CropProofs CropProps CropProps4 ShoreModel ShoreSpec ShoreProofs ShoreProps ShoreProps2 NarrowModel NarrowSpec NarrowProofs NarrowProps NarrowProps4 ReefModel ReefSpec ReefProofs ReefProps ReefProps2 ReefProps3 ReefProps4 ReefProps5 ReefProps6 LaterModel LaterSpec LaterProofs LaterProps LaterProps2 LaterProps3 LagoonModel LagoonProofs LagoonProps LagoonProps2 LagoonProps3.
Import ListNotations.
Open Scope R_scope.

Lemma shelf_for w : files_for w Vz 3 2 [shelf_file].
Proof.
  intros f [<-|[]]. exists shelf_parts. split; [exact (Parts_z shelf_file)|]. split; [apply shelf_file_grid|]. right. right. intros j i Hj Hi. rewrite shelf_number by auto. discriminate.
Qed.
(** the shelf is read, and the point between masked nodes gets the constant of the nearest
    node of the east *)
Example C90_filled_case : exists c cs ds c' l r, read_lagoon Vz false None 0 shelf_grid [shelf_file] = Ok c /\
  interpolate_lagoon (Quick Bilinear) Vz 1 (Some None) c [shelf_point] = Ok (cs, ds, c') /\ nth_error cs 0 = Some l /\ nth_error l 0 = Some r /\ r <> None /\
  exists cs0 l0, interpolate_lagoon (Quick Bilinear) Vz 1 None c [shelf_point] = Ok (cs0, ds, c') /\ nth_error cs0 0 = Some l0 /\ nth_error l0 0 = Some None.
Proof.
  pose proof (For_z shelf_grid) as Hn. cbn [shelf_grid fz] in Hn. pose proof (Parts_z shelf_file) as Hpa. cbn [shelf_file th] in Hpa.
  assert (U : not_cropped false None [shelf_point]) by now left.
  assert (Rt : forall ex, exists out, extract_reef (Quick Bilinear) Vz 1 ex false None None shelf_grid [shelf_file] [shelf_point] = Ok out).
  { intros ex. apply (C87_returns (Quick Bilinear) Vz 1 Either ex false None None shelf_grid shelf [shelf_file] [shelf_point] false 10 1 3 20 1 2 U Hn eq_refl shelf_nodes_grid shelf_framed).
    - intros f [<-|[]]. exists shelf_parts. split; [exact Hpa | apply shelf_file_grid]. - discriminate. - discriminate.
    - intros _ p [<-|[]]. unfold shelf_point, SeriesSpec.placed, node_x, last_of. cbn [fst]. change (IZR (Z.of_nat 3 - 1)) with 2. lra. }
  destruct (C90_read (Quick Bilinear) Vz 1 (Some None) Either None 0 None shelf_grid shelf [shelf_file] [shelf_point] false 10 1 3 20 1 2 Hn eq_refl shelf_nodes_grid shelf_framed (shelf_for _) (or_introl eq_refl)) as (c & Ec & S1).
  destruct (C90_read (Quick Bilinear) Vz 1 None Either None 0 None shelf_grid shelf [shelf_file] [shelf_point] false 10 1 3 20 1 2 Hn eq_refl shelf_nodes_grid shelf_framed (shelf_for _) (or_introl eq_refl)) as (c2 & Ec2 & S2).
  rewrite Ec in Ec2. apply Ok_inj in Ec2 as <-. destruct (Rt (Some None)) as (a & Ea). rewrite Ea in S1. destruct (Rt None) as (a0 & Ea0). rewrite Ea0 in S2.
  destruct (interpolate_lagoon (Quick Bilinear) Vz 1 (Some None) c [shelf_point]) as [[[cs ds] c']|] eqn:E1; [|contradiction].
  assert (Nn : forall j i, (j < 2)%nat -> (i < 3)%nat -> number_of shelf_parts j i <> None) by (intros j i Hj Hi; rewrite shelf_number by auto; discriminate).
  destruct (C90_filled (Quick Bilinear) Vz 1 Either None 0 shelf_grid shelf [shelf_file] [shelf_point] c cs ds c' 0 shelf_file shelf_parts 0 shelf_point false 10 1 3 20 1 2 I Hn eq_refl shelf_nodes_grid shelf_framed (shelf_for _) (or_introl eq_refl) Ec E1 eq_refl Hpa shelf_file_grid Nn eq_refl)
    as (cs0 & l0 & l & D & r0 & r & A1 & A2 & A3 & A4 & A5 & A6 & A7 & A8 & A9 & A10).
  rewrite A1 in S2. destruct S2 as (E2 & _ & _). subst cs0. assert (r0 = None) as -> by exact (shelf_masked Vz 1 false None None a0 l0 r0 U Ea0 Hn Hpa A4 A5).
  exists c, cs, ds, c', l, r. split; [exact Ec|]. split; [exact E1|]. split; [exact A6|]. split; [exact A7|]. split; [|exists (aconst a0), l0; auto].
  assert (B : ~ beyond FES false 10 1 3 20 1 2 (SeriesSpec.placed Either (fst shelf_point)) (snd shelf_point)).
  { unfold beyond, SeriesSpec.placed, shelf_point, node_x, node_y, first_of, last_of, behind. cbn [fst snd]. change (IZR (Z.of_nat 3 - 1)) with 2. change (INR (2 - 1)) with 1. change (INR 0) with 0. lra. }
  destruct (A10 B eq_refl) as [(j & i & _ & d & _ & v & x & p & _ & _ & ->)|[No _]]; [discriminate|].
  exfalso. apply No. exists 0%nat, 2%nat. split; [lia|]. split; [lia|]. split; [|exact I]. unfold constant_of. rewrite shelf_depth by lia. cbn [Nat.eqb]. rewrite shelf_number by lia. discriminate.
Qed.
(** the globe is cropped to bounds on both sides of Greenwich without a margin; a point in
    eastern longitudes gets the constants extracted in western ones *)
Lemma greenwich_kept : same_kept greenwich 0 1 0 90 4 0 10 2 (-2).
Proof.
  split.
  - intros i Hi. unfold stays, node_x. cbn [greenwich x_min x_max]. assert (i = -2 \/ i = -1 \/ i = 0 \/ i = 1)%Z as [-> | [-> | [-> | ->]]] by lia; split; lra.
  - intros j Hj. unfold row_stays, stays, node_y. cbn [greenwich y_min y_max]. destruct j as [|[|j]]; [| |lia]; cbn [INR]; split; lra.
Qed.
Example C90_cropped_case : exists c cs ds c' a, read_lagoon Vz true (Some greenwich) 0 globe_grid [globe_file] = Ok c /\
  interpolate_lagoon (Quick Spline) Vz 1 None c [(315, 5)] = Ok (cs, ds, c') /\
  extract_reef (Quick Spline) Vz 1 None true (Some greenwich) (Some 1) globe_grid [globe_file] [(-45, 5)] = Ok a /\ cs = aconst a /\ adepth a = ds.
Proof.
  destruct C88_cropping_case as [Cr Ce]. pose proof Cr as (Hn & Hny & G & Gf & Hd & Hw & Ne & Hb & Sb & Hm & W & Hf).
  assert (Ff : files_for (Quick Spline) Vz 4 2 [globe_file]).
  { intros f [<-|[]]. exists globe_parts. split; [exact (Parts_z globe_file)|]. split; [split; [reflexivity|]; split; (split; [reflexivity|]); intros q [<-|[<-|[<-|[<-|[]]]]]; reflexivity|].
    right. right. intros j i Hj Hi. destruct j as [|[|j]], i as [|[|[|[|i]]]]; try discriminate; lia. }
  assert (Ce0 : cell_within 0 90 4 0 10 2 greenwich 0 (-2) (-1) 0).
  { unfold cell_within, stays, node_x, node_y. cbn [greenwich x_min x_max y_min y_max INR]. change (-1 + 1)%Z with 0%Z. split; [lia|]. split; [lia|]. split; [lra|]. split; [lra|]. split; [lia|]. split; lra. }
  assert (Mv : moved (kept_longitude greenwich 0 FES true 0 90 4 (-2)) [(315, 5)] [(-45, 5)]).
  { replace [(-45, 5)] with (map (fun p : R * R => (westward (fst p), snd p)) [(315, 5)]) by (cbn [map fst snd]; unfold westward; destruct (Rlt_dec 180 315); [do 2 f_equal; lra | lra]).
    apply moved_west.
    - left. intros p [<-|[]]. cbn [fst]. lra.
    - exists (315, 5). split; [now left|]. cbn [fst]. lra.
    - exists (-90). split; [|lra]. exists (-1)%Z. split; [|unfold node_x; lra]. left. split; [lia|]. unfold stays, node_x. cbn [greenwich x_min x_max]. lra. }
  destruct (C90_cropped (Quick Spline) Vz 1 None greenwich 0 1 globe_grid globe [globe_file] [(315, 5)] [(-45, 5)] true 0 90 4 0 10 2 (-2) (-1) 0 Hn Hny G Ff Hd Hw Sb W Hf Ce0 ltac:(lra) greenwich_kept ltac:(discriminate) Mv) as (c & Ec & S1).
  assert (Cr1 : cropping Vz true 0 90 4 0 10 2 (Some greenwich) (Some 1) greenwich 1 (-2) globe_grid globe [globe_file] [(-45, 5)]) by (repeat (split; [first [assumption | discriminate | reflexivity]|]); assumption).
  destruct (C88_returns (Quick Spline) Vz 1 None _ _ _ _ _ _ _ _ _ _ _ _ _ _ _ _ _ _ Cr1 Ce) as (a & Ha); [discriminate | discriminate|]. rewrite Ha in S1.
  destruct (interpolate_lagoon (Quick Spline) Vz 1 None c [(315, 5)]) as [[[cs ds] c']|] eqn:E1; [|contradiction]. destruct S1 as (E2 & E3 & _). exists c, cs, ds, c', a. repeat (split; [first [assumption|reflexivity]|]).
  clear - E3. induction E3 as [|d d' l l' [_ K] _ IH]; [reflexivity|]. f_equal; [apply K; right; discriminate | exact IH].
Qed.
(** one column of the shelf, and none *)
Example C90_single_case : read_lagoon Vz true (Some (Limits 10 (21 / 2) 20 21)) 0 shelf_grid [shelf_file] = Err IndexError.
Proof.
  apply (C90_single Vz (Limits 10 (21 / 2) 20 21) 0 shelf_grid shelf [shelf_file] false 10 1 3 20 1 2 0 0 0 2); cbn [x_min x_max y_min y_max].
  - exact (For_z shelf_grid). - reflexivity. - apply shelf_nodes_grid. - intros (K & _). cbn [x_min] in K. lra.
  - apply window_same; intros [K1 K2]; [|lra]. unfold Rmin in K1. destruct (Rle_dec 10 (21 / 2)); lra.
  - now left.
  - split; [lia|]. split; [lia|]. intros i Hi. unfold stays, node_x. assert (i = 0 \/ i = 1 \/ i = 2)%Z as [-> | [-> | ->]] by lia; split; intros; try lia; lra.
  - split; [lia|]. intros j Hj. unfold stays, node_y. destruct j as [|[|j]]; [| |lia]; cbn [INR]; split; intros; try lia; lra.
  - lia.
Qed.
Example C90_default_case : read_lagoon Vz true (Some (Limits (21 / 2) (21 / 2) (41 / 2) (41 / 2))) 0 shelf_grid [shelf_file] = Err IndexError /\
  exists out, extract_reef (Quick Spline) Vz 1 None true (Some (Limits (21 / 2) (21 / 2) (41 / 2) (41 / 2))) None shelf_grid [shelf_file] [(21 / 2, 41 / 2)] = Ok out.
Proof.
  apply (C90_default_refuted (Quick Spline) Vz 1 shelf_grid shelf [shelf_file] (21 / 2) (41 / 2) false 10 1 3 20 1 2 0 0 0).
  - discriminate. - exact (For_z shelf_grid). - reflexivity. - apply shelf_nodes_grid.
  - intros f [<-|[]]. exists shelf_parts. split; [exact (Parts_z shelf_file) | apply shelf_file_grid].
  - lra. - cbn [INR]. lra. - lra. - left. lra.
  - apply window_same; intros [K1 K2]; [|lra]. unfold Rmin in K1. destruct (Rle_dec (21 / 2) (21 / 2)); lra.
  - now left. - lia. - unfold node_x. change (0 + 1)%Z with 1%Z. lra. - lia. - unfold node_y. cbn [INR]. lra.
Qed.
