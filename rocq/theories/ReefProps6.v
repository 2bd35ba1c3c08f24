(** C88: cropping changes what is extrapolated; concrete cases. *)
From Coq Require Import Reals List Bool Arith ZArith Lra Lia.
From Verif Require Import PyBase RBase MathModel GeoModel ConvertProps GridModel InterpModel InterpProps ExtrapProps ExtractModel ExtractSpec NodeProps ExtractProofs ExtractProps SplineProps ReturnProps MergeSpec MergeProps SeriesModel SeriesSpec SeriesProofs SeriesProps SeriesProps2 SeriesProps3 StretchProofs AtlasNcModel AtlasNcSpec AtlasNcProps AtlasNcProps2 AtlasNcProps3 RegularModel RegularSpec RegularProofs RegularProps RegularProps2 RegularProps3 CropModel CropSpec CropProofs CropProps ShoreModel ShoreSpec ShoreProofs ShoreProps ShoreProps2 NarrowModel NarrowSpec NarrowProofs NarrowProps NarrowProps4 ReefModel ReefSpec ReefProofs ReefProps ReefProps2 ReefProps3 ReefProps4 ReefProps5.
Import ListNotations.
Open Scope R_scope.

(** the shelf cropped to its western columns, which are land *)
Definition inland : limits := Limits 10 11 20 21.
Lemma inland_cropping t : nodes_for shelf_grid t shelf -> parts_for shelf_file t (Some shelf_parts) ->
  cropping t false 10 1 3 20 1 2 (Some inland) (Some (1 / 4)) inland (1 / 4) 0 shelf_grid shelf [shelf_file] [shelf_point].
Proof.
  intros Hn Hp. split; [exact Hn|]. split; [reflexivity|]. split; [apply shelf_nodes_grid|]. split; [intros f [<-|[]]; exists shelf_parts; split; [exact Hp | apply shelf_file_grid]|].
  split; [lra|]. split; [cbn [INR]; lra|]. split; [discriminate|]. split; [reflexivity|]. split; [intros (K & _); cbn [inland x_min] in K; lra|]. split; [left; split; [lra | reflexivity]|].
  split; [|now left]. apply window_same; cbn [inland x_min x_max]; intros [K1 K2].
  - unfold Rmin in K1. destruct (Rle_dec 10 11); lra.
  - lra.
Qed.
Lemma inland_cell : cell_within 10 1 3 20 1 2 inland (1 / 4) 0 0 0.
Proof.
  unfold cell_within, stays, node_x, node_y. cbn [inland x_min x_max y_min y_max INR]. change (0 + 1)%Z with 1%Z. split; [lia|]. split; [lia|]. split; [lra|]. split; [lra|]. split; [lia|]. split; lra.
Qed.
Lemma inland_kept j i : kept_node inland (1 / 4) 10 1 3 20 1 2 0 j i -> (j < 2)%nat /\ (i = 0 \/ i = 1)%Z.
Proof.
  intros (Hj & _ & Hi & S1). split; [exact Hj|]. unfold stays, node_x in S1. cbn [inland x_min x_max] in S1. assert (i < 2)%Z; [|lia]. apply lt_IZR. lra.
Qed.
Theorem C88_fill_refuted : exists out out' ph,
  extract_reef (Quick Bilinear) Vz 2 (Some None) false (Some inland) (Some (1 / 4)) shelf_grid [shelf_file] [shelf_point] = Ok out /\ aconst out = [[Some (2, ph)]] /\
  extract_reef (Quick Bilinear) Vz 2 (Some None) true (Some inland) (Some (1 / 4)) shelf_grid [shelf_file] [shelf_point] = Ok out' /\ aconst out' = [[None]].
Proof.
  destruct C87_filled_case as (out & _ & ph & H & A & _). pose proof (For_z shelf_grid) as Hn. cbn [shelf_grid fz] in Hn. pose proof (Parts_z shelf_file) as Hpa. cbn [shelf_file th] in Hpa.
  assert (Nn : forall j i, (j < 2)%nat -> (i < 3)%nat -> number_of shelf_parts j i <> None) by (intros j i Hj Hi; rewrite shelf_number by auto; discriminate).
  destruct (C88_returns (Quick Bilinear) Vz 2 (Some None) _ _ _ _ _ _ _ _ _ _ _ _ _ _ _ _ 0 0 (inland_cropping Vz Hn Hpa) inland_cell) as (out' & H').
  { discriminate. }
  { intros _ p l [<-|[]] _ K. unfold shelf_point, node_x in K. cbn [fst] in K. assert (E : 2 * IZR l = 1) by lra. rewrite <- mult_IZR in E. apply eq_IZR in E. lia. }
  destruct (C88_filled (Quick Bilinear) Vz 2 None _ _ _ _ _ _ _ _ _ _ _ _ _ _ _ _ out' 0 0 0 shelf_file shelf_parts 0 shelf_point I (inland_cropping Vz Hn Hpa) inland_cell H' eq_refl Hpa shelf_file_grid Nn eq_refl)
    as (out0 & cs0 & cs & D & r0 & r & E0 & _ & _ & _ & C0 & R0 & L1 & C1 & L2 & R1 & _ & _ & F).
  assert (K0 : forall j i, (j < 2)%nat -> (i = 0 \/ i = 1)%Z -> constant_of shelf shelf_parts j (column 3 i) = None).
  { intros j i Hj Hi. unfold constant_of. assert (column 3 i = 0 \/ column 3 i = 1)%nat as [-> | ->] by (destruct Hi as [-> | ->]; auto); rewrite shelf_depth by lia; reflexivity. }
  assert (Er0 : r0 = None).
  { destruct (C88_cell Vz 2 _ _ _ _ _ _ _ _ _ _ _ _ _ _ _ _ out0 0 0 0 shelf_file shelf_parts 0 (21 / 2) (41 / 2) (inland_cropping Vz Hn Hpa) inland_cell E0 eq_refl Hpa shelf_file_grid eq_refl) as (D' & cs' & r' & _ & _ & _ & _ & B1 & _ & B2 & B3).
    - left. unfold node_y. cbn [INR]. lra.
    - unfold between_nodes, node_x, node_y. change (0 + 1)%Z with 1%Z. cbn [INR]. lra.
    - unfold at_node, node_x, node_y. cbn [INR]. change (0 + 1)%Z with 1%Z. intros [[K|K] _]; revert K; unfold ExtractSpec.close; cbn [IZR IPR]; unfold Rabs; repeat destruct (Rcase_abs _); lra.
    - rewrite C0 in B1. injection B1 as <-. rewrite R0 in B2. injection B2 as <-. revert B3. unfold corners. rewrite !K0 by auto.
      assert (Mn : forall (g : R * R -> R) w1 w2 w3 w4, mean (part g [(w1, None); (w2, None); (w3, None); (w4, None)]) = None).
      { intros g w1 w2 w3 w4. unfold mean, part, weight, total. cbn [map fst snd option_map fold_right]. destruct (Req_EM_T _ 0) as [_|N]; [reflexivity|]. exfalso. apply N. ring. }
      rewrite Mn. cbn [both reported]. auto. }
  assert (B : ~ beyond_kept inland (1 / 4) FES false 10 1 3 20 1 2 0 (fst shelf_point) (snd shelf_point)).
  { assert (Av : forall k, (k = 0 \/ k = 1)%Z -> column_available inland (1 / 4) FES false 10 1 3 0 k).
    { intros k Hk. left. unfold stays, node_x. cbn [inland x_min x_max]. destruct Hk as [-> | ->]; (split; [lia | lra]). }
    assert (Rv : forall k, (k = 0 \/ k = 1)%nat -> row_stays inland (1 / 4) 20 1 k).
    { intros k Hk. unfold row_stays, stays, node_y. cbn [inland y_min y_max]. destruct Hk as [-> | ->]; cbn [INR]; lra. }
    unfold shelf_point. cbn [fst snd]. intros [K|[K|[K|K]]].
    - specialize (K 0%Z (Av 0%Z ltac:(auto))). unfold node_x in K. lra.
    - specialize (K 1%Z (Av 1%Z ltac:(auto))). unfold node_x in K. lra.
    - specialize (K 0%nat ltac:(lia) (Rv 0%nat ltac:(auto))). unfold node_y in K. cbn [INR] in K. lra.
    - specialize (K 1%nat ltac:(lia) (Rv 1%nat ltac:(auto))). unfold node_y in K. cbn [INR] in K. lra. }
  assert (Er : r = None).
  { destruct (F B Er0) as [(j & i & [(K & Zn & _) _] & _)|[_ Er]]; [|exact Er]. exfalso. apply inland_kept in K as [Hj Hi]. apply Zn. now apply K0. }
  exists out, out', ph. split; [|split; [exact A|split; [exact H'|]]].
  - exact H.
  - destruct (aconst out') as [|k [|]]; try discriminate L1. injection C1 as ->. destruct cs as [|k [|]]; try discriminate L2. injection R1 as ->. now rewrite Er.
Qed.
Print Assumptions C88_fill_refuted.

(** ** Concrete cases *)
(** a model around the globe, cropped to bounds on both sides of Greenwich *)
Definition globe : nodes := Nodes [0; 90; 180; 270] [0; 10] [[100; 200]; [0; 300]; [0; 0]; [400; 500]].
Definition globe_grid : grid_file := GridFile 4 2 globe globe globe.
Definition globe_parts : parts := ([[Some 1; Some 2]; [Some 3; Some 4]; [Some 5; Some 6]; [Some 7; Some 8]], [[Some 0; Some 0]; [Some 0; Some 0]; [Some 0; Some 0]; [Some 0; Some 0]]).
Definition globe_file : tide_file := TideFile 4 2 [109%Z; 50%Z; 32%Z; 32%Z] false (Some globe_parts) None None.
Definition greenwich : limits := Limits (-90) 5 0 10.
Lemma globe_nodes : nodes_grid true 0 90 4 0 10 2 globe.
Proof.
  split; [|split; [|split; [|split; [|split; [|left; split; [reflexivity | cbn; lra]]]]]]; try lia.
  - split; [lra|]. split; [reflexivity|]. intros i Hi. destruct i as [|[|[|[|i]]]]; [cbn; lra .. | exfalso; lia].
  - split; [lra|]. split; [reflexivity|]. intros i Hi. destruct i as [|[|i]]; [cbn; lra .. | exfalso; lia].
  - split; [reflexivity|]. intros r [<-|[<-|[<-|[<-|[]]]]]; reflexivity.
Qed.
Example C88_cropping_case : cropping Vz true 0 90 4 0 10 2 (Some greenwich) (Some 1) greenwich 1 (-2) globe_grid globe [globe_file] [(-45, 5); (-10, 4)] /\
  cell_within 0 90 4 0 10 2 greenwich 1 (-2) (-1) 0.
Proof.
  split.
  - split; [exact (For_z globe_grid)|]. split; [reflexivity|]. split; [apply globe_nodes|]. split.
    { intros f [<-|[]]. exists globe_parts. split; [exact (Parts_z globe_file)|]. split; [reflexivity|]. split; (split; [reflexivity|]); intros r [<-|[<-|[<-|[<-|[]]]]]; reflexivity. }
    split; [lra|]. split; [cbn [INR]; lra|]. split; [discriminate|]. split; [reflexivity|]. split; [intros (K & _); cbn [greenwich x_min] in K; lra|]. split; [left; split; [lra | reflexivity]|]. split; [|now right].
    change (-2)%Z with (Z.of_nat 2 - Z.of_nat 4)%Z. apply window_west; [cbn [greenwich x_min x_max]; unfold Rmin; destruct (Rle_dec (-90) 5); lra | cbn [INR Nat.sub]; lra | | lia].
    split; [lia|]. intros k Hk. destruct k as [|[|[|[|k]]]]; [.. | exfalso; lia]; cbn [INR]; unfold Rabs; repeat destruct (Rcase_abs _); split; intros; try lra; exfalso; lia.
  - unfold cell_within, stays, node_x, node_y. cbn [greenwich x_min x_max y_min y_max INR]. change (-1 + 1)%Z with 0%Z. split; [lia|]. split; [lia|]. split; [lra|]. split; [lra|]. split; [lia|]. split; lra.
Qed.
(** the constants there are of columns 3 and 0 *)
Example C88_spline_case : exists out cs r, extract_reef (Quick Spline) Vz 1 None true (Some greenwich) (Some 1) globe_grid [globe_file] [(-45, 5); (-10, 4)] = Ok out /\
  nth_error (aconst out) 0 = Some cs /\ nth_error cs 0 = Some r /\
  let z := corners Heights 0 90 0 10 4 (-45) 5 (-1) 0 (constant_of globe globe_parts) in
  reported Vz 1 (mean (corners Heights 0 90 0 10 4 (-45) 5 (-1) 0 (depth_of globe))) (both (mean (part fst z)) (mean (part snd z))) r /\ r <> None.
Proof.
  destruct C88_cropping_case as [Cr Ce]. destruct (C88_returns (Quick Spline) Vz 1 None _ _ _ _ _ _ _ _ _ _ _ _ _ _ _ _ _ _ Cr Ce) as (out & H); [discriminate | discriminate |].
  assert (Fg : file_grid 4 2 globe_file globe_parts) by (split; [reflexivity|]; split; (split; [reflexivity|]); intros q [<-|[<-|[<-|[<-|[]]]]]; reflexivity).
  assert (Dp : forall j i, (j = 0 \/ j = 1)%nat -> (i = 0 \/ i = 3)%nat -> depth_of globe j i <> None).
  { intros j i Hj Hi. unfold depth_of. destruct Hj as [-> | ->], Hi as [-> | ->]; cbn [globe ndepth entry nth]; destruct (Req_EM_T _ 0); try discriminate; lra. }
  destruct (C88_spline (Quick Spline) Vz 1 _ _ _ _ _ _ _ _ _ _ _ _ _ _ _ _ out _ _ 0 globe_file globe_parts 0 (-45) 5 (or_introl eq_refl) Cr Ce H eq_refl (Parts_z globe_file) Fg) as (D & cs & r & _ & _ & _ & A1 & _ & A2 & A3 & _).
  { intros j i Hj Hi. destruct j as [|[|j]], i as [|[|[|[|i]]]]; try discriminate; lia. }
  { reflexivity. } { unfold node_x. change (-1 + 1)%Z with 0%Z. lra. } { unfold node_y. cbn [INR]. lra. }
  exists out, cs, r. split; [exact H|]. split; [exact A1|]. split; [exact A2|]. destruct A3 as (Md & _ & Mz & Rp).
  { unfold complete, corners. intros q Hq _. change (column 4 (-1)) with 3%nat in Hq. change (column 4 (-1 + 1)) with 0%nat in Hq. destruct Hq as [<-|[<-|[<-|[<-|[]]]]]; cbn [snd]; apply Dp; auto. }
  cbv zeta. split; [exact Rp|]. intros ->. unfold reported in Rp.
  match type of Rp with match ?b with Some _ => _ | None => _ end => destruct b as [zz|]; [|congruence] end.
  match type of Rp with match ?b with Some _ => _ | None => _ end => destruct b as [dd|]; [|congruence] end. destruct Rp as (a & p & _ & K). discriminate K.
Qed.
(** no column within the bounds *)
Example C88_empty_case : extract_reef (Quick Bilinear) Vz 1 None true (Some (Limits 40 50 0 10)) (Some 1) globe_grid [globe_file] [(45, 5)] = Err IndexError.
Proof.
  apply (C88_empty (Quick Bilinear) Vz 1 None true 0 90 4 0 10 2 (Some (Limits 40 50 0 10)) (Some 1) (Limits 40 50 0 10) 1 0 globe_grid globe [globe_file] [(45, 5)]).
  - split; [exact (For_z globe_grid)|]. split; [reflexivity|]. split; [apply globe_nodes|]. split.
    { intros f [<-|[]]. exists globe_parts. split; [exact (Parts_z globe_file)|]. split; [reflexivity|]. split; (split; [reflexivity|]); intros r [<-|[<-|[<-|[<-|[]]]]]; reflexivity. }
    split; [lra|]. split; [cbn [INR]; lra|]. split; [discriminate|]. split; [reflexivity|]. split; [intros (K & _); cbn [x_min] in K; lra|]. split; [left; split; [lra | reflexivity]|]. split; [|now left].
    apply window_same; cbn [x_min x_max]; intros [K1 K2]; [|lra]. unfold Rmin in K1. destruct (Rle_dec 40 50); lra.
  - left. intros i Hi [K1 K2]. unfold node_x in K1, K2. cbn [x_min x_max] in K1, K2. assert (0 < i)%Z by (apply lt_IZR; lra). assert (i < 1)%Z by (apply lt_IZR; lra). lia.
Qed.
