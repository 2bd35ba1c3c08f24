(** C85: extraction with extrapolation returns; what it makes of velocities. *)
From Coq Require Import Reals List Bool Arith ZArith Lra Lia.
From Verif Require Import PyBase RBase MathModel GeoModel ConvertProps GridModel InterpModel InterpProps ExtrapProps ExtractModel ExtractSpec NodeProps ExtractProofs ExtractProps SplineProps ReturnProps SeriesModel RegularModel RegularProps5 CropModel ShoreModel ShoreSpec ShoreProofs CoastModel CoastSpec CoastProofs CoastProps CoastProps2.
Import ListNotations.
Open Scope R_scope.

(** ** Extraction with extrapolation returns, for bilinear interpolation unless a point is
    on the last column of nodes *)
Theorem C85_returns : forall fwd geo around w t k x0 dx nx y0 dy ny g hcs lonlat ex,
  model_grid geo around x0 dx nx y0 dy ny g hcs -> kind_of t = Some k -> lonlat <> [] -> w <> Regular Unknown ->
  (w = Quick Bilinear -> forall p x, In p lonlat -> convention geo x0 (x0 + INR (nx - 1) * dx) (map (fun p => fst (fwd p)) lonlat) (fst (fwd p)) x ->
    x <> node_x k x0 dx (last_column around nx)) ->
  exists depths cols, extract_extrapolated fwd geo w t ex g hcs lonlat = Ok (depths, cols).
Proof.
  intros fwd geo around w t k x0 dx nx y0 dy ny g hcs lonlat ex M Hk Hne Hw Hl.
  assert (K : exists depths cols, extract_extrapolated fwd geo w t None g hcs lonlat = Ok (depths, cols)).
  { destruct w as [me|me].
    - destruct (C68_returns fwd geo around me t k x0 dx nx y0 dy ny g hcs lonlat M Hk Hne) as (out & E & _); [intros ->; now apply Hl|].
      destruct (C85_off _ _ _ _ _ _ _ _ E) as (ds & cols & E' & _). eauto.
    - destruct (C82_otis_returns fwd geo around me t k x0 dx nx y0 dy ny g hcs lonlat M Hk Hne) as (out & E & _); [congruence|].
      destruct (C85_off_regular _ _ _ _ _ _ _ _ E) as (ds & cols & E' & _). eauto. }
  destruct ex as [c|]; [|exact K]. destruct K as (ds & cols & K). destruct (extract_extrapolated fwd geo w t (Some c) g hcs lonlat) as [[ds' cols']|e] eqn:E; [eauto|].
  pose proof (proj1 (C85_errors fwd geo w t c g hcs lonlat e) E) as E'. rewrite K in E'. discriminate E'.
Qed.
Print Assumptions C85_returns.

(** ** A bay: water in the first column of a projected model, land east of it *)
Definition bay : grid := Grid [0; 10; 20] [0; 10; 20] [[200; 0; 0]; [200; 0; 0]; [200; 0; 0]] [[1; 1; 1]; [1; 1; 1]; [1; 1; 1]]%Z.
Definition bay_tide : field := repeat (repeat (Some (3, 0), false) 3) 3.
Lemma bay_axis : evenly 0 10 3 [0; 10; 20].
Proof. split; [lra|]. split; [reflexivity|]. intros [|[|[|i]]] Hi; cbn; lra || lia. Qed.
Lemma bay_grid : model_grid false false 0 10 3 0 10 3 bay [bay_tide].
Proof.
  split; [exact bay_axis|]. split; [exact bay_axis|]. split; [lia|]. split; [lia|].
  split; [split; [reflexivity | intros r [<-|[<-|[<-|[]]]]; reflexivity]|]. split; [split; [reflexivity | intros r [<-|[<-|[<-|[]]]]; reflexivity]|].
  split; [|right; auto]. intros hc [<-|[]]. split; [reflexivity | intros r [<-|[<-|[<-|[]]]]; reflexivity].
Qed.
Definition bay_water := water (entry 0 (ghz bay)) (entry 0%Z (gmz bay)) false 3 Meridional.
Lemma bay_depth j : (j < 3)%nat -> bay_water j 0 = Some 200.
Proof.
  intros Hj. unfold bay_water, water, bay. cbn [ghz gmz]. destruct j as [|[|[|j]]]; [| | |lia]; unfold entry, south; cbn [nth pred]; (destruct (Rlt_dec 0 200); [|lra]); f_equal; lra.
Qed.
Lemma bay_land j i : (0 < i)%nat -> bay_water j i = None.
Proof.
  intros Hi. assert (Z0 : forall j i, (0 < i)%nat -> entry 0 (ghz bay) j i = 0).
  { clear. intros j i Hi. unfold entry, bay. cbn [ghz]. destruct j as [|[|[|j]]]; cbn [nth]; destruct i as [|[|[|i]]]; try lia; cbn [nth]; auto; [destruct i | destruct i | destruct i | destruct j | destruct j | destruct j]; reflexivity. }
  unfold bay_water, water. rewrite (Z0 j i Hi). destruct (Rlt_dec 0 0); [lra | reflexivity].
Qed.
Lemma bay_tides j i : (j < 3)%nat -> (i < 3)%nat -> entry (None, true) bay_tide j i = (Some (3, 0), false).
Proof. intros Hj Hi. destruct j as [|[|[|j]]]; [| | |lia]; destruct i as [|[|[|i]]]; try lia; reflexivity. Qed.
(** the amplitude of a point on land, 15 east of the water, for transports and velocities *)
Lemma bay_value t : kind_of t = Some Meridional -> exists depths,
  extract_extrapolated (fun p => p) false (Quick Bilinear) t (Some (Some 100)) bay [bay_tide] [(15, 8)] = Ok (depths, [[Some (3, 0)]]).
Proof.
  intros Hk. assert (Cv : convention false 0 (0 + INR (3 - 1) * 10) (map (fun p : R * R => fst p) [(15, 8)]) 15 15) by now apply projected.
  destruct (C85_returns (fun p => p) false false (Quick Bilinear) t Meridional 0 10 3 0 10 3 bay [bay_tide] [(15, 8)] (Some (Some 100)) bay_grid Hk) as (ds & cols & E); [discriminate | discriminate | |].
  { intros _ p x [<-|[]] C. inversion C; try discriminate. cbn [fst]. unfold node_x, last_column. cbn. lra. }
  destruct (C68_returns (fun p => p) false false Bilinear t Meridional 0 10 3 0 10 3 bay [bay_tide] [(15, 8)] bay_grid Hk) as (rows & Er & _); [discriminate | |].
  { intros _ p x [<-|[]] C. inversion C; try discriminate. cbn [fst]. unfold node_x, last_column. cbn. lra. }
  destruct (C68_cell_partial (fun p => p) false false t Meridional 0 10 3 0 10 3 bay [bay_tide] [(15, 8)] rows 0 (15, 8) 15 8 1 1 bay_grid Hk Er eq_refl Cv eq_refl) as (row & O1 & Lr & Or).
  { unfold reach. cbn [INR Nat.sub]. lra. } { unfold in_rows. cbn [snd INR Nat.sub]. lra. } { unfold columns. lia. } { unfold columns. lia. } { lia. }
  { unfold between_nodes, node_x, node_y. change (IZR (1 + 1)) with 2. cbn [INR]. lra. }
  { unfold at_node, ExtractSpec.close, node_x, node_y. intros [[A|A] _]; revert A; [replace (15 - (0 + 1 * 10)) with 5 by lra | change (IZR (1 + 1)) with 2; replace (15 - (0 + 2 * 10)) with (- (5)) by lra; rewrite Rabs_Ropp]; rewrite !Rabs_pos_eq by lra; lra. }
  { discriminate. }
  fold bay_water in O1, Or. change (column 3 1) with 1%nat in *.
  assert (Co : forall V (f : nat -> nat -> option V), (forall j i, (0 < i)%nat -> f j i = None) -> weight (corners Meridional 0 10 0 10 3 15 8 1 1 f) = 0).
  { intros V f Hf. unfold corners, weight. change (column 3 1) with 1%nat. change (column 3 (1 + 1)) with 2%nat. rewrite !Hf by lia. cbn. lra. }
  assert (Md : mean (corners Meridional 0 10 0 10 3 15 8 1 1 bay_water) = None) by (apply mean_none, Co; exact bay_land). rewrite Md in O1, Or.
  destruct (Or 0%nat bay_tide eq_refl) as (v & Ov & Rv). cbn zeta in Rv.
  assert (Mz : mean (part fst (corners Meridional 0 10 0 10 3 15 8 1 1 (fun j i => tide (bay_water j i) (entry (None, true) bay_tide j i)))) = None).
  { apply mean_none. rewrite weight_part. apply Co. intros j i Hi. now rewrite bay_land. }
  rewrite Mz in Rv. cbn [both returned] in Rv. subst v.
  destruct (C85_filled (fun p => p) false false (Quick Bilinear) t Meridional 0 10 3 0 10 3 bay [bay_tide] [(15, 8)] (Some 100) ds cols 0 (15, 8) 15 0 bay_tide) as (cols0 & cs0 & cs & D & r0 & r & F1 & F2 & F3 & F4 & F5 & F6 & F7 & F8 & F9 & _ & _ & Go); auto; [lra | exact bay_grid | discriminate|].
  destruct (C85_off _ _ _ _ _ _ _ _ Er) as (ds' & cols' & E' & (Sd & _ & St)). rewrite F1 in E'. apply Ok_inj in E'. injection E' as <- <-.
  destruct (St 0%nat _ _ O1) as [_ Sv]. destruct (Sv 0%nat None Ov) as (col & S1 & _ & S2). rewrite F5 in S1. injection S1 as <-. rewrite F6 in S2. injection S2 as ->.
  assert (HD : snd D = true). { rewrite Sd in F2. pose proof (map_nth_error fst 0 rows O1) as K. cbn [fst] in K. assert (K' : Some D = Some (@None R, true)) by (rewrite <- F2; exact K). injection K' as ->. reflexivity. }
  exists ds. rewrite E. assert (Er' : r = Some (3, 0)).
  { destruct Go as [(j & i & [Cl _] & (v & a & ph & Ev & Ap & ->)) | [No _]]; [| reflexivity | |].
    - unfold off_grid, reach. cbn [fst snd INR Nat.sub]. lra.
    - destruct Cl as (Hj & Hi & Z0 & _). fold bay_water in Ev, Z0. assert (i = 0)%nat by (destruct i as [|i]; auto; exfalso; apply Z0; rewrite bay_land by lia; reflexivity). subst i.
      rewrite bay_depth, bay_tides in Ev by lia. cbn [tide] in Ev. destruct (Req_EM_T 3 0); [lra|]. injection Ev as <-.
      rewrite HD. destruct Ap as (A0 & P0 & C0 & S0). cbn [fst snd] in C0, S0.
      assert (Ha : a = 3).
      { assert (Q : a * a = 9). { pose proof (sin2_cos2 (ph * PI / 180)) as SC. unfold Rsqr in SC. replace (a * a) with (a * a * (sin (ph * PI / 180) * sin (ph * PI / 180) + cos (ph * PI / 180) * cos (ph * PI / 180))) by (rewrite SC; ring).
          transitivity ((a * sin (ph * PI / 180)) * (a * sin (ph * PI / 180)) + (a * cos (ph * PI / 180)) * (a * cos (ph * PI / 180))); [ring|]. rewrite <- C0. replace (a * sin (ph * PI / 180)) with 0 by lra. lra. }
        nra. }
      subst a. assert (Cp : cos (ph * PI / 180) = 1) by lra. assert (Hp : ph = 0).
      { destruct (Req_dec ph 0) as [|N]; auto. exfalso. pose proof PI_RGT_0. set (y := ph * PI / 180) in *. assert (Y : 0 < y < 2 * PI) by (unfold y; split; [assert (0 < ph * PI) by nra; lra | assert (ph * PI < 360 * PI) by nra; lra]).
        assert (Sy : 0 < sin (y / 2)) by (apply sin_gt_0; lra). pose proof (cos_2a_sin (y / 2)) as C2. replace (2 * (y / 2)) with y in C2 by lra. rewrite Cp in C2. nra. }
      subst ph. destruct (velocity t); reflexivity.
    - exfalso. apply No. exists 1%nat, 0%nat. split; [lia|]. split; [lia|]. fold bay_water. rewrite bay_depth, bay_tides by lia. cbn [tide]. destruct (Req_EM_T 3 0); [lra|]. split; [discriminate|].
      cbn [nearer_than apart]. unfold node_of, node_x, node_y. cbn [fst snd INR Z.of_nat]. apply Rsqr_incrst_0; [|apply sqrt_pos|lra]. rewrite Rsqr_sqrt by nra. unfold Rsqr. cbn. lra. }
  subst r. f_equal. f_equal. cbn [length] in F4, F8. destruct cols as [|c1 [|]]; try discriminate. cbn in F7. injection F7 as ->. destruct cs as [|v1 [|]]; try discriminate. cbn in F9. injection F9 as ->. reflexivity.
Qed.
(** ** Velocities are not divided by a depth where the depth is masked: for the same point
    the velocity (cm/s) and the transport (m2/s) are the same number although all of the
    water is 200 m deep *)
Theorem C85_velocity_refuted : exists fwd g hcs lonlat cutoff depths depths' a ph,
  model_grid false false 0 10 3 0 10 3 g hcs /\
  (forall j i d, (j < 3)%nat -> (i < 3)%nat -> water (entry 0 (ghz g)) (entry 0%Z (gmz g)) false 3 Meridional j i = Some d -> d = 200) /\
  extract_extrapolated fwd false (Quick Bilinear) Vv (Some cutoff) g hcs lonlat = Ok (depths, [[Some (a, ph)]]) /\
  extract_extrapolated fwd false (Quick Bilinear) VV (Some cutoff) g hcs lonlat = Ok (depths', [[Some (a, ph)]]) /\
  0 < a.
Proof.
  destruct (bay_value Vv eq_refl) as [ds E]. destruct (bay_value VV eq_refl) as [ds' E']. exists (fun p => p), bay, [bay_tide], [(15, 8)], (Some 100), ds, ds', 3, 0.
  split; [exact bay_grid|]. split; [|split; [exact E|split; [exact E' | lra]]]. intros j i d Hj Hi W. fold bay_water in W. destruct i as [|i]; [|rewrite bay_land in W by lia; discriminate]. rewrite bay_depth in W by lia. injection W as <-. reflexivity.
Qed.
Print Assumptions C85_velocity_refuted.
Example C85_filled_case : exists depths,
  extract_extrapolated (fun p => p) false (Quick Bilinear) VV (Some (Some 100)) bay [bay_tide] [(15, 8)] = Ok (depths, [[Some (3, 0)]]).
Proof. exact (bay_value VV eq_refl). Qed.
