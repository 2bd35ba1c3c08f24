(** C91: bilinear velocities next to land, where the depth is not a number. *)
From Coq Require Import Reals List Bool Arith ZArith Lra Lia.
From Verif Require Import PyBase RBase MathModel GeoModel ConvertProps GridModel InterpModel InterpProps ExtrapProps ExtractModel ExtractSpec NodeProps ExtractProofs ExtractProps SplineProps ReadProps ReturnProps SeriesModel SeriesProps3 RegularModel RegularSpec RegularProofs RegularProps2 RegularProps4 RegularProps5 RegularProps6 CropModel ShoreModel ShoreSpec ShoreProofs CoastModel CoastSpec CoastProofs CoastProps CoastProps2 CoastProps3 FjordModel FjordSpec FjordProofs FjordProps FjordProps2 FjordProps3 FjordProps4.
Import ListNotations.
Open Scope R_scope.

(** ** C91: a velocity is lost where the depth is neither masked nor a number *)
Theorem C91_nan : forall fwd geo w t ex c lonlat depths cols n cs ci r,
  velocity t = true -> interpolate_extrapolated fwd geo w t ex c lonlat = Ok (depths, cols) ->
  nth_error depths n = Some (None, false) -> nth_error cols ci = Some cs -> nth_error cs n = Some r -> r = None.
Proof.
  intros fwd geo w t ex c lonlat ds cols n cs ci r Ht H HD Hcs Hr. unfold interpolate_extrapolated in H.
  do 5 (match type of H with bind ?m _ = _ => destruct m eqn:?; [|discriminate]; cbn [bind] in H end).
  match type of H with bind ?m _ = _ => destruct m as [o|] eqn:Eo; [|discriminate]; cbn [bind] in H end. apply Ok_inj in H. injection H as -> ->.
  rename a1 into pts, a2 into invs.
  destruct (nth_error (cfields c) ci) as [f|] eqn:Hf.
  2: { apply nth_error_None in Hf. pose proof (mapM_len _ _ _ Eo) as L. assert (ci < length cols)%nat by (apply nth_error_Some; congruence). lia. }
  destruct (mapM_nth _ _ _ _ _ Eo Hf) as (cs' & C1 & C2). assert (cs' = cs) as -> by congruence.
  unfold values_again in C1. match type of C1 with bind ?m _ = _ => destruct m as [hs|]; [|discriminate]; cbn [bind] in C1 end.
  assert (Ev : exists l, cs = map (fun p => value_again t (fst (snd (fst p))) (snd (snd (fst p))) (snd p)) (combine (combine pts (combine invs ds)) l)).
  { destruct t; try discriminate Ht; apply Ok_inj in C1 as <-; eauto. }
  destruct Ev as [l ->]. rewrite nth_error_map in Hr. destruct (nth_error (combine _ l) n) as [[[q [i D]] h]|] eqn:E; [|discriminate]. cbn in Hr. injection Hr as <-.
  assert (D = (None, false)).
  { apply nth_error_split in E as (l1 & l2 & E & Ln). clear - E Ln HD. revert pts invs ds l n HD E Ln. induction l1 as [|x l1 IH]; intros [|p pts] [|i0 invs] [|d ds] [|h0 l] n HD E Ln; try discriminate.
    - cbn in E. injection E as -> -> -> -> _. cbn in Ln. subst n. now injection HD.
    - cbn in E. injection E as _ E. cbn in Ln. subst n. eapply (IH pts invs ds l (length l1)); eauto. }
  subst D. unfold value_again. destruct (snd h || i); [reflexivity|]. destruct (fst (fst h)); [|reflexivity]. destruct t; try discriminate Ht; reflexivity.
Qed.
Print Assumptions C91_nan.

(** ** A cove: water in the last column, land west of it *)
Definition cove : grid := Grid [0; 10; 20] [0; 10; 20] [[0; 0; 200]; [0; 0; 200]; [0; 0; 200]] [[1; 1; 1]; [1; 1; 1]; [1; 1; 1]]%Z.
Lemma cove_grid : model_grid false false 0 10 3 0 10 3 cove [bay_tide].
Proof.
  destruct bay_grid as (H1 & H2 & H3 & H4 & _ & H6 & H7 & H8). unfold model_grid. repeat (split; [assumption|]). split; [|auto].
  split; [reflexivity | intros r [<-|[<-|[<-|[]]]]; reflexivity].
Qed.
Definition cove_water := water (entry 0 (ghz cove)) (entry 0%Z (gmz cove)) false 3 Meridional.
Lemma cove_depth j : (j < 3)%nat -> cove_water j 2 = Some 200.
Proof. intros Hj. unfold cove_water, water, cove. cbn [ghz gmz]. destruct j as [|[|[|j]]]; [| | |lia]; unfold entry, south; cbn [nth pred]; (destruct (Rlt_dec 0 200); [|lra]); f_equal; lra. Qed.
Lemma cove_land j i : (j < 3)%nat -> (i < 2)%nat -> cove_water j i = None.
Proof.
  intros Hj Hi. assert (Z0 : entry 0 (ghz cove) j i = 0) by (unfold entry, cove; cbn [ghz]; destruct j as [|[|[|j]]]; try lia; destruct i as [|[|i]]; try lia; reflexivity).
  unfold cove_water, water. rewrite Z0. destruct (Rlt_dec 0 0); [lra | reflexivity].
Qed.
(** extraction: a point on the last meridian of the land gets the transport of the water *)
Lemma cove_extract : exists depths ph,
  extract_extrapolated (fun p => p) false (Quick Bilinear) Vv (Some (Some 100)) cove [bay_tide] [(10, 8)] = Ok (depths, [[Some (3, ph)]]).
Proof.
  assert (Cv : convention false 0 (0 + INR (3 - 1) * 10) (map (fun p : R * R => fst p) [(10, 8)]) 10 10) by now apply projected.
  assert (Nl : Quick Bilinear = Quick Bilinear -> forall p x, In p [(10, 8)] -> convention false 0 (0 + INR (3 - 1) * 10) (map (fun p : R * R => fst p) [(10, 8)]) (fst p) x -> x <> node_x Meridional 0 10 (last_column false 3)).
  { intros _ p x [<-|[]] C. inversion C; try discriminate. cbn [fst]. unfold node_x, last_column. cbn. lra. }
  destruct (C85_returns (fun p => p) false false (Quick Bilinear) Vv Meridional 0 10 3 0 10 3 cove [bay_tide] [(10, 8)] (Some (Some 100)) cove_grid eq_refl) as (ds & cols & E); [discriminate | discriminate | exact Nl |].
  destruct (C68_returns (fun p => p) false false Bilinear Vv Meridional 0 10 3 0 10 3 cove [bay_tide] [(10, 8)] cove_grid eq_refl) as (rows & Er & _); [discriminate | intros _; now apply Nl |].
  destruct (C68_cell_partial (fun p => p) false false Vv Meridional 0 10 3 0 10 3 cove [bay_tide] [(10, 8)] rows 0 (10, 8) 10 8 1 1 cove_grid eq_refl Er eq_refl Cv eq_refl) as (row & O1 & Lr & Or).
  { unfold reach. cbn [INR Nat.sub]. lra. } { unfold in_rows. cbn [snd INR Nat.sub]. lra. } { unfold columns. lia. } { unfold columns. lia. } { lia. }
  { unfold between_nodes, node_x, node_y. change (IZR (1 + 1)) with 2. cbn [INR]. lra. }
  { unfold at_node, ExtractSpec.close, node_x, node_y. intros [_ [A|A]]; revert A; cbn [INR]; [replace (8 - (0 + 1 * 10 - 10 / 2)) with 3 by lra | replace (8 - (0 + (1 + 1) * 10 - 10 / 2)) with (- (7)) by lra; rewrite Rabs_Ropp]; rewrite !Rabs_pos_eq by lra; lra. }
  { discriminate. }
  fold cove_water in O1, Or.
  assert (Co : forall V (f : nat -> nat -> option V), (forall j i, (j < 3)%nat -> (i < 2)%nat -> f j i = None) -> weight (corners Meridional 0 10 0 10 3 10 8 1 1 f) = 0).
  { intros V f Hf. unfold corners, weight. change (column 3 1) with 1%nat. change (column 3 (1 + 1)) with 2%nat. rewrite !(Hf _ 1%nat) by lia. unfold node_x, node_y. cbn. destruct (f 1%nat 2%nat), (f 2%nat 2%nat); cbn; lra. }
  assert (Md : mean (corners Meridional 0 10 0 10 3 10 8 1 1 cove_water) = None) by (apply mean_none, Co; exact cove_land). rewrite Md in O1, Or.
  destruct (Or 0%nat bay_tide eq_refl) as (v & Ov & Rv). cbn zeta in Rv.
  assert (Mz : mean (part fst (corners Meridional 0 10 0 10 3 10 8 1 1 (fun j i => tide (cove_water j i) (entry (None, true) bay_tide j i)))) = None).
  { apply mean_none. rewrite weight_part. apply Co. intros j i Hj Hi. now rewrite cove_land. }
  rewrite Mz in Rv. cbn [both returned] in Rv. subst v.
  destruct (C85_filled (fun p => p) false false (Quick Bilinear) Vv Meridional 0 10 3 0 10 3 cove [bay_tide] [(10, 8)] (Some 100) ds cols 0 (10, 8) 10 0 bay_tide) as (cols0 & cs0 & cs & D & r0 & r & F1 & F2 & F3 & F4 & F5 & F6 & F7 & F8 & F9 & _ & _ & Go); auto; [lra | exact cove_grid | discriminate|].
  destruct (C85_off _ _ _ _ _ _ _ _ Er) as (ds' & cols' & E' & (Sd & _ & St)). rewrite F1 in E'. apply Ok_inj in E'. injection E' as <- <-.
  destruct (St 0%nat _ _ O1) as [_ Sv]. destruct (Sv 0%nat None Ov) as (col & S1 & _ & S2). rewrite F5 in S1. injection S1 as <-. rewrite F6 in S2. injection S2 as ->.
  assert (HD : snd D = true). { rewrite Sd in F2. pose proof (map_nth_error fst 0 rows O1) as K. cbn [fst] in K. assert (K' : Some D = Some (@None R, true)) by (rewrite <- F2; exact K). injection K' as ->. reflexivity. }
  exists ds. rewrite E. assert (Er' : exists ph, r = Some (3, ph)).
  { destruct Go as [(j & i & [Cl _] & (v & a & ph & Ev & Ap & ->)) | [No _]]; [| reflexivity | |].
    - unfold off_grid, reach. cbn [fst snd INR Nat.sub]. lra.
    - destruct Cl as (Hj & Hi & Z0 & _). fold cove_water in Ev, Z0. assert (i = 2)%nat by (destruct i as [|[|[|i]]]; auto; try lia; exfalso; apply Z0; rewrite cove_land by lia; reflexivity). subst i.
      rewrite cove_depth, bay_tides in Ev by lia. cbn [tide] in Ev. destruct (Req_EM_T 3 0); [lra|]. injection Ev as <-.
      rewrite HD. exists ph. pose proof (abs_real 3 a ph Ap ltac:(lra)) as ->. reflexivity.
    - exfalso. apply No. exists 1%nat, 2%nat. split; [lia|]. split; [lia|]. fold cove_water. rewrite cove_depth, bay_tides by lia. cbn [tide]. destruct (Req_EM_T 3 0); [lra|]. split; [discriminate|].
      cbn [nearer_than apart]. unfold node_of, node_x, node_y. cbn [fst snd INR Z.of_nat]. apply Rsqr_incrst_0; [|apply sqrt_pos|lra]. match goal with |- context [sqrt ?e] => replace e with 109 by (cbn; lra) end. rewrite Rsqr_sqrt by lra. unfold Rsqr. lra. }
  destruct Er' as [ph ->]. exists ph. f_equal. f_equal. cbn [length] in F4, F8. destruct cols as [|c1 [|]]; try discriminate. cbn in F7. injection F7 as ->. destruct cs as [|v1 [|]]; try discriminate. cbn in F9. injection F9 as ->. reflexivity.
Qed.
(** reading first: nothing *)
Lemma cove_again : exists c depths, read_constants false Vv cove [bay_tide] = Ok c /\
  interpolate_extrapolated (fun p => p) false (Quick Bilinear) Vv (Some (Some 100)) c [(10, 8)] = Ok (depths, [[None]]).
Proof.
  destruct (C91_returns (fun p => p) false false (Quick Bilinear) Vv Meridional 0 10 3 0 10 3 cove [bay_tide] [(10, 8)] (Some (Some 100)) cove_grid eq_refl) as (c & ds & cols & Hc & E & Ld & Lc); [discriminate | discriminate | |].
  { intros _ p x [<-|[]] C. inversion C; try discriminate. cbn [fst]. unfold node_x, last_column. cbn. lra. }
  destruct (read_state _ _ _ _ _ _ _ _ _ _ _ _ _ cove_grid (eq_refl : kind_of Vv = Some Meridional) Hc) as (Hxi & Hyi & A1 & A2 & Rb & _ & _ & Nb & _ & _). cbn [ncols] in *.
  assert (Lx : length (cx c) = 3%nat) by apply Hxi. assert (Ly : length (cy c) = 3%nat) by apply Hyi.
  assert (HD : depth_again (Quick Bilinear) (cx c) (cy c) (cbath c) (10, 8) = Ok (None, false)).
  { cbn [depth_again interpolate_depth]. unfold rbilinear.
    assert (X : forall i, (i < 3)%nat -> nth i (cx c) 0 = 0 + INR i * 10) by (intros i Hi; destruct Hxi as (_ & _ & X); rewrite X by auto; unfold node_x; lra).
    assert (Y : forall i, (i < 3)%nat -> nth i (cy c) 0 = INR i * 10 - 5) by (intros i Hi; destruct Hyi as (_ & _ & Y); rewrite Y by auto; unfold node_y; cbn [INR]; lra).
    rewrite (gpoint_eq 0 Rplus Rmult (cx c) (cy c) (cbath c) 10 8 1 1 A1 A2); [| rewrite Lx, Ly; exact Rb | unfold in_cell; rewrite Lx, Ly, !X, !Y by lia; cbn [INR]; repeat split; try lia; lra].
    rewrite !X, !Y by lia. cbn [INR].
    assert (Fc : forall y, Rabs (8 - y) > 1 -> 0 <= y <= 20 -> isclose 8 y = false) by (intros y Hy Hb; apply isclose_f; unfold InterpProps.close; rewrite (Rabs_pos_eq y) by lra; lra).
    rewrite (Fc (1 * 10 - 5)), (Fc ((1 + 1) * 10 - 5)) by (try lra; unfold Rabs; destruct (Rcase_abs _); lra). cbn [andb].
    assert (W : forall j, (j < 3)%nat -> entry ((None : option R), true) (cbath c) j 2 = (Some 200, false)).
    { intros j Hj. specialize (Nb j 2%nat Hj ltac:(lia) ltac:(exact I || (unfold sound_column; auto))). fold cove_water in Nb. change (col false 3 2) with 2%nat in Nb. rewrite cove_depth in Nb by auto. apply Nb. }
    assert (L : forall j, (j < 3)%nat -> exists v, entry ((None : option R), true) (cbath c) j 1 = (v, true)).
    { intros j Hj. specialize (Nb j 1%nat Hj ltac:(lia) ltac:(exact I || (unfold sound_column; auto))). fold cove_water in Nb. change (col false 3 1) with 1%nat in Nb. rewrite cove_land in Nb by lia. destruct Nb as [Nb _].
      revert Nb. generalize (entry ((None : option R), true) (cbath c) j 1). intros [v m] Nb. cbn [snd] in Nb. exists v. now rewrite Nb. }
    rewrite !W by lia. destruct (L 1%nat) as [v1 ->]; [lia|]. destruct (L 2%nat) as [v2 ->]; [lia|].
    unfold gweighted, gusable. cbn [existsb filter map fst snd negb orb fold_right].
    destruct v1, v2; cbn [existsb filter map fst snd negb orb fold_right]; rewrite req_t by lra; reflexivity. }
  assert (Hds : nth_error ds 0 = Some (None, false)).
  { unfold interpolate_extrapolated in E. rewrite (axis_min _ A1), (axis_max _ A1) in E. cbn [bind batch map] in E.
    match type of E with bind ?m _ = _ => destruct m; [|discriminate]; cbn [bind] in E end. cbn [mapM] in E. rewrite HD in E. cbn [bind] in E.
    match type of E with bind ?m _ = _ => destruct m; [|discriminate]; cbn [bind] in E end. apply Ok_inj in E. injection E as <- _. reflexivity. }
  exists c, ds. split; [exact Hc|]. rewrite E. f_equal. f_equal. destruct cols as [|cs [|]]; try discriminate Lc. f_equal.
  destruct (C91_filled (fun p => p) false false (Quick Bilinear) Vv Meridional 0 10 3 0 10 3 cove [bay_tide] [(10, 8)] (Some 100) c ds [cs] 0 (10, 8) 10 0 bay_tide) as (cols0 & cs0 & cs' & D & r0 & r & F1 & F2 & F3 & F4 & F5 & F6 & F7 & F8 & F9 & _); auto; [lra | exact cove_grid | discriminate | now apply projected |].
  injection F7 as <-. pose proof (C91_nan _ _ _ _ _ _ _ _ _ 0%nat cs 0%nat r (eq_refl : velocity Vv = true) E Hds eq_refl F9) as ->.
  destruct cs as [|v [|]]; try discriminate F8. injection F9 as ->. reflexivity.
Qed.
(** ** Bilinear velocities next to land are lost if the constituents were read first: on
    the meridian where the land ends extraction gives the transport of the water *)
Theorem C91_edge_refuted : exists fwd g hcs lonlat cutoff c depths depths' a ph,
  model_grid false false 0 10 3 0 10 3 g hcs /\ read_constants false Vv g hcs = Ok c /\
  extract_extrapolated fwd false (Quick Bilinear) Vv (Some cutoff) g hcs lonlat = Ok (depths, [[Some (a, ph)]]) /\ a = 3 /\
  interpolate_extrapolated fwd false (Quick Bilinear) Vv (Some cutoff) c lonlat = Ok (depths', [[None]]).
Proof.
  destruct cove_extract as (ds & ph & E). destruct cove_again as (c & ds' & Hc & E'). exists (fun p => p), cove, [bay_tide], [(10, 8)], (Some 100), c, ds, ds', 3, ph.
  split; [exact cove_grid|]. auto.
Qed.
Print Assumptions C91_edge_refuted.

(** ** Cases *)
(** the hypotheses of C91_read_inside hold for the bay *)
Example C91_read_case : forall me, me <> Unknown -> exists c depths depths' cols,
  read_constants false VV bay [bay_tide] = Ok c /\
  extract_extrapolated (fun p => p) false (Regular me) VV (Some (Some 100)) bay [bay_tide] [(15, 8); (5, 8)] = Ok (depths, cols) /\
  interpolate_extrapolated (fun p => p) false (Regular me) VV (Some (Some 100)) c [(15, 8); (5, 8)] = Ok (depths', cols).
Proof.
  intros me Nm.
  destruct (C85_returns (fun p => p) false false (Regular me) VV Meridional 0 10 3 0 10 3 bay [bay_tide] [(15, 8); (5, 8)] (Some (Some 100)) bay_grid eq_refl) as (ds & cols & E); [discriminate | congruence | discriminate |].
  destruct (C91_returns (fun p => p) false false (Regular me) VV Meridional 0 10 3 0 10 3 bay [bay_tide] [(15, 8); (5, 8)] (Some (Some 100)) bay_grid eq_refl) as (c & ds' & cols' & Hc & E' & _); [discriminate | congruence | discriminate |].
  destruct (C91_read_inside (fun p => p) false false (Regular me) VV Meridional 0 10 3 0 10 3 bay [bay_tide] [(15, 8); (5, 8)] (Some (Some 100)) c ds cols ds' cols' bay_grid eq_refl) as [_ ->]; auto; try discriminate; [| |eauto 10].
  - intros p [<-|[<-|[]]]; unfold in_span, in_rows, node_x, node_y, last_column; cbn [fst snd]; change (IZR (Z.of_nat 3 - 1)) with 2; cbn [INR Nat.sub]; repeat split; lra.
  - intros me' _ hc [<-|[]] j i Hj Hi. rewrite bay_tides by auto. split; [discriminate|]. intros _. split; [reflexivity|]. intros K. injection K as K. lra.
Qed.
(** a point on land with extrapolation after reading *)
Example C91_filled_case : exists c depths a ph, read_constants false VV bay [bay_calm] = Ok c /\
  interpolate_extrapolated (fun p => p) false (Regular Linear) VV (Some (Some 100)) c [(15, 8)] = Ok (depths, [[Some (a, ph)]]) /\ a = 100000000000000000000.
Proof. exact calm_again. Qed.
(** a velocity is lost *)
Example C91_nan_case : exists c depths, read_constants false Vv cove [bay_tide] = Ok c /\
  interpolate_extrapolated (fun p => p) false (Quick Bilinear) Vv (Some (Some 100)) c [(10, 8)] = Ok (depths, [[None]]).
Proof. exact cove_again. Qed.
