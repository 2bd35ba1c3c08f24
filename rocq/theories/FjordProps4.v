(** C91: that interpolation with extrapolation returns, cases and where it differs from
    extraction. *)
From Coq Require Import Reals List Bool Arith ZArith Lra Lia.
From Verif Require Import PyBase RBase MathModel GeoModel ConvertProps GridModel InterpModel InterpProps ExtrapProps ExtractModel ExtractSpec NodeProps ExtractProofs ExtractProps SplineProps ReadProps ReturnProps SeriesModel SeriesProps3 RegularModel RegularSpec RegularProofs RegularProps2 RegularProps4 RegularProps5 RegularProps6 CropModel ShoreModel ShoreSpec ShoreProofs CoastModel CoastSpec CoastProofs CoastProps CoastProps2 CoastProps3 FjordModel FjordSpec FjordProofs FjordProps FjordProps2 FjordProps3.
Import ListNotations.
Open Scope R_scope.

Lemma readied_rect w ny nx f : rect ny nx f -> rect ny nx (readied w f).
Proof. intros Rf. destruct w as [[|]|me]; cbn [readied]; auto; now apply map_rect. Qed.
Lemma depth_total w (around : bool) k x0 dx nx xi yi b q : axis xi -> axis yi -> rect (length yi) (length xi) b -> w <> Regular Unknown ->
  evenly (node_x k (if around then x0 - dx else x0) dx 0) dx (ncols around nx) xi -> (2 <= nx)%nat ->
  (w = Quick Bilinear -> fst q <> node_x k x0 dx (last_column around nx)) -> exists D, depth_again w xi yi b q = Ok D.
Proof.
  intros A1 A2 Rb Nw Hxi Hx Hl. destruct q as [lon lat]. destruct w as [[|]|me]; cbn [depth_again interpolate_depth].
  - apply bilinear_total; auto. rewrite (eastern_nth around k x0 dx nx) by auto. now apply Hl.
  - now apply spline_total.
  - apply regular_total; auto. congruence.
Qed.
Lemma constant_total w (around : bool) k x0 dx nx xi yi f q : axis xi -> axis yi -> rect (length yi) (length xi) f -> w <> Regular Unknown ->
  evenly (node_x k (if around then x0 - dx else x0) dx 0) dx (ncols around nx) xi -> (2 <= nx)%nat ->
  (w = Quick Bilinear -> fst q <> node_x k x0 dx (last_column around nx)) -> exists h, constant_of w xi yi (readied w f) q = Ok h.
Proof.
  intros A1 A2 Rf Nw Hxi Hx Hl. apply (readied_rect w) in Rf. destruct q as [lon lat]. destruct w as [[|]|me]; cbn [constant_of].
  - apply bilinear_total; auto. rewrite (eastern_nth around k x0 dx nx) by auto. now apply Hl.
  - now apply spline_total.
  - apply regular_total; auto. congruence.
Qed.

(** ** C91: there is a result for any points, bilinearly unless a point is exactly on the
    last column of the nodes *)
Theorem C91_returns : forall fwd geo around w t k x0 dx nx y0 dy ny g hcs lonlat ex,
  model_grid geo around x0 dx nx y0 dy ny g hcs -> kind_of t = Some k -> lonlat <> [] -> w <> Regular Unknown ->
  (w = Quick Bilinear -> forall p x, In p lonlat ->
    convention geo (node_x k x0 dx (first_column around)) (node_x k x0 dx (last_column around nx)) (map (fun p => fst (fwd p)) lonlat) (fst (fwd p)) x ->
    x <> node_x k x0 dx (last_column around nx)) ->
  exists c depths cols, read_constants geo t g hcs = Ok c /\ interpolate_extrapolated fwd geo w t ex c lonlat = Ok (depths, cols) /\
    length depths = length lonlat /\ length cols = length hcs.
Proof.
  intros fwd geo around w t k x0 dx nx y0 dy ny g hcs lonlat ex M Hk Hne Nw Hl.
  destruct (read_total _ _ _ _ _ _ _ _ _ _ _ _ M Hk) as (xi & yi & b & fs & Er & Hxi & Hyi & Rb & Nb & Ef). exists (Cons xi yi b fs).
  destruct (read_state _ _ _ _ _ _ _ _ _ _ _ _ _ M Hk Er) as (_ & _ & A1 & A2 & _ & _ & _ & _ & Lf & _). pose proof (field_of _ _ _ _ _ _ _ _ _ _ _ _ _ M Hk Er) as Fo. cbn [cx cy cbath cfields] in *.
  destruct M as (_ & _ & Hx & Hy & _ & _ & _ & _). assert (N2 : (2 <= ncols around nx)%nat) by (unfold ncols; destruct around; lia).
  assert (Lx : length xi = ncols around nx) by apply Hxi. assert (Ly : length yi = ny) by apply Hyi.
  unfold interpolate_extrapolated. cbn [cx cy cbath cfields]. destruct (evenly_ends _ _ _ _ Hxi N2) as [E1 E2]. rewrite E1, E2. cbn [bind].
  destruct (node_ends around k x0 dx nx Hx) as [F1 F2]. rewrite <- F2, <- F1.
  destruct (batch_total geo (node_x k x0 dx (first_column around)) (node_x k x0 dx (last_column around nx)) (map fwd lonlat)) as (pts & Eb & Hpts); [destruct lonlat; [congruence|discriminate]|].
  rewrite Eb. cbn [bind]. rewrite map_map in Hpts. pose proof (batch_len _ _ _ _ _ Eb) as Lb. rewrite map_length in Lb.
  assert (Hl' : forall q, In q pts -> w = Quick Bilinear -> fst q <> node_x k x0 dx (last_column around nx)).
  { intros q Hq Hw. destruct (Hpts q Hq) as (q' & Hq' & C & _). apply in_map_iff in Hq' as (p & <- & Hin). now apply (Hl Hw p). }
  destruct (mapM_total (outside_axes xi yi) pts) as (invs & Ei); [intros; now apply outside_total|]. rewrite Ei. cbn [bind].
  destruct (mapM_total (depth_again w xi yi b) pts) as (ds & Ed).
  { intros q Hq. eapply depth_total; eauto. rewrite Lx, Ly. exact Rb. }
  rewrite Ed. cbn [bind].
  destruct (mapM_total (fun hc => values_again geo w t ex xi yi hc (combine pts (combine invs ds))) fs) as (cols & Ec).
  { intros f If. destruct (Fo f If) as [Rf _]. unfold values_again.
    match goal with |- exists _, bind (mapM ?g ?l) _ = _ => destruct (mapM_total g l) as (hs & Eh) end.
    - intros [q r] Hin. apply in_combine_l in Hin. cbn [fst snd]. destruct (constant_total w around k x0 dx nx xi yi f q) as (h & Eh); auto; [rewrite Lx, Ly; exact Rf|]. rewrite Eh. cbn [bind]. eauto.
    - rewrite Eh. cbn [bind]. rewrite (not_other t k) by auto. eauto. }
  rewrite Ec. cbn [bind]. exists ds, cols. split; [exact Er|]. split; [reflexivity|]. split; [rewrite (mapM_len _ _ _ Ed); exact Lb | rewrite (mapM_len _ _ _ Ec); exact Lf].
Qed.
Print Assumptions C91_returns.

(** ** The bay read first: for the bilinear method a point on land gets the constant of the
    water *)
Lemma regular_again_total fwd around me t k x0 dx nx y0 dy ny g hcs lonlat c : model_grid false around x0 dx nx y0 dy ny g hcs -> kind_of t = Some k -> lonlat <> [] -> me <> Unknown ->
  read_constants false t g hcs = Ok c -> exists rows, interpolate_otis_regular fwd false me t c lonlat = Ok rows.
Proof.
  intros M Hk Hne Nm Hc. destruct (read_state _ _ _ _ _ _ _ _ _ _ _ _ _ M Hk Hc) as (Hxi & Hyi & A1 & A2 & Rb & _ & _ & _ & _ & _). pose proof (field_of _ _ _ _ _ _ _ _ _ _ _ _ _ M Hk Hc) as Fo.
  destruct M as (_ & _ & Hx & Hy & _ & _ & _ & _). assert (Lx : length (cx c) = ncols around nx) by apply Hxi. assert (Ly : length (cy c) = ny) by apply Hyi.
  unfold interpolate_otis_regular. rewrite (axis_min _ A1), (axis_max _ A1). cbn [bind].
  match goal with |- context [batch false ?l ?h ?p] => destruct (batch_total false l h p) as (pts & Eb & _); [destruct lonlat; [congruence|discriminate]|] end. rewrite Eb. cbn [bind].
  destruct (mapM_total (outside_axes (cx c) (cy c)) pts) as (invs & ->); [intros; now apply outside_total|]. cbn [bind].
  destruct (mapM_total (rregular me (cx c) (cy c) (cbath c)) pts) as (ds & ->); [intros q _; apply regular_total; auto; rewrite Lx, Ly; exact Rb|]. cbn [bind].
  rewrite (not_other t k) by auto. apply points_total. intros q i D Hin. apply mapM_total. intros f If. destruct (Fo f If) as [Rf _].
  unfold constant_regular, cregular. destruct (regular_total (0, 0) cadd cscale me (cx c) (cy c) (map (map fill_zero) f) q) as (h & Eh'); auto; [rewrite Lx, Ly; now apply map_rect|].
  match goal with |- exists _, bind ?lhs _ = _ => replace lhs with (Ok h) by (symmetry; exact Eh') end. cbn [bind]. eauto.
Qed.

(** ** The bay without tides: all the constants are zero *)
Definition bay_calm : field := repeat (repeat (Some (0, 0), false) 3) 3.
Lemma calm_grid : model_grid false false 0 10 3 0 10 3 bay [bay_calm].
Proof.
  destruct bay_grid as (H1 & H2 & H3 & H4 & H5 & H6 & _ & H7). unfold model_grid. repeat (split; [assumption|]). split; [|exact H7].
  intros hc [<-|[]]. split; [reflexivity | intros r [<-|[<-|[<-|[]]]]; reflexivity].
Qed.
Lemma calm_entry j i : (j < 3)%nat -> (i < 3)%nat -> entry (None, true) bay_calm j i = (Some (0, 0), false).
Proof. intros Hj Hi. destruct j as [|[|[|j]]]; [| | |lia]; destruct i as [|[|[|i]]]; try lia; reflexivity. Qed.
Lemma calm_numbers : forall hc, In hc [bay_calm] -> forall j i, (j < 3)%nat -> (i < 3)%nat -> fst (entry (None, true) hc j i) <> None.
Proof. intros hc [<-|[]] j i Hj Hi. rewrite calm_entry by auto. discriminate. Qed.
Lemma bay_incomplete : ~ complete (corners Meridional 0 10 0 10 3 15 8 1 1 bay_water).
Proof.
  intros C. unfold corners in C. change (column 3 1) with 1%nat in C.
  refine (C _ (or_introl eq_refl) _ _); cbn [fst snd]; [unfold node_x, node_y; change (IZR (1 + 1)) with 2; cbn [INR]; lra | apply bay_land; lia].
Qed.
Lemma bay_brackets : bracket (1 + 1 = last_column false 3)%Z (node_x Meridional 0 10 1) (node_x Meridional 0 10 (1 + 1)) 15 /\ bracket (3 = 3)%nat (node_y Meridional 0 10 1) (node_y Meridional 0 10 2) 8.
Proof. split; left; unfold node_x, node_y; change (IZR (1 + 1)) with 2; cbn [INR]; lra. Qed.
Lemma calm_extract : exists depths,
  extract_extrapolated (fun p => p) false (Regular Linear) VV (Some (Some 100)) bay [bay_calm] [(15, 8)] = Ok (depths, [[None]]).
Proof.
  assert (Cv : convention false 0 (0 + INR (3 - 1) * 10) (map (fun p : R * R => fst p) [(15, 8)]) 15 15) by now apply projected.
  destruct (C85_returns (fun p => p) false false (Regular Linear) VV Meridional 0 10 3 0 10 3 bay [bay_calm] [(15, 8)] (Some (Some 100)) calm_grid eq_refl) as (ds & cols & E); [discriminate | discriminate | discriminate |].
  destruct (C82_otis_returns (fun p => p) false false Linear VV Meridional 0 10 3 0 10 3 bay [bay_calm] [(15, 8)] calm_grid eq_refl) as (rows & Er & _); [discriminate | discriminate |].
  destruct (C82_otis_linear (fun p => p) false false VV Meridional 0 10 3 0 10 3 bay [bay_calm] [(15, 8)] rows 0 (15, 8) 15 8 1 1 calm_grid eq_refl calm_numbers Er eq_refl Cv eq_refl) as (D0 & row & O1 & Lr & _ & _ & Or); try apply bay_brackets.
  { unfold reach. cbn [INR Nat.sub]. lra. } { unfold in_rows. cbn [snd INR Nat.sub]. lra. } { unfold columns. lia. } { unfold columns. lia. } { lia. } { discriminate. }
  destruct (Or 0%nat bay_calm eq_refl) as (v & Ov & _ & _ & Nv). fold bay_water in Nv. specialize (Nv bay_incomplete). subst v.
  destruct (C85_filled (fun p => p) false false (Regular Linear) VV Meridional 0 10 3 0 10 3 bay [bay_calm] [(15, 8)] (Some 100) ds cols 0 (15, 8) 15 0 bay_calm) as (cols0 & cs0 & cs & D & r0 & r & F1 & F2 & F3 & F4 & F5 & F6 & F7 & F8 & F9 & _ & _ & Go); auto; [lra | exact calm_grid | discriminate | right; apply calm_numbers; now left |].
  destruct (C85_off_regular _ _ _ _ _ _ _ _ Er) as (ds' & cols' & E' & (Sd & _ & St)). rewrite F1 in E'. apply Ok_inj in E'. injection E' as <- <-.
  destruct (St 0%nat _ _ O1) as [_ Sv]. destruct (Sv 0%nat None Ov) as (col & S1 & _ & S2). rewrite F5 in S1. injection S1 as <-. rewrite F6 in S2. injection S2 as ->.
  exists ds. rewrite E. assert (Er' : r = None).
  { destruct Go as [(j & i & [Cl _] & _) | [_ ->]]; auto.
    - unfold off_grid, reach. cbn [fst snd INR Nat.sub]. lra.
    - destruct Cl as (Hj & Hi & Z0 & _). exfalso. apply Z0. rewrite calm_entry by auto. cbn [tide]. unfold tide. destruct (water _ _ _ _ _ _ _); [|reflexivity]. cbn [fst snd]. destruct (Req_EM_T 0 0); [reflexivity|lra]. }
  subst r. f_equal. f_equal. cbn [length] in F4, F8. destruct cols as [|c1 [|]]; try discriminate. cbn in F7. injection F7 as ->. destruct cs as [|v1 [|]]; try discriminate. cbn in F9. injection F9 as ->. reflexivity.
Qed.
Lemma calm_again : exists c depths a ph, read_constants false VV bay [bay_calm] = Ok c /\
  interpolate_extrapolated (fun p => p) false (Regular Linear) VV (Some (Some 100)) c [(15, 8)] = Ok (depths, [[Some (a, ph)]]) /\ a = 100000000000000000000.
Proof.
  assert (Cv : convention false (node_x Meridional 0 10 (first_column false)) (node_x Meridional 0 10 (last_column false 3)) (map (fun p : R * R => fst p) [(15, 8)]) 15 15) by now apply projected.
  destruct (C91_returns (fun p => p) false false (Regular Linear) VV Meridional 0 10 3 0 10 3 bay [bay_calm] [(15, 8)] (Some (Some 100)) calm_grid eq_refl) as (c & ds & cols & Hc & E & _); [discriminate | discriminate | discriminate |].
  destruct (regular_again_total (fun p => p) false Linear VV Meridional 0 10 3 0 10 3 bay [bay_calm] [(15, 8)] c calm_grid eq_refl) as (rows & Er); [discriminate | discriminate | exact Hc |].
  destruct (C82_otis_again_linear (fun p => p) false false VV Meridional 0 10 3 0 10 3 bay [bay_calm] [(15, 8)] c rows 0 (15, 8) 15 8 1 1 calm_grid eq_refl ltac:(discriminate) calm_numbers Hc Er eq_refl Cv eq_refl) as (D0 & row & O1 & Lr & _ & _ & Or); try apply bay_brackets.
  { unfold columns. lia. } { unfold columns. lia. } { lia. }
  destruct (Or 0%nat bay_calm eq_refl) as (v & Ov & _ & Nv). fold bay_water in Nv. specialize (Nv bay_incomplete). subst v. clear Or.
  destruct (C91_filled (fun p => p) false false (Regular Linear) VV Meridional 0 10 3 0 10 3 bay [bay_calm] [(15, 8)] (Some 100) c ds cols 0 (15, 8) 15 0 bay_calm) as (cols0 & cs0 & cs & D & r0 & r & F1 & F2 & F3 & F4 & F5 & F6 & F7 & F8 & F9 & _ & _ & Go); auto; [lra | exact calm_grid | discriminate | right; apply calm_numbers; now left |].
  destruct (C91_off_regular _ _ _ _ _ _ _ _ _ _ _ _ _ _ _ _ _ calm_grid (eq_refl : kind_of VV = Some Meridional) Hc Er) as (ds' & cols' & E' & (Sd & _ & St)). rewrite F1 in E'. apply Ok_inj in E'. injection E' as <- <-.
  destruct (St 0%nat _ _ O1) as [_ Sv]. destruct (Sv 0%nat None Ov) as (col & S1 & _ & S2). rewrite F5 in S1. injection S1 as <-. rewrite F6 in S2. injection S2 as ->.
  assert (Off : forall j, (j < 3)%nat -> offered true (bay_water j 0) (entry (None, true) bay_calm j 0) = Some (100000000000000000000, 0)).
  { intros j Hj. rewrite bay_depth, calm_entry by lia. unfold offered, tide. cbn [fst snd]. destruct (Req_EM_T 0 0); [reflexivity|lra]. }
  assert (Er' : exists a ph, r = Some (a, ph) /\ a = 100000000000000000000).
  { destruct Go as [(j & i & [Cl _] & (v & a & ph & Ev & Ap & ->)) | [No _]]; [| reflexivity | |].
    - unfold off_nodes, node_x, node_y, first_column, last_column. cbn [fst snd]. intros [N|N]; apply N; [change (IZR (Z.of_nat 3 - 1)) with 2|]; cbn [INR Nat.sub]; lra.
    - destruct Cl as (Hj & Hi & Z0 & _). fold bay_water in Ev, Z0. assert (i = 0)%nat by (destruct i as [|i]; auto; exfalso; apply Z0; rewrite bay_land by lia; reflexivity). subst i.
      rewrite Off in Ev by lia. injection Ev as <-. exists a, ph. split; [reflexivity|]. apply (abs_real _ a ph Ap). lra.
    - exfalso. apply No. exists 1%nat, 0%nat. split; [lia|]. split; [lia|]. fold bay_water. rewrite Off by lia. split; [discriminate|].
      cbn [nearer_than apart]. unfold node_of, node_x, node_y. cbn [fst snd INR Z.of_nat]. apply Rsqr_incrst_0; [|apply sqrt_pos|lra]. rewrite Rsqr_sqrt by nra. unfold Rsqr. cbn. lra. }
  destruct Er' as (a & ph & -> & Ea). exists c, ds, a, ph. split; [exact Hc|]. split; [|exact Ea]. rewrite E. f_equal. f_equal. cbn [length] in F4, F8.
  destruct cols as [|c1 [|]]; try discriminate. cbn in F7. injection F7 as ->. destruct cs as [|v1 [|]]; try discriminate. cbn in F9. injection F9 as ->. reflexivity.
Qed.
(** ** Zero constants are extrapolated as 1e20 if the constituents were read first: without
    tides a point on land gets the amplitude 1e20, and nothing from extraction *)
Theorem C91_zero_refuted : exists fwd g hcs lonlat cutoff c depths depths' a ph,
  model_grid false false 0 10 3 0 10 3 g hcs /\
  (forall hc, In hc hcs -> forall j i, (j < 3)%nat -> (i < 3)%nat -> entry (None, true) hc j i = (Some (0, 0), false)) /\
  read_constants false VV g hcs = Ok c /\
  extract_extrapolated fwd false (Regular Linear) VV (Some cutoff) g hcs lonlat = Ok (depths, [[None]]) /\
  interpolate_extrapolated fwd false (Regular Linear) VV (Some cutoff) c lonlat = Ok (depths', [[Some (a, ph)]]) /\
  a = 100000000000000000000.
Proof.
  destruct calm_extract as [ds E]. destruct calm_again as (c & ds' & a & ph & Hc & E' & Ea). exists (fun p => p), bay, [bay_calm], [(15, 8)], (Some 100), c, ds, ds', a, ph.
  split; [exact calm_grid|]. split; [|auto]. intros hc [<-|[]] j i. apply calm_entry.
Qed.
Print Assumptions C91_zero_refuted.
