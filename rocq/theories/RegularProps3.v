(** C82: constants of ATLAS netCDF models with the methods linear and nearest. *)
From Coq Require Import Reals List Bool Arith ZArith Lra Lia.
From Verif Require Import PyBase RBase MathModel GeoModel ConvertProps GridModel InterpModel InterpProps ExtractModel ExtractSpec NodeProps ExtractProofs ExtractProps SplineProps ReturnProps MergeSpec MergeProps SeriesModel SeriesSpec SeriesProofs SeriesProps SeriesProps2 SeriesProps3 StretchProofs AtlasNcModel AtlasNcSpec AtlasNcProps AtlasNcProps2 AtlasNcProps3 RegularModel RegularSpec RegularProofs RegularProps RegularProps2.
From Verif Require MaskModel.
Import ListNotations.
Open Scope R_scope.

(** everything extraction computes for a point *)
Lemma regular_atlas_inv me t sc fr g nd files pts out c f pa n p around x0 dx nx y0 dy ny :
  nodes_for g t nd -> fny g = ny -> nodes_grid around x0 dx nx y0 dy ny nd -> framed fr (nlon nd) ->
  extract_atlas_regular me t sc g files pts = Ok out ->
  nth_error files c = Some f -> parts_for f t (Some pa) -> file_grid nx ny f pa -> nth_error pts n = Some p ->
  exists xi b hc inv D cs r,
    evenly (x0 - INR (bef around) * dx) dx (bef around + nx + aft FES around) xi /\ rect ny (bef around + nx + aft FES around) b /\ rect ny (bef around + nx + aft FES around) hc /\
    (forall j i, (j < ny)%nat -> within (bef around) (aft FES around) nx i -> entry (None, true) b j (ec (bef around) i) = depth_at (entry 0 (ndepth nd) (column nx i) j)) /\
    (forall j i, (j < ny)%nat -> within (bef around) (aft FES around) nx i -> entry (None, true) hc j (ec (bef around) i) = (number_of pa j (column nx i), snd (entry (None, true) b j (ec (bef around) i)))) /\
    outside_axes xi (nlat nd) (placed fr (fst p), snd p) = Ok inv /\ rregular me xi (nlat nd) b (placed fr (fst p), snd p) = Ok D /\
    atlas_regular me sc xi (nlat nd) t (placed fr (fst p), snd p) D inv hc = Ok r /\
    nth_error (adepth out) n = Some D /\ length (adepth out) = length pts /\ nth_error (anames out) c = Some (read_name f) /\
    nth_error (aconst out) c = Some cs /\ length cs = length pts /\ nth_error cs n = Some r.
Proof.
  intros Hn Hny G Fr H Hc Hpa Hf Hp. destruct (atlas_setup t g nd around x0 dx nx y0 dy ny Hn Hny G) as (xi & b & Exi & Eb & Hxi & Rb & Nb).
  pose proof G as (Gx & Gy & Nx & Ny & Rd & Ga). unfold extract_atlas_regular, read_netcdf_grid in H. rewrite (nodes_for_eq t g nd Hn) in H. cbn [bind] in H.
  destruct (amin (map fst pts)); [|discriminate]. cbn [bind] in H. rewrite (evenly_spacing x0 dx nx) in H by auto. cbn [bind] in H.
  destruct (adjust (nlon nd) pts) as [pts'|] eqn:Ea; [|discriminate]. cbn [bind] in H. rewrite (around_nodes _ _ _ _ _ _ _ _ G) in H. rewrite Exi, Eb in H. cbn [bind] in H.
  destruct (mapM (outside_axes xi (nlat nd)) pts') as [inv|] eqn:Ei; [|discriminate]. cbn [bind] in H.
  destruct (mapM (rregular me xi (nlat nd) b) pts') as [ds|] eqn:Ed; [|discriminate]. cbn [bind] in H.
  match type of H with bind ?m _ = _ => destruct m as [o|] eqn:Eo; [|discriminate] end. cbn [bind] in H. apply Ok_inj in H as <-. cbn [adepth anames aconst].
  apply (adjust_placed fr) in Ea; auto. subst pts'.
  assert (Hq : nth_error (map (fun p => (placed fr (fst p), snd p)) pts) n = Some (placed fr (fst p), snd p)) by now apply (map_nth_error (fun p => (placed fr (fst p), snd p))).
  destruct (mapM_nth _ _ _ _ _ Ei Hq) as (iv & E1 & N1). destruct (mapM_nth _ _ _ _ _ Ed Hq) as (D & E2 & N2).
  destruct (mapM_nth _ _ _ _ _ Eo Hc) as (oc & E3 & N3). destruct (atlas_file t f pa around nx ny b Hpa Hf Nx Rb) as (r & e & hc & Er & Ee & Eh & Rh & Nh).
  rewrite Er in E3. cbn [bind fst snd] in E3. rewrite Ee in E3. cbn [bind] in E3. rewrite Eh in E3. cbn [bind] in E3.
  match type of E3 with bind ?m _ = _ => destruct m as [cs|] eqn:Ec; [|discriminate] end. cbn [bind] in E3. apply Ok_inj in E3 as <-.
  assert (L1 := mapM_len _ _ _ Ei). assert (L2 := mapM_len _ _ _ Ed). rewrite map_length in L1, L2.
  assert (Hz : nth_error (combine (map (fun p => (placed fr (fst p), snd p)) pts) (combine inv ds)) n = Some ((placed fr (fst p), snd p), (iv, D))).
  { clear - Hq N1 N2. revert n inv ds Hq N1 N2. induction (map (fun p => (placed fr (fst p), snd p)) pts) as [|q l IH]; intros n inv ds Hq N1 N2; [destruct n; discriminate|].
    destruct inv as [|i inv]; [destruct n; discriminate|]. destruct ds as [|d ds]; [destruct n; discriminate|]. destruct n as [|n]; cbn in *; [congruence|auto]. }
  destruct (mapM_nth _ _ _ _ _ Ec Hz) as (rr & E4 & N4). cbn beta iota in E4.
  exists xi, b, hc, iv, D, cs, rr. repeat (split; [assumption|]). split; [now rewrite (map_nth_error snd c o N3)|]. split; [now rewrite (map_nth_error fst c o N3)|]. split; auto.
  rewrite (mapM_len _ _ _ Ec). rewrite !combine_length, map_length. rewrite L1, L2. lia.
Qed.


(** ** C82: within a cell, method linear *)
Theorem C82_atlas_linear : forall t sc fr g nd files pts out c f pa n p around x0 dx nx y0 dy ny x y i j,
  nodes_for g t nd -> fny g = ny -> nodes_grid around x0 dx nx y0 dy ny nd -> framed fr (nlon nd) ->
  extract_atlas_regular Linear t sc g files pts = Ok out ->
  nth_error files c = Some f -> parts_for f t (Some pa) -> file_grid nx ny f pa ->
  (forall j i, (j < ny)%nat -> (i < nx)%nat -> number_of pa j i <> None) ->
  nth_error pts n = Some p -> placed fr (fst p) = x -> snd p = y ->
  reached 1 around nx i -> reached 1 around nx (i + 1) -> (S j < ny)%nat ->
  bracket (i + 1 = last_of 1 around nx)%Z (node_x Heights x0 dx i) (node_x Heights x0 dx (i + 1)) x ->
  bracket (S (S j) = ny) (node_y Heights y0 dy j) (node_y Heights y0 dy (S j)) y ->
  let z := corners Heights x0 dx y0 dy nx x y i j (constant_of nd pa) in
  let d := corners Heights x0 dx y0 dy nx x y i j (depth_of nd) in
  exists D cs r, nth_error (adepth out) n = Some D /\ length (adepth out) = length pts /\
    nth_error (anames out) c = Some (read_name f) /\
    nth_error (aconst out) c = Some cs /\ length cs = length pts /\ nth_error cs n = Some r /\
    (complete d -> mean d <> None /\ open_depth D = mean d /\
       both (mean (part fst z)) (mean (part snd z)) <> None /\ reported t sc (mean d) (both (mean (part fst z)) (mean (part snd z))) r) /\
    (~ complete d -> open_depth D = None /\ r = None).
Proof.
  intros t sc fr g nd files pts out c f pa n p around x0 dx nx y0 dy ny x y i j Hn Hny G Fr H Hc Hpa Hf Hnum Hp Ex Ey Ri Ri1 Hj Bx By z d.
  destruct (regular_atlas_inv _ _ _ _ _ _ _ _ _ _ _ _ _ _ _ _ _ _ _ _ _ Hn Hny G Fr H Hc Hpa Hf Hp) as (xi & b & hc & inv & D & cs & r & Hxi & Rb & Rh & Nb & Nh & O1 & O2 & O3 & O4 & O5 & O6 & O7 & O8 & O9).
  rewrite Ex, Ey in *. exists D, cs, r. repeat (split; [assumption|]). pose proof G as (Gx & Gy & Nx & Ny & Rd & Ga).
  assert (0 < dx) by apply Gx. assert (0 < dy) by apply Gy.
  destruct (bracket_le _ _ _ _ Bx) as [Bx1 Bx2]. destruct (bracket_le _ _ _ _ By) as [By1 By2].
  destruct (cell_inside FES around x0 dx nx y0 dy ny x y i j) as [I1 I2]; auto.
  rewrite (inside_nodes around x0 dx nx y0 dy ny) in O1 by auto. apply Ok_inj in O1 as <-.
  assert (Wi := proj2 (within_reached FES around nx i) Ri). assert (Wi1 := proj2 (within_reached FES around nx (i + 1)%Z) Ri1).
  destruct (st_axes (bef around) (aft FES around) nx ny x0 dx y0 dy xi (nlat nd) Hxi Gy Nx Ny) as [A1 A2].
  assert (Bo : boxed xi (nlat nd) (x, y)) by (apply (sheet_boxed FES around x0 dx nx y0 dy ny); auto; split; auto; unfold node_y; cbn [INR]; lra).
  assert (Bx' : bracket (i + 1 = Z.of_nat (nx + aft FES around) - 1)%Z (node_x Heights x0 dx i) (node_x Heights x0 dx (i + 1)) x).
  { destruct Bx as [Bx|[K Bx]]; [now left|right]. split; auto. unfold last_of, aft in *. destruct around; lia. }
  destruct (gst_spline (bef around) (aft FES around) nx ny x0 dx y0 dy xi (nlat nd) Hxi Gy Nx Ny 0 Rplus Rmult b (depth_of nd) x y i j Rb) as (v1 & m1 & E1 & C1 & N1); auto.
  { intros j' i' Hj' Hi'. rewrite Nb by auto. discriminate. }
  { intros j' i' Hj' Hi'. rewrite Nb by auto. unfold depth_at, depth_of, req. cbn [fst snd]. now destruct (Req_EM_T _ 0). }
  destruct (gst_spline (bef around) (aft FES around) nx ny x0 dx y0 dy xi (nlat nd) Hxi Gy Nx Ny (0, 0) cadd cscale hc (constant_of nd pa) x y i j Rh) as (v2 & m2 & E2 & C2 & N2); auto.
  { intros j' i' Hj' Hi'. rewrite Nh by auto. cbn [fst]. apply Hnum; auto. now apply column_lt. }
  { intros j' i' Hj' Hi'. rewrite Nh, Nb by auto. unfold depth_at, constant_of, depth_of, req. cbn [fst snd]. now destruct (Req_EM_T _ 0). }
  fold d in C1, N1. fold z in C2, N2.
  assert (Cz : complete d -> complete z).
  { intros K q Hq Hw. unfold z, corners in Hq. cbv zeta in Hq.
    assert (Cn : forall j i, (j < ny)%nat -> (i < nx)%nat -> depth_of nd j i <> None -> constant_of nd pa j i <> None).
    { intros j' i' Hj' Hi' Kd. unfold constant_of. destruct (depth_of nd j' i'); [now apply Hnum|congruence]. }
    unfold d, corners in K. cbv zeta in K.
    destruct Hq as [<-|[<-|[<-|[<-|[]]]]]; cbn [fst snd] in *; apply Cn; try lia; try (now apply column_lt).
    - apply (K (_, _) (or_introl eq_refl) Hw).
    - apply (K (_, _) (or_intror (or_introl eq_refl)) Hw).
    - apply (K (_, _) (or_intror (or_intror (or_introl eq_refl))) Hw).
    - apply (K (_, _) (or_intror (or_intror (or_intror (or_introl eq_refl)))) Hw). }
  unfold rregular in O2. rewrite regular_linear, E1 in O2 by auto. apply Ok_inj in O2 as <-.
  unfold atlas_regular, cregular in O3. rewrite regular_linear in O3 by auto. match type of O3 with bind ?m _ = _ => replace m with (Ok (Some v2, m2)) in O3 by (symmetry; exact E2) end. cbn [bind] in O3. apply Ok_inj in O3 as <-.
  split.
  - intros K. destruct (C1 K) as [-> M1]. destruct (C2 (Cz K)) as [-> M2].
    assert (Md : mean d = Some v1).
    { rewrite <- (M1 (fun x => x) linear_real). f_equal. unfold part. rewrite <- (map_id d) at 1. apply map_ext. intros [w [v|]]; reflexivity. }
    rewrite (M2 fst linear_fst), (M2 snd linear_snd), Md. cbn [both]. split; [discriminate|]. split; [reflexivity|]. split; [discriminate|].
    apply value_reported; [discriminate|reflexivity|]. unfold gkept. cbn [fst snd orb is_nan]. now destruct v2.
  - intros K. rewrite (N1 K). split; [reflexivity|]. unfold atlas_value. cbn [snd]. now rewrite orb_true_r.
Qed.
Print Assumptions C82_atlas_linear.

(** ** C82: the nearest node *)
Theorem C82_atlas_nearest : forall t sc fr g nd files pts out c f pa n p around x0 dx nx y0 dy ny x y a b,
  nodes_for g t nd -> fny g = ny -> nodes_grid around x0 dx nx y0 dy ny nd -> framed fr (nlon nd) ->
  extract_atlas_regular Nearest t sc g files pts = Ok out ->
  nth_error files c = Some f -> parts_for f t (Some pa) -> file_grid nx ny f pa ->
  nth_error pts n = Some p -> placed fr (fst p) = x -> snd p = y ->
  node_x Heights x0 dx (first_of around) <= x <= node_x Heights x0 dx (last_of 1 around nx) ->
  node_y Heights y0 dy 0 <= y <= node_y Heights y0 dy (ny - 1) ->
  reached 1 around nx a -> (b < ny)%nat -> nearest_node Heights x0 dx y0 dy x y a b ->
  exists D cs r, nth_error (adepth out) n = Some D /\ length (adepth out) = length pts /\ open_depth D = depth_of nd b (column nx a) /\
    nth_error (anames out) c = Some (read_name f) /\
    nth_error (aconst out) c = Some cs /\ length cs = length pts /\ nth_error cs n = Some r /\
    reported t sc (depth_of nd b (column nx a)) (constant_of nd pa b (column nx a)) r.
Proof.
  intros t sc fr g nd files pts out c f pa n p around x0 dx nx y0 dy ny x y a b' Hn Hny G Fr H Hc Hpa Hf Hp Ex Ey Ix Iy Ra Hb' [Nx' Ny'].
  destruct (regular_atlas_inv _ _ _ _ _ _ _ _ _ _ _ _ _ _ _ _ _ _ _ _ _ Hn Hny G Fr H Hc Hpa Hf Hp) as (xi & b & hc & inv & D & cs & r & Hxi & Rb & Rh & Nb & Nh & O1 & O2 & O3 & O4 & O5 & O6 & O7 & O8 & O9).
  rewrite Ex, Ey in *. pose proof G as (Gx & Gy & Nx & Ny & Rd & Ga).
  assert (0 < dx) by apply Gx. assert (0 < dy) by apply Gy.
  rewrite (inside_nodes around x0 dx nx y0 dy ny) in O1 by (auto; unfold node_y in Iy; cbn [INR] in Iy; lra). apply Ok_inj in O1 as <-.
  assert (Wa : within (bef around) (aft FES around) nx a) by now apply (within_reached FES).
  assert (Bo : boxed xi (nlat nd) (x, y)) by now apply (sheet_boxed FES around x0 dx nx y0 dy ny).
  assert (Na : x0 - INR (bef around) * dx + INR (ec (bef around) a) * dx - dx / 2 < x <= x0 - INR (bef around) * dx + INR (ec (bef around) a) * dx + dx / 2).
  { pose proof (ec_x (bef around) (aft FES around) nx x0 dx xi Hxi a Wa) as E. destruct Hxi as (_ & _ & Hx'). rewrite Hx' in E by now apply ec_lt. rewrite E. exact Nx'. }
  unfold rregular in O2. rewrite (regular_nearest 0 Rplus Rmult (x0 - INR (bef around) * dx) dx (bef around + nx + aft FES around) xi y0 dy ny (nlat nd) b x y (ec (bef around) a) b' (None, true)) in O2; auto; try lia; [|now apply ec_lt].
  rewrite Nb in O2 by auto. apply Ok_inj in O2 as <-.
  unfold atlas_regular, cregular in O3. rewrite (regular_nearest (0, 0) cadd cscale (x0 - INR (bef around) * dx) dx (bef around + nx + aft FES around) xi y0 dy ny (nlat nd) hc x y (ec (bef around) a) b' (None, true)) in O3; auto; try lia; [|now apply ec_lt].
  rewrite Nh, Nb in O3 by auto. cbn [bind] in O3. apply Ok_inj in O3 as <-.
  set (q := entry 0 (ndepth nd) (column nx a) b') in *.
  assert (Kd : open_depth (depth_at q) = depth_of nd b' (column nx a)).
  { unfold open_depth, depth_at, depth_of, req. cbn [fst snd]. fold q. now destruct (Req_EM_T q 0). }
  eexists _, cs, _. repeat (split; [eassumption|]). apply value_reported; auto.
  - cbn [fst]. intros _. discriminate.
  - rewrite gkept_value. apply constant_value.
Qed.
Print Assumptions C82_atlas_nearest.

(** ** C82: nothing outside of the model *)
Theorem C82_atlas_outside : forall me t sc fr g nd files pts out c f pa n p around x0 dx nx y0 dy ny x y,
  nodes_for g t nd -> fny g = ny -> nodes_grid around x0 dx nx y0 dy ny nd -> framed fr (nlon nd) ->
  extract_atlas_regular me t sc g files pts = Ok out ->
  nth_error files c = Some f -> parts_for f t (Some pa) -> file_grid nx ny f pa ->
  nth_error pts n = Some p -> placed fr (fst p) = x -> snd p = y ->
  x < node_x Heights x0 dx (first_of around) \/ node_x Heights x0 dx (last_of 1 around nx) < x \/
  y < node_y Heights y0 dy 0 \/ node_y Heights y0 dy (ny - 1) < y ->
  exists cs, nth_error (aconst out) c = Some cs /\ nth_error cs n = Some None.
Proof.
  intros me t sc fr g nd files pts out c f pa n p around x0 dx nx y0 dy ny x y Hn Hny G Fr H Hc Hpa Hf Hp Ex Ey Ho.
  destruct (regular_atlas_inv _ _ _ _ _ _ _ _ _ _ _ _ _ _ _ _ _ _ _ _ _ Hn Hny G Fr H Hc Hpa Hf Hp) as (xi & b & hc & inv & D & cs & r & Hxi & Rb & Rh & Nb & Nh & O1 & O2 & O3 & O4 & O5 & O6 & O7 & O8 & O9).
  rewrite Ex, Ey in *. exists cs. split; auto. rewrite O9. f_equal. pose proof G as (Gx & Gy & Nx & Ny & Rd & Ga).
  destruct (st_axes (bef around) (aft FES around) nx ny x0 dx y0 dy xi (nlat nd) Hxi Gy Nx Ny) as [A1 A2].
  destruct (first_last_lon FES around x0 dx nx xi Nx Hxi) as [F1 F2]. destruct (first_last_lat y0 dy ny (nlat nd) Ny Gy) as [F3 F4]. cbn [behind] in F2.
  assert (N0 : node_y Heights y0 dy 0 = y0) by (unfold node_y; cbn [INR]; lra). rewrite N0 in Ho. unfold node_y in Ho.
  assert (I : outside_axes xi (nlat nd) (x, y) = Ok true).
  { unfold outside_axes. rewrite (axis_min _ A1), (axis_max _ A1), (axis_min _ A2), (axis_max _ A2). cbn [bind fst snd]. rewrite F1, F2, F3, F4. f_equal.
    destruct Ho as [K|[K|[K|K]]]; rewrite (rlt_t _ _ K), ?orb_true_r; reflexivity. }
  rewrite I in O1. apply Ok_inj in O1 as <-. unfold atlas_regular in O3. match type of O3 with bind ?m _ = _ => destruct m as [h|]; [|discriminate] end. cbn [bind] in O3. apply Ok_inj in O3 as <-.
  unfold atlas_value. now rewrite orb_true_r.
Qed.
Print Assumptions C82_atlas_outside.

(** ** C82: extraction succeeds for all points *)
Theorem C82_atlas_returns : forall me t sc fr g nd files pts around x0 dx nx y0 dy ny,
  nodes_for g t nd -> fny g = ny -> nodes_grid around x0 dx nx y0 dy ny nd -> framed fr (nlon nd) ->
  (forall f, In f files -> exists pa, parts_for f t (Some pa) /\ file_grid nx ny f pa) ->
  pts <> [] -> me <> Unknown ->
  exists out, extract_atlas_regular me t sc g files pts = Ok out /\ length (aconst out) = length files /\ length (anames out) = length files.
Proof.
  intros me t sc fr g nd files pts around x0 dx nx y0 dy ny Hn Hny G Fr Hf Hne Hl.
  destruct (atlas_setup t g nd around x0 dx nx y0 dy ny Hn Hny G) as (xi & b & Exi & Eb & Hxi & Rb & Nb). pose proof G as (Gx & Gy & Nx & Ny & Rd & Ga).
  destruct (st_axes (bef around) (aft FES around) nx ny x0 dx y0 dy xi (nlat nd) Hxi Gy Nx Ny) as [A1 A2].
  destruct (st_lengths (bef around) (aft FES around) nx ny x0 dx y0 dy xi (nlat nd) Hxi Gy) as [L1 L2].
  unfold extract_atlas_regular, read_netcdf_grid. rewrite (nodes_for_eq t g nd Hn). cbn [bind].
  assert (exists mn, amin (map fst pts) = Ok mn) as (mn & ->) by (destruct pts; [congruence|cbn; eauto]). cbn [bind]. rewrite (evenly_spacing x0 dx nx) by auto. cbn [bind].
  destruct (adjust_ok (nlon nd) pts) as (pts' & Ea); auto. { intros K. destruct Gx as (_ & L & _). rewrite K in L. cbn in L. lia. }
  rewrite Ea. cbn [bind]. rewrite (around_nodes _ _ _ _ _ _ _ _ G). rewrite Exi, Eb. cbn [bind]. apply (adjust_placed fr) in Ea; auto.
  clear Ea.
  destruct (mapM_ok (outside_axes xi (nlat nd)) pts') as (inv & ->). { intros q _. apply (outside_ok around x0 dx nx y0 dy ny); auto. }
  cbn [bind]. destruct (mapM_ok (rregular me xi (nlat nd) b) pts') as (ds & ->). { intros q Hq. apply regular_total; auto; now rewrite L1, L2. }
  cbn [bind]. match goal with |- exists out, bind (mapM ?F files) _ = _ /\ _ => destruct (mapM_ok F files) as (o & Eo) end.
  - intros f Hin. destruct (Hf f Hin) as (pa & Hpa & Hfg). destruct (atlas_file t f pa around nx ny b Hpa Hfg Nx Rb) as (r & e & hc & -> & Ee & Eh & Rh & _).
    cbn [bind fst]. rewrite Ee. cbn [bind]. rewrite Eh. cbn [bind].
    match goal with |- exists bb, bind (mapM ?F ?l) _ = _ => destruct (mapM_ok F l) as (cs & ->) end; [|cbn [bind]; eauto].
    intros [q [i D]] Hq. apply in_combine_l in Hq. destruct (regular_total (0, 0) cadd cscale me xi (nlat nd) hc q) as (h & Eh'); auto; [now rewrite L1, L2|]. unfold atlas_regular, cregular.
    match goal with |- exists r, bind ?m _ = _ => replace m with (Ok h) by (symmetry; exact Eh') end. cbn [bind]. eauto.
  - rewrite Eo. cbn [bind]. eexists. split; [reflexivity|]. cbn [aconst anames]. now rewrite !map_length, (mapM_len _ _ _ Eo).
Qed.
Print Assumptions C82_atlas_returns.

(** a method of another name is refused *)
Theorem C82_atlas_unknown : forall t sc g files pts out, extract_atlas_regular Unknown t sc g files pts <> Ok out.
Proof.
  intros t sc g files pts out H. unfold extract_atlas_regular in H. destruct (read_netcdf_grid t g) as [[[lon lat] h]|]; [|discriminate]. cbn [bind] in H.
  destruct pts as [|p pts]; [discriminate|]. cbn [map amin bind] in H. destruct (spacing lon); [|discriminate]. cbn [bind] in H.
  destruct (adjust lon (p :: pts)) as [pts'|] eqn:Ea; [|discriminate]. cbn [bind] in H.
  match type of H with bind ?m _ = _ => destruct m as [xi|]; [|discriminate] end. cbn [bind] in H.
  match type of H with bind ?m _ = _ => destruct m as [b|]; [|discriminate] end. cbn [bind] in H.
  match type of H with bind ?m _ = _ => destruct m as [inv|]; [|discriminate] end. cbn [bind] in H.
  destruct pts' as [|q t'].
  { unfold adjust in Ea. cbn [map amin amax bind] in Ea. destruct (amin lon); [|discriminate]. destruct (amax lon); [|discriminate]. cbn [bind] in Ea. apply Ok_inj in Ea.
    destruct (_ && _); [discriminate|]. destruct (_ && _); discriminate. }
  cbn [mapM] in H. unfold rregular at 1, gregular_point in H. destruct (negb _); [discriminate|]. destruct (outside_axes _ _ _); discriminate.
Qed.
Print Assumptions C82_atlas_unknown.

(** ** Numbers under masks do not matter *)
Lemma regular_settled me ilon ilat g q : axis ilon -> axis ilat -> rect (length ilat) (length ilon) g ->
  (me = Linear -> forall j i, (j < length ilat)%nat -> (i < length ilon)%nat -> fst (entry (None, true) g j i) <> None) ->
  (do h <- cregular me ilon ilat g q ;; Ok (settled Spline 1 false h)) = (do h <- cregular me ilon ilat (map (map (filled Spline)) g) q ;; Ok (settled Spline 1 false h)).
Proof.
  intros A1 A2 Rg Hn. unfold cregular. destruct me.
  - destruct (boxed_dec ilon ilat q) as [B|B]; [|now rewrite !regular_outside by (auto; discriminate)]. rewrite !regular_linear by auto.
    exact (spline_same 1 false ilon ilat g q A1 A2 Rg (Hn eq_refl)).
  - unfold gregular_point. destruct (negb _); [reflexivity|]. destruct (outside_axes ilon ilat q) as [[]|]; try reflexivity. cbn [bind].
    destruct (MaskModel.nearer ilon (fst q)); [|reflexivity]. cbn [bind]. destruct (MaskModel.nearer ilat (snd q)); [|reflexivity]. cbn [bind]. rewrite gget2_map.
    destruct (gget2 g _ _) as [[v []]|]; reflexivity.
  - unfold gregular_point. destruct (negb _); [reflexivity|]. destruct (outside_axes ilon ilat q); reflexivity.
Qed.

(** ** C82: reading first gives the same constants and depths *)
Theorem C82_atlas_read : forall me t sc fr g nd files pts around x0 dx nx y0 dy ny,
  nodes_for g t nd -> fny g = ny -> nodes_grid around x0 dx nx y0 dy ny nd -> framed fr (nlon nd) ->
  (forall f, In f files -> exists pa, parts_for f t (Some pa) /\ file_grid nx ny f pa /\
     (me = Linear -> forall j i, (j < ny)%nat -> (i < nx)%nat -> number_of pa j i <> None)) ->
  same_frame FES fr around x0 dx nx pts ->
  exists c, read_atlas t g files = Ok c /\ map snd (afields c) = map read_name files /\
    match extract_atlas_regular me t sc g files pts with
    | Ok a => interpolate_atlas_regular me t sc c pts = Ok (aconst a, adepth a) /\ anames a = map read_name files
    | Err e => interpolate_atlas_regular me t sc c pts = Err e
    end.
Proof.
  intros me t sc fr g nd files pts around x0 dx nx y0 dy ny Hn Hny G Fr Hf Hs.
  destruct (atlas_setup t g nd around x0 dx nx y0 dy ny Hn Hny G) as (xi & b & Exi & Eb & Hxi & Rb & Nb). pose proof G as (Gx & Gy & Nx & Ny & Rd & Ga).
  rewrite (read_atlas_inv t g nd files around x0 dx nx y0 dy ny xi b) by auto.
  match goal with |- exists c, bind (mapM ?F files) _ = _ /\ _ => destruct (mapM_ok F files) as (fs & Efs) end.
  { intros f Hin. destruct (Hf f Hin) as (pa & Hpa & Hfg & _). destruct (atlas_file t f pa around nx ny b Hpa Hfg Nx Rb) as (r & e & hc & -> & Ee & Eh & _).
    cbn [bind fst]. rewrite Ee. cbn [bind]. rewrite Eh. cbn [bind]. eauto. }
  assert (Hnames : map snd fs = map read_name files).
  { clear - Efs Hf Nx Rb. revert fs Efs. induction files as [|f files IH]; intros fs Efs; [apply Ok_inj in Efs as <-; reflexivity|]. cbn [mapM] in Efs.
    destruct (Hf f (or_introl eq_refl)) as (pa & Hpa & Hfg & _). destruct (atlas_file t f pa around nx ny b Hpa Hfg Nx Rb) as (r & e & hc & Er & Ee & Eh & _).
    rewrite Er in Efs. cbn [bind fst snd] in Efs. rewrite Ee in Efs. cbn [bind] in Efs. rewrite Eh in Efs. cbn [bind] in Efs.
    match type of Efs with bind ?m _ = _ => destruct m as [fs'|] eqn:E; [|discriminate] end. cbn [bind] in Efs. apply Ok_inj in Efs as <-. cbn [map snd]. f_equal. apply IH; auto. intros f' Hf'. apply Hf. now right. }
  rewrite Efs. cbn [bind]. eexists. split; [reflexivity|]. split; [exact Hnames|].
  destruct pts as [|q0 t0] eqn:Ept.
  { unfold extract_atlas_regular, read_netcdf_grid. rewrite (nodes_for_eq t g nd Hn). reflexivity. }
  rewrite <- Ept in *. assert (Hne : pts <> []) by (rewrite Ept; discriminate).
  unfold interpolate_atlas_regular. cbn [alon alat abath afields].
  rewrite (adjust_longer FES fr around x0 dx nx y0 dy ny _ xi pts (nodes_as_sheet _ _ _ _ _ _ _ _ G) Fr Hxi Hne Hs). cbn [bind].
  unfold extract_atlas_regular, read_netcdf_grid. rewrite (nodes_for_eq t g nd Hn). cbn [bind].
  assert (exists mn, amin (map fst pts) = Ok mn) as (mn & ->) by (rewrite Ept; cbn; eauto). cbn [bind]. rewrite (evenly_spacing x0 dx nx) by auto. cbn [bind].
  destruct (adjust_ok (nlon nd) pts) as (pts' & Ea); auto. { intros K. destruct Gx as (_ & L & _). rewrite K in L. cbn in L. lia. }
  rewrite Ea. cbn [bind]. rewrite (around_nodes _ _ _ _ _ _ _ _ G). rewrite Exi, Eb. cbn [bind]. apply (adjust_placed fr) in Ea; auto. rewrite <- Ea.
  destruct (mapM_ok (outside_axes xi (nlat nd)) pts') as (inv & Einv). { intros q _. apply (outside_ok around x0 dx nx y0 dy ny); auto. }
  rewrite Einv. cbn [bind].
  assert (Hz : forall (T : variable), T <> Vother -> forall (X : Type) (u v : res X), match T with Vother => u | _ => v end = v) by (intros []; congruence).
  assert (Ht : t <> Vother) by (destruct Hn; discriminate).
  destruct (mapM (rregular me xi (nlat nd) b) pts') as [ds|e]; [|reflexivity].
  cbn [bind]. rewrite Hz by auto.
  (* the constants of one file *)
  match goal with |- match bind (mapM ?F files) _ with Ok a => bind (mapM ?H fs) _ = _ /\ _ | Err _ => _ end =>
    assert (Sf : forall f p, In f files -> (do r <- read_netcdf_file t f ;; do e <- extend_if around (fst r) ;; do hc <- remask b e ;; Ok (hc, snd r)) = Ok p -> F f = (do cs <- H p ;; Ok (cs, snd p))) end.
  { intros f p Hin Ep. destruct (Hf f Hin) as (pa & Hpa & Hfg & Hnum). destruct (atlas_file t f pa around nx ny b Hpa Hfg Nx Rb) as (r & e & hc & Er & Ee & Eh & Rh & Nh).
    rewrite Er in Ep |- *. cbn [bind fst snd] in Ep |- *. rewrite Ee in Ep |- *. cbn [bind] in Ep |- *. rewrite Eh in Ep |- *. cbn [bind] in Ep |- *. apply Ok_inj in Ep as <-. cbn [fst snd].
    assert (Pw : forall q i D, atlas_regular me sc xi (nlat nd) t q D i hc = atlas_regular me sc xi (nlat nd) t q D i (map (map (filled Spline)) hc)).
    { intros q i D. unfold atlas_regular.
      destruct (st_axes (bef around) (aft FES around) nx ny x0 dx y0 dy xi (nlat nd) Hxi Gy Nx Ny) as [A1 A2].
      destruct (st_lengths (bef around) (aft FES around) nx ny x0 dx y0 dy xi (nlat nd) Hxi Gy) as [L1 L2].
      assert (K : (do h <- cregular me xi (nlat nd) hc q ;; Ok (settled Spline 1 false h)) = (do h <- cregular me xi (nlat nd) (map (map (filled Spline)) hc) q ;; Ok (settled Spline 1 false h))).
      { apply regular_settled; auto; [now rewrite L1, L2|]. rewrite L1, L2. intros Km j' i' Hj Hi. replace i' with (ec (bef around) (Z.of_nat i' - Z.of_nat (bef around))) by (unfold ec; lia).
        rewrite Nh by (auto; unfold within; lia). cbn [fst]. apply (Hnum Km); auto. now apply column_lt. }
      destruct (cregular me xi (nlat nd) hc q) as [h|], (cregular me xi (nlat nd) (map (map (filled Spline)) hc) q) as [h'|]; cbn [bind] in K |- *; try discriminate; [|congruence].
      apply Ok_inj in K. f_equal. now apply atlas_value_settled. }
    rewrite (mapM_ext_in (fun p => let '(q, (i, D)) := p in atlas_regular me sc xi (nlat nd) t q D i hc) (fun p => let '(q, (i, D)) := p in atlas_regular me sc xi (nlat nd) t q D i (map (map (filled Spline)) hc))); [reflexivity|].
    intros [q [i D]] _. apply Pw. }
  match goal with |- match bind (mapM ?F files) _ with Ok a => bind (mapM ?H fs) _ = _ /\ _ | Err _ => _ end => rewrite (mapM_two _ F H files fs Efs Sf); destruct (mapM H fs) as [o|e] eqn:Eo; [|reflexivity] end.
  apply mapM_len in Eo. cbn [bind aconst adepth anames]. split.
  - f_equal. f_equal. clear - Eo. revert o Eo. induction fs as [|p fs IH]; intros [|c o] Eo; try discriminate; [reflexivity|]. cbn [map combine fst]. f_equal. apply IH. now injection Eo.
  - rewrite <- Hnames. clear - Eo. revert o Eo. induction fs as [|p fs IH]; intros [|c o] Eo; try discriminate; [reflexivity|]. cbn [map combine snd]. f_equal. apply IH. now injection Eo.
Qed.
Print Assumptions C82_atlas_read.
