(** C71: what is returned for a point from ATLAS netCDF files. *)
From Coq Require Import Reals List Bool Arith ZArith Lra Lia.
From Verif Require Import PyBase RBase MathModel GeoModel ConvertProps GridModel InterpModel InterpProps ExtractModel ExtractSpec NodeProps ExtractProofs ExtractProps SplineProps ReturnProps SeriesModel SeriesSpec SeriesProofs SeriesProps SeriesProps2 StretchProofs AtlasNcModel AtlasNcSpec AtlasNcProps.
Import ListNotations.
Open Scope R_scope.

Lemma nodes_for_eq t g n : nodes_for g t n -> nodes_of t g = Ok n.
Proof. destruct 1; reflexivity. Qed.
Lemma parts_for_eq t f p : parts_for f t (Some p) -> read_netcdf_file t f = (do hc <- read_parts (tny f) (Some p) ;; Ok (hc, read_name f)).
Proof. intros H. remember (Some p) as o eqn:E. destruct H; unfold read_netcdf_file; rewrite E; reflexivity. Qed.
Lemma read_parts_entries nx ny (p : parts) : rect nx ny (fst p) -> rect nx ny (snd p) -> exists hc, read_parts ny (Some p) = Ok hc /\ rect ny nx hc /\
  forall j i, (j < ny)%nat -> (i < nx)%nat -> entry (None, true) hc j i = (number_of p j i, false).
Proof.
  intros R1 R2. destruct p as [re im]. cbn [fst snd] in *. eexists. split; [reflexivity|].
  assert (T1 := transposed_rect (@None R) nx ny _ R1). assert (T2 := transposed_rect (@None R) nx ny _ R2). split; [now apply zip22_rect|].
  intros j i Hj Hi. rewrite (zip22_entry joined ny nx _ _ None None) by auto. rewrite (transposed_entry None None nx ny re i j R1 Hi Hj), (transposed_entry None None nx ny im i j R2 Hi Hj).
  reflexivity.
Qed.
(** longer arrays *)
Lemma longer_entries {A} (d : A) around ny nx m : rect ny nx m -> (2 <= nx)%nat ->
  exists m', extend_if around m = Ok m' /\ rect ny (bef around + nx + aft FES around) m' /\
    forall j i, (j < ny)%nat -> within (bef around) (aft FES around) nx i -> entry d m' j (ec (bef around) i) = entry d m j (column nx i).
Proof.
  intros Hm Hx. destruct (extend_if_entries d around ny nx m Hm ltac:(lia)) as (m' & E & R1 & N1). exists m'. split; [exact E|].
  assert (W : (bef around + nx + aft FES around)%nat = ncols around nx) by (unfold bef, aft, ncols; destruct around; lia). rewrite W. split; auto.
  intros j i Hj Hi. assert (Ci : columns around nx i) by (unfold columns; unfold within, bef, aft in Hi; destruct around; lia).
  assert (Ee : ec (bef around) i = ecol around i) by (unfold ec, bef, ecol; destruct around; f_equal; lia).
  rewrite Ee, N1 by (auto; now apply ecol_lt). now rewrite ecol_col by auto.
Qed.
Lemma around_nodes around x0 dx nx y0 dy ny n : nodes_grid around x0 dx nx y0 dy ny n -> isclose (last (nlon n) 0 - hd 0 (nlon n)) (360 - dx) = around.
Proof.
  intros (Ex & Ey & Hx & Hy & Rd & H). apply (around_sheet around x0 dx nx y0 dy ny (Sheet (nlon n) (nlat n) (repeat (repeat (None, true) nx) ny))).
  repeat (split; [assumption|]). split; auto. split; [apply repeat_length|]. intros r Hr. apply repeat_spec in Hr. subst r. apply repeat_length.
Qed.

(** the longer axis and the depths on it *)
Lemma atlas_setup t g nd around x0 dx nx y0 dy ny : nodes_for g t nd -> fny g = ny -> nodes_grid around x0 dx nx y0 dy ny nd ->
  exists xi b, (if around then extend_axis (nlon nd) dx else Ok (nlon nd)) = Ok xi /\ extend_if around (map (map depth_at) (transposed 0 (fny g) (ndepth nd))) = Ok b /\
    evenly (x0 - INR (bef around) * dx) dx (bef around + nx + aft FES around) xi /\ rect ny (bef around + nx + aft FES around) b /\
    forall j i, (j < ny)%nat -> within (bef around) (aft FES around) nx i -> entry (None, true) b j (ec (bef around) i) = depth_at (entry 0 (ndepth nd) (column nx i) j).
Proof.
  intros Hn Hny (Gx & Gy & Nx & Ny & Rd & Ga). rewrite Hny.
  assert (R1 := transposed_rect 0 nx ny _ Rd). assert (R2 : rect ny nx (map (map depth_at) (transposed 0 ny (ndepth nd)))) by now apply map_rect.
  destruct (longer_entries (None, true) around ny nx _ R2 Nx) as (b & Eb & Rb & Nb).
  assert (exists xi, (if around then extend_axis (nlon nd) dx else Ok (nlon nd)) = Ok xi /\ evenly (x0 - INR (bef around) * dx) dx (bef around + nx + aft FES around) xi) as (xi & Exi & Hxi).
  { destruct around; unfold bef, aft.
    - destruct (extend_axis_evenly x0 dx nx _ Gx Nx) as (l & El & Hl). exists l. split; auto. replace (1 + nx + 1)%nat with (nx + 2)%nat by lia. replace (x0 - INR 1 * dx) with (x0 - dx) by (cbn [INR]; ring). exact Hl.
    - exists (nlon nd). split; auto. cbn [INR]. replace (x0 - 0 * dx) with x0 by ring. replace (0 + nx + 0)%nat with nx by lia. exact Gx. }
  exists xi, b. repeat (split; [assumption|]). intros j i Hj Hi. rewrite Nb by auto. rewrite (map_entry depth_at ny nx _ 0 (None, true)) by (auto; now apply column_lt).
  now rewrite (transposed_entry 0 0 nx ny _ (column nx i) j Rd (column_lt nx i Nx) Hj).
Qed.
(** the constants of one file on it *)
Lemma atlas_file t f p around nx ny b : parts_for f t (Some p) -> file_grid nx ny f p -> (2 <= nx)%nat -> rect ny (bef around + nx + aft FES around) b ->
  exists r e hc, read_netcdf_file t f = Ok (r, read_name f) /\ extend_if around r = Ok e /\ remask b e = Ok hc /\ rect ny (bef around + nx + aft FES around) hc /\
    forall j i, (j < ny)%nat -> within (bef around) (aft FES around) nx i ->
      entry (None, true) hc j (ec (bef around) i) = (number_of p j (column nx i), snd (entry (None, true) b j (ec (bef around) i))).
Proof.
  intros Hp (Ht & R1 & R2) Nx Rb. destruct (read_parts_entries nx ny p R1 R2) as (r & Er & Rr & Nr).
  destruct (longer_entries (A := gcell cpx) (None, true) around ny nx r Rr Nx) as (e & Ee & Re & Ne). destruct (remask_entries b ny _ e Rb Re) as (hc & Eh & Rh & Nh).
  exists r, e, hc. split; [rewrite (parts_for_eq _ _ _ Hp), Ht, Er; reflexivity|]. repeat (split; [assumption|]).
  intros j i Hj Hi. rewrite Nh by (auto; now apply ec_lt). rewrite Ne by auto. rewrite Nr by (auto; now apply column_lt). reflexivity.
Qed.

(** everything extraction computes for a point *)
Lemma atlas_inv me t sc fr g nd files pts out c f pa n p around x0 dx nx y0 dy ny :
  nodes_for g t nd -> fny g = ny -> nodes_grid around x0 dx nx y0 dy ny nd -> framed fr (nlon nd) ->
  extract_atlas me t sc g files pts = Ok out ->
  nth_error files c = Some f -> parts_for f t (Some pa) -> file_grid nx ny f pa -> nth_error pts n = Some p ->
  exists xi b hc inv D cs r,
    evenly (x0 - INR (bef around) * dx) dx (bef around + nx + aft FES around) xi /\ rect ny (bef around + nx + aft FES around) b /\ rect ny (bef around + nx + aft FES around) hc /\
    (forall j i, (j < ny)%nat -> within (bef around) (aft FES around) nx i -> entry (None, true) b j (ec (bef around) i) = depth_at (entry 0 (ndepth nd) (column nx i) j)) /\
    (forall j i, (j < ny)%nat -> within (bef around) (aft FES around) nx i -> entry (None, true) hc j (ec (bef around) i) = (number_of pa j (column nx i), snd (entry (None, true) b j (ec (bef around) i)))) /\
    outside_axes xi (nlat nd) (placed fr (fst p), snd p) = Ok inv /\ sounding me xi (nlat nd) b (placed fr (fst p), snd p) = Ok D /\
    atlas_constant me sc xi (nlat nd) t (placed fr (fst p), snd p) D inv hc = Ok r /\
    nth_error (adepth out) n = Some D /\ length (adepth out) = length pts /\ nth_error (anames out) c = Some (read_name f) /\
    nth_error (aconst out) c = Some cs /\ length cs = length pts /\ nth_error cs n = Some r.
Proof.
  intros Hn Hny G Fr H Hc Hpa Hf Hp. destruct (atlas_setup t g nd around x0 dx nx y0 dy ny Hn Hny G) as (xi & b & Exi & Eb & Hxi & Rb & Nb).
  pose proof G as (Gx & Gy & Nx & Ny & Rd & Ga). unfold extract_atlas, read_netcdf_grid in H. rewrite (nodes_for_eq t g nd Hn) in H. cbn [bind] in H.
  destruct (amin (map fst pts)); [|discriminate]. cbn [bind] in H. rewrite (evenly_spacing x0 dx nx) in H by auto. cbn [bind] in H.
  destruct (adjust (nlon nd) pts) as [pts'|] eqn:Ea; [|discriminate]. cbn [bind] in H. rewrite (around_nodes _ _ _ _ _ _ _ _ G) in H. rewrite Exi, Eb in H. cbn [bind] in H.
  destruct (mapM (outside_axes xi (nlat nd)) pts') as [inv|] eqn:Ei; [|discriminate]. cbn [bind] in H.
  destruct (mapM (sounding me xi (nlat nd) b) pts') as [ds|] eqn:Ed; [|discriminate]. cbn [bind] in H.
  match type of H with bind ?m _ = _ => destruct m as [o|] eqn:Eo; [|discriminate] end. cbn [bind] in H. apply Ok_inj in H as <-. cbn [adepth anames aconst].
  apply (adjust_placed fr) in Ea; auto. subst pts'.
  assert (Hq : nth_error (map (fun p => (placed fr (fst p), snd p)) pts) n = Some (placed fr (fst p), snd p)) by now apply (map_nth_error (fun p => (placed fr (fst p), snd p))).
  destruct (mapM_nth _ _ _ _ _ Ei Hq) as (iv & E1 & N1). destruct (mapM_nth _ _ _ _ _ Ed Hq) as (D & E2 & N2).
  destruct (mapM_nth _ _ _ _ _ Eo Hc) as (oc & E3 & N3). destruct (atlas_file t f pa around nx ny b Hpa Hf Nx Rb) as (r & e & hc & Er & Ee & Eh & Rh & Nh).
  rewrite Er in E3. cbn [bind fst snd] in E3. rewrite Ee in E3. cbn [bind] in E3. rewrite Eh in E3. cbn [bind] in E3.
  match type of E3 with bind ?m _ = _ => destruct m as [cs|] eqn:Ec; [|discriminate] end. cbn [bind] in E3. apply Ok_inj in E3 as <-.
  assert (L1 := mapM_len _ _ _ Ei). assert (L2 := mapM_len _ _ _ Ed). rewrite map_length in L1, L2.
  assert (Hz : nth_error (combine (map (fun p => (placed fr (fst p), snd p)) pts) (combine inv ds)) n = Some ((placed fr (fst p), snd p), (iv, D))).
  { clear - Hq N1 N2. revert n inv ds Hq N1 N2. induction (map (fun p => (placed fr (fst p), snd p)) pts) as [|q l IH]; intros n inv ds Hq N1 N2; [destruct n; discriminate|].
    destruct inv as [|i inv]; [destruct n; discriminate|]. destruct ds as [|d ds]; [destruct n; discriminate|]. destruct n as [|n]; cbn in *; [congruence|auto]. }
  destruct (mapM_nth _ _ _ _ _ Ec Hz) as (rr & E4 & N4). cbn beta iota in E4.
  exists xi, b, hc, iv, D, cs, rr. repeat (split; [assumption|]). split; [now rewrite (map_nth_error snd c o N3)|]. split; [now rewrite (map_nth_error fst c o N3)|]. split; auto.
  rewrite (mapM_len _ _ _ Ec). rewrite !combine_length, map_length. rewrite L1, L2. lia.
Qed.

Lemma inside_nodes around x0 dx nx y0 dy ny lon lat x y : evenly (x0 - INR (bef around) * dx) dx (bef around + nx + aft FES around) lon -> evenly y0 dy ny lat ->
  (2 <= nx)%nat -> (2 <= ny)%nat ->
  node_x Heights x0 dx (first_of around) <= x <= node_x Heights x0 dx (last_of 1 around nx) -> y0 <= y <= y0 + INR (ny - 1) * dy ->
  outside_axes lon lat (x, y) = Ok false.
Proof. intros. now apply (inside_sheet FES around x0 dx nx y0 dy ny). Qed.
Lemma depth_value n j i : value_of (depth_at (entry 0 (ndepth n) i j)) = depth_of n j i.
Proof. unfold depth_at, depth_of, value_of, gusable, req. cbn [fst snd]. now destruct (Req_EM_T _ 0). Qed.
Lemma constant_value n pa j i : value_of (number_of pa j i, snd (depth_at (entry 0 (ndepth n) i j))) = constant_of n pa j i.
Proof. unfold depth_at, constant_of, depth_of, value_of, gusable, req. cbn [fst snd]. destruct (Req_EM_T _ 0); [now destruct (number_of pa j i)|]. now destruct (number_of pa j i). Qed.
Lemma kept_both h z : (forall f, linear (0, 0) cadd cscale f -> option_map f (gkept h) = mean (part f z)) -> gkept h = both (mean (part fst z)) (mean (part snd z)).
Proof. intros K. rewrite <- (K fst linear_fst), <- (K snd linear_snd). destruct (gkept h) as [[a b]|]; reflexivity. Qed.
Lemma value_reported t sc D h d z : (snd D = false -> fst D <> None) -> open_depth D = d -> gkept h = z -> reported t sc d z (atlas_value t sc D false h).
Proof.
  intros HD <- <-. unfold reported, open_depth, gkept, is_nan, atlas_value. rewrite orb_false_r. destruct D as [Dd Dm]. destruct h as [[z|] m]; cbn [fst snd] in *.
  - destruct m; [reflexivity|]. cbn [orb]. destruct Dm; [reflexivity|]. destruct Dd as [dd|]; [|destruct (HD eq_refl eq_refl)].
    exists (cabs z), (phase_of z). split; [apply phase_of_spec|]. unfold convert, velocity, gnumber. cbn [fst]. now destruct t.
  - rewrite orb_true_r. destruct (m || Dm); reflexivity.
Qed.

(** ** C71: within a cell *)
Theorem C71_cell : forall t sc fr g nd files pts out c f pa n p around x0 dx nx y0 dy ny x y i j,
  nodes_for g t nd -> fny g = ny -> nodes_grid around x0 dx nx y0 dy ny nd -> framed fr (nlon nd) ->
  extract_atlas Bilinear t sc g files pts = Ok out ->
  nth_error files c = Some f -> parts_for f t (Some pa) -> file_grid nx ny f pa ->
  nth_error pts n = Some p -> placed fr (fst p) = x -> snd p = y ->
  reached 1 around nx i -> reached 1 around nx (i + 1) -> (S j < ny)%nat ->
  between_nodes Heights x0 dx y0 dy x y i j -> ~ at_node Heights x0 dx y0 dy x y i j ->
  let z := corners Heights x0 dx y0 dy nx x y i j (constant_of nd pa) in
  let d := mean (corners Heights x0 dx y0 dy nx x y i j (depth_of nd)) in
  exists D cs r, nth_error (adepth out) n = Some D /\ length (adepth out) = length pts /\ open_depth D = d /\
    nth_error (anames out) c = Some (read_name f) /\
    nth_error (aconst out) c = Some cs /\ length cs = length pts /\ nth_error cs n = Some r /\
    reported t sc d (both (mean (part fst z)) (mean (part snd z))) r.
Proof.
  intros t sc fr g nd files pts out c f pa n p around x0 dx nx y0 dy ny x y i j Hn Hny G Fr H Hc Hpa Hf Hp Ex Ey Ri Ri1 Hj B NA z d.
  destruct (atlas_inv _ _ _ _ _ _ _ _ _ _ _ _ _ _ _ _ _ _ _ _ _ Hn Hny G Fr H Hc Hpa Hf Hp) as (xi & b & hc & inv & D & cs & r & Hxi & Rb & Rh & Nb & Nh & O1 & O2 & O3 & O4 & O5 & O6 & O7 & O8 & O9).
  rewrite Ex, Ey in *. exists D, cs, r. pose proof G as (Gx & Gy & Nx & Ny & Rd & Ga).
  assert (0 < dx) by apply Gx. assert (0 < dy) by apply Gy.
  destruct (cell_inside FES around x0 dx nx y0 dy ny x y i j) as [I1 I2]; auto; [destruct B as (B1 & B2 & _); lra|destruct B as (B1 & B2 & _); lra|].
  rewrite (inside_nodes around x0 dx nx y0 dy ny) in O1 by auto. apply Ok_inj in O1 as <-.
  assert (Wi := proj2 (within_reached FES around nx i) Ri). assert (Wi1 := proj2 (within_reached FES around nx (i + 1)%Z) Ri1).
  destruct (gst_off (bef around) (aft FES around) nx ny x0 dx y0 dy xi (nlat nd) Hxi Gy Nx Ny 0 Rplus Rmult b (depth_of nd) x y i j Rb) as (h1 & Eh1 & Kh1); auto.
  { intros j' i' Hj' Hi'. rewrite Nb by auto. apply depth_value. }
  destruct (gst_off (bef around) (aft FES around) nx ny x0 dx y0 dy xi (nlat nd) Hxi Gy Nx Ny (0, 0) cadd cscale hc (constant_of nd pa) x y i j Rh) as (h2 & Eh2 & Kh2); auto.
  { intros j' i' Hj' Hi'. rewrite Nh, Nb by auto. apply constant_value. }
  fold z in Kh2. apply kept_both in Kh2.
  unfold sounding, rbilinear in O2. rewrite Eh1 in O2. cbn [bind] in O2. apply Ok_inj in O2 as <-.
  unfold atlas_constant, cbilinear in O3. match type of O3 with bind ?m _ = _ => replace m with (Ok h2) in O3 by (symmetry; exact Eh2) end. cbn [bind] in O3. apply Ok_inj in O3 as <-.
  specialize (Kh1 (fun x => x) linear_real).
  assert (Kd : open_depth (fst h1, snd h1 || is_nan h1) = d).
  { unfold d. replace (corners Heights x0 dx y0 dy nx x y i j (depth_of nd)) with (part (fun x : R => x) (corners Heights x0 dx y0 dy nx x y i j (depth_of nd))).
    - rewrite <- Kh1. unfold open_depth, gkept. cbn [fst snd]. destruct (snd h1 || is_nan h1); [reflexivity|]. now destruct (fst h1).
    - unfold part. rewrite <- (map_id (corners Heights x0 dx y0 dy nx x y i j (depth_of nd))) at 2. apply map_ext. intros [w [v|]]; reflexivity. }
  repeat (split; [assumption|]). apply value_reported; auto. cbn [fst snd]. intros K. apply orb_false_elim in K as [_ K]. unfold is_nan in K. destruct (fst h1); discriminate.
Qed.
Print Assumptions C71_cell.

(** ** C71: at a node, its constant and its depth *)
Theorem C71_node : forall t sc fr g nd files pts out c f pa n p around x0 dx nx y0 dy ny x y i j,
  nodes_for g t nd -> fny g = ny -> nodes_grid around x0 dx nx y0 dy ny nd -> framed fr (nlon nd) ->
  extract_atlas Bilinear t sc g files pts = Ok out ->
  nth_error files c = Some f -> parts_for f t (Some pa) -> file_grid nx ny f pa ->
  nth_error pts n = Some p -> placed fr (fst p) = x -> snd p = y ->
  reached 1 around nx i -> reached 1 around nx (i + 1) -> (S j < ny)%nat ->
  between_nodes Heights x0 dx y0 dy x y i j -> at_node Heights x0 dx y0 dy x y i j ->
  exists a b D cs r, (a = i \/ a = i + 1)%Z /\ (b = j \/ b = S j) /\
    ExtractSpec.close x (node_x Heights x0 dx a) /\ ExtractSpec.close y (node_y Heights y0 dy b) /\
    (x = node_x Heights x0 dx i -> y = node_y Heights y0 dy j -> a = i /\ b = j) /\
    nth_error (adepth out) n = Some D /\ length (adepth out) = length pts /\ open_depth D = depth_of nd b (column nx a) /\
    nth_error (anames out) c = Some (read_name f) /\
    nth_error (aconst out) c = Some cs /\ length cs = length pts /\ nth_error cs n = Some r /\
    reported t sc (depth_of nd b (column nx a)) (constant_of nd pa b (column nx a)) r.
Proof.
  intros t sc fr g nd files pts out c f pa n p around x0 dx nx y0 dy ny x y i j Hn Hny G Fr H Hc Hpa Hf Hp Ex Ey Ri Ri1 Hj B NA.
  destruct (atlas_inv _ _ _ _ _ _ _ _ _ _ _ _ _ _ _ _ _ _ _ _ _ Hn Hny G Fr H Hc Hpa Hf Hp) as (xi & b & hc & inv & D & cs & r & Hxi & Rb & Rh & Nb & Nh & O1 & O2 & O3 & O4 & O5 & O6 & O7 & O8 & O9).
  rewrite Ex, Ey in *. pose proof G as (Gx & Gy & Nx & Ny & Rd & Ga).
  assert (0 < dx) by apply Gx. assert (0 < dy) by apply Gy.
  destruct (cell_inside FES around x0 dx nx y0 dy ny x y i j) as [I1 I2]; auto; [destruct B as (B1 & B2 & _); lra|destruct B as (B1 & B2 & _); lra|].
  rewrite (inside_nodes around x0 dx nx y0 dy ny) in O1 by auto. apply Ok_inj in O1 as <-.
  assert (Wi := proj2 (within_reached FES around nx i) Ri). assert (Wi1 := proj2 (within_reached FES around nx (i + 1)%Z) Ri1).
  destruct (gst_node (bef around) (aft FES around) nx ny x0 dx y0 dy xi (nlat nd) Hxi Gy Nx Ny x y i j) as (a & b' & Ka & Kb & C1 & C2 & C3 & Gn); auto.
  assert (Wa : within (bef around) (aft FES around) nx a) by (destruct Ka as [-> | ->]; auto). assert (Hb' : (b' < ny)%nat) by lia.
  unfold sounding, rbilinear in O2. rewrite (Gn R 0 Rplus Rmult b Rb), Nb in O2 by auto. cbn [bind] in O2. apply Ok_inj in O2 as <-.
  unfold atlas_constant, cbilinear in O3. match type of O3 with bind ?m _ = _ => replace m with (Ok (entry (None, true) hc b' (ec (bef around) a))) in O3 by (symmetry; exact (Gn cpx (0, 0) cadd cscale hc Rh)) end.
  rewrite Nh, Nb in O3 by auto. cbn [bind] in O3. apply Ok_inj in O3 as <-.
  set (q := entry 0 (ndepth nd) (column nx a) b') in *.
  assert (Kd : open_depth (fst (depth_at q), snd (depth_at q) || is_nan (depth_at q)) = depth_of nd b' (column nx a)).
  { unfold open_depth, depth_at, depth_of, is_nan, req. cbn [fst snd]. fold q. rewrite orb_false_r. now destruct (Req_EM_T q 0). }
  eexists a, b', _, cs, _. repeat (split; [eassumption|]). apply value_reported; auto.
  - cbn [fst]. intros _. discriminate.
  - rewrite gkept_value. apply constant_value.
Qed.
Print Assumptions C71_node.

(** ** C71: with splines *)
Theorem C71_spline : forall t sc fr g nd files pts out c f pa n p around x0 dx nx y0 dy ny x y i j,
  nodes_for g t nd -> fny g = ny -> nodes_grid around x0 dx nx y0 dy ny nd -> framed fr (nlon nd) ->
  extract_atlas Spline t sc g files pts = Ok out ->
  nth_error files c = Some f -> parts_for f t (Some pa) -> file_grid nx ny f pa ->
  (forall j i, (j < ny)%nat -> (i < nx)%nat -> number_of pa j i <> None) ->
  nth_error pts n = Some p -> placed fr (fst p) = x -> snd p = y ->
  reached 1 around nx i -> reached 1 around nx (i + 1) -> (S j < ny)%nat ->
  bracket (i + 1 = last_of 1 around nx)%Z (node_x Heights x0 dx i) (node_x Heights x0 dx (i + 1)) x ->
  bracket (S (S j) = ny) (node_y Heights y0 dy j) (node_y Heights y0 dy (S j)) y ->
  let z := corners Heights x0 dx y0 dy nx x y i j (constant_of nd pa) in
  let d := corners Heights x0 dx y0 dy nx x y i j (depth_of nd) in
  exists D cs r, nth_error (adepth out) n = Some D /\ length (adepth out) = length pts /\
    nth_error (anames out) c = Some (read_name f) /\
    nth_error (aconst out) c = Some cs /\ length cs = length pts /\ nth_error cs n = Some r /\
    (complete d -> mean d <> None /\ open_depth D = mean d /\
       both (mean (part fst z)) (mean (part snd z)) <> None /\ reported t sc (mean d) (both (mean (part fst z)) (mean (part snd z))) r) /\
    (~ complete d -> open_depth D = None /\ r = None).
Proof.
  intros t sc fr g nd files pts out c f pa n p around x0 dx nx y0 dy ny x y i j Hn Hny G Fr H Hc Hpa Hf Hnum Hp Ex Ey Ri Ri1 Hj Bx By z d.
  destruct (atlas_inv _ _ _ _ _ _ _ _ _ _ _ _ _ _ _ _ _ _ _ _ _ Hn Hny G Fr H Hc Hpa Hf Hp) as (xi & b & hc & inv & D & cs & r & Hxi & Rb & Rh & Nb & Nh & O1 & O2 & O3 & O4 & O5 & O6 & O7 & O8 & O9).
  rewrite Ex, Ey in *. exists D, cs, r. repeat (split; [assumption|]). pose proof G as (Gx & Gy & Nx & Ny & Rd & Ga).
  assert (0 < dx) by apply Gx. assert (0 < dy) by apply Gy.
  destruct (bracket_le _ _ _ _ Bx) as [Bx1 Bx2]. destruct (bracket_le _ _ _ _ By) as [By1 By2].
  destruct (cell_inside FES around x0 dx nx y0 dy ny x y i j) as [I1 I2]; auto.
  rewrite (inside_nodes around x0 dx nx y0 dy ny) in O1 by auto. apply Ok_inj in O1 as <-.
  assert (Wi := proj2 (within_reached FES around nx i) Ri). assert (Wi1 := proj2 (within_reached FES around nx (i + 1)%Z) Ri1).
  assert (Bx' : bracket (i + 1 = Z.of_nat (nx + aft FES around) - 1)%Z (node_x Heights x0 dx i) (node_x Heights x0 dx (i + 1)) x).
  { destruct Bx as [Bx|[K Bx]]; [now left|right]. split; auto. unfold last_of, aft in *. destruct around; lia. }
  destruct (gst_spline (bef around) (aft FES around) nx ny x0 dx y0 dy xi (nlat nd) Hxi Gy Nx Ny 0 Rplus Rmult b (depth_of nd) x y i j Rb) as (v1 & m1 & E1 & C1 & N1); auto.
  { intros j' i' Hj' Hi'. rewrite Nb by auto. discriminate. }
  { intros j' i' Hj' Hi'. rewrite Nb by auto. unfold depth_at, depth_of, req. cbn [fst snd]. now destruct (Req_EM_T _ 0). }
  destruct (gst_spline (bef around) (aft FES around) nx ny x0 dx y0 dy xi (nlat nd) Hxi Gy Nx Ny (0, 0) cadd cscale hc (constant_of nd pa) x y i j Rh) as (v2 & m2 & E2 & C2 & N2); auto.
  { intros j' i' Hj' Hi'. rewrite Nh by auto. cbn [fst]. apply Hnum; auto. now apply column_lt. }
  { intros j' i' Hj' Hi'. rewrite Nh, Nb by auto. unfold depth_at, constant_of, depth_of, req. cbn [fst snd]. now destruct (Req_EM_T _ 0). }
  fold d in C1, N1. fold z in C2, N2.
  assert (Cz : complete d -> complete z).
  { intros K q Hq Hw. unfold z, corners in Hq. cbv zeta in Hq.
    assert (Cn : forall j i, (j < ny)%nat -> (i < nx)%nat -> depth_of nd j i <> None -> constant_of nd pa j i <> None).
    { intros j' i' Hj' Hi' Kd. unfold constant_of. destruct (depth_of nd j' i'); [now apply Hnum|congruence]. }
    unfold d, corners in K. cbv zeta in K.
    destruct Hq as [<-|[<-|[<-|[<-|[]]]]]; cbn [fst snd] in *; apply Cn; try lia; try (now apply column_lt).
    - apply (K (_, _) (or_introl eq_refl) Hw).
    - apply (K (_, _) (or_intror (or_introl eq_refl)) Hw).
    - apply (K (_, _) (or_intror (or_intror (or_introl eq_refl))) Hw).
    - apply (K (_, _) (or_intror (or_intror (or_intror (or_introl eq_refl)))) Hw). }
  unfold sounding, rspline in O2. rewrite E1 in O2. apply Ok_inj in O2 as <-.
  unfold atlas_constant, cspline in O3. match type of O3 with bind ?m _ = _ => replace m with (Ok (Some v2, m2)) in O3 by (symmetry; exact E2) end. cbn [bind] in O3. apply Ok_inj in O3 as <-.
  split.
  - intros K. destruct (C1 K) as [-> M1]. destruct (C2 (Cz K)) as [-> M2].
    assert (Md : mean d = Some v1).
    { rewrite <- (M1 (fun x => x) linear_real). f_equal. unfold part. rewrite <- (map_id d) at 1. apply map_ext. intros [w [v|]]; reflexivity. }
    rewrite (M2 fst linear_fst), (M2 snd linear_snd), Md. cbn [both]. split; [discriminate|]. split; [reflexivity|]. split; [discriminate|].
    apply value_reported; [discriminate|reflexivity|]. unfold gkept. cbn [fst snd orb is_nan]. now destruct v2.
  - intros K. rewrite (N1 K). split; [reflexivity|]. unfold atlas_value. cbn [snd]. now rewrite orb_true_r.
Qed.
Print Assumptions C71_spline.

(** ** C71: nothing is returned outside of the model *)
Theorem C71_outside : forall me t sc fr g nd files pts out c f pa n p around x0 dx nx y0 dy ny x y,
  nodes_for g t nd -> fny g = ny -> nodes_grid around x0 dx nx y0 dy ny nd -> framed fr (nlon nd) ->
  extract_atlas me t sc g files pts = Ok out ->
  nth_error files c = Some f -> parts_for f t (Some pa) -> file_grid nx ny f pa ->
  nth_error pts n = Some p -> placed fr (fst p) = x -> snd p = y ->
  x < node_x Heights x0 dx (first_of around) \/ node_x Heights x0 dx (last_of 1 around nx) < x \/
  y < node_y Heights y0 dy 0 \/ node_y Heights y0 dy (ny - 1) < y ->
  exists cs, nth_error (aconst out) c = Some cs /\ nth_error cs n = Some None.
Proof.
  intros me t sc fr g nd files pts out c f pa n p around x0 dx nx y0 dy ny x y Hn Hny G Fr H Hc Hpa Hf Hp Ex Ey Ho.
  destruct (atlas_inv _ _ _ _ _ _ _ _ _ _ _ _ _ _ _ _ _ _ _ _ _ Hn Hny G Fr H Hc Hpa Hf Hp) as (xi & b & hc & inv & D & cs & r & Hxi & Rb & Rh & Nb & Nh & O1 & O2 & O3 & O4 & O5 & O6 & O7 & O8 & O9).
  rewrite Ex, Ey in *. exists cs. split; auto. rewrite O9. f_equal. pose proof G as (Gx & Gy & Nx & Ny & Rd & Ga).
  destruct (st_axes (bef around) (aft FES around) nx ny x0 dx y0 dy xi (nlat nd) Hxi Gy Nx Ny) as [A1 A2].
  destruct (first_last_lon FES around x0 dx nx xi Nx Hxi) as [F1 F2]. destruct (first_last_lat y0 dy ny (nlat nd) Ny Gy) as [F3 F4]. cbn [behind] in F2.
  assert (N0 : node_y Heights y0 dy 0 = y0) by (unfold node_y; cbn [INR]; lra). rewrite N0 in Ho. unfold node_y in Ho.
  assert (I : outside_axes xi (nlat nd) (x, y) = Ok true).
  { unfold outside_axes. rewrite (axis_min _ A1), (axis_max _ A1), (axis_min _ A2), (axis_max _ A2). cbn [bind fst snd]. rewrite F1, F2, F3, F4. f_equal.
    destruct Ho as [K|[K|[K|K]]]; rewrite (rlt_t _ _ K), ?orb_true_r; reflexivity. }
  rewrite I in O1. apply Ok_inj in O1 as <-. unfold atlas_constant in O3. match type of O3 with bind ?m _ = _ => destruct m as [h|]; [|discriminate] end. cbn [bind] in O3. apply Ok_inj in O3 as <-.
  unfold atlas_value. now rewrite orb_true_r.
Qed.
Print Assumptions C71_outside.
