(** C71: constants that were read are changed by interpolating them, and points that get
    nothing from them. *)
From Coq Require Import Reals List Bool Arith ZArith Lra Lia.
From Verif Require Import PyBase RBase MathModel GeoModel ConvertProps GridModel InterpModel InterpProps ExtractModel ExtractSpec NodeProps ExtractProofs ExtractProps SplineProps ReturnProps MergeSpec MergeProps SeriesModel SeriesSpec SeriesProofs SeriesProps SeriesProps2 SeriesProps3 StretchProofs AtlasNcModel AtlasNcSpec AtlasNcProps AtlasNcProps2 AtlasNcProps3.
Import ListNotations.
Open Scope R_scope.

(** interpolating bilinearly again gives the same again *)
Theorem C71_repeat : forall t sc c pts out ds c', interpolate_atlas_constants Bilinear t sc c pts = Ok (out, ds, c') ->
  interpolate_atlas_constants Bilinear t sc c' pts = Ok (out, ds, c').
Proof.
  intros t sc c pts out ds c' H. assert (Ec : c' = AtlasTides (alon c) (alat c) (map (map sunk) (abath c)) (afields c)).
  { unfold interpolate_atlas_constants in H. destruct (adjust _ _); [|discriminate]. cbn [bind] in H. destruct (mapM (outside_axes _ _) _); [|discriminate]. cbn [bind] in H.
    destruct (mapM (sounding _ _ _ _) _); [|discriminate]. cbn [bind] in H. destruct t; try discriminate; match type of H with bind ?m _ = _ => destruct m; [|discriminate] end; cbn [bind] in H; congruence. }
  rewrite <- H at 1. subst c'. unfold interpolate_atlas_constants. cbn [alon alat abath afields].
  assert (E : map (map sunk) (map (map sunk) (abath c)) = map (map sunk) (abath c)).
  { rewrite map_map. apply map_ext. intros r. rewrite map_map. apply map_ext. apply sunk_twice. }
  rewrite E. reflexivity.
Qed.
Print Assumptions C71_repeat.
(** splines leave the constants as they were *)
Theorem C71_spline_keeps : forall t sc c pts out ds c', interpolate_atlas_constants Spline t sc c pts = Ok (out, ds, c') -> c' = c.
Proof.
  intros t sc c pts out ds c' H. unfold interpolate_atlas_constants in H. destruct (adjust _ _); [|discriminate]. cbn [bind] in H. destruct (mapM (outside_axes _ _) _); [|discriminate]. cbn [bind] in H.
  destruct (mapM (sounding _ _ _ _) _); [|discriminate]. cbn [bind] in H. destruct t; try discriminate; match type of H with bind ?m _ = _ => destruct m; [|discriminate] end; cbn [bind] in H; congruence.
Qed.
Print Assumptions C71_spline_keeps.

Lemma combine3_nth {A B C} (l : list A) (m : list B) (k : list C) n a b c : nth_error l n = Some a -> nth_error m n = Some b -> nth_error k n = Some c -> nth_error (combine l (combine m k)) n = Some (a, (b, c)).
Proof.
  revert m k n. induction l as [|x l IH]; intros m k n H1 H2 H3; [destruct n; discriminate|]. destruct m as [|y m]; [destruct n; discriminate|]. destruct k as [|z k]; [destruct n; discriminate|].
  destruct n as [|n]; cbn in *; [congruence|auto].
Qed.
Lemma read_atlas_axes t g nd files around x0 dx nx y0 dy ny c : nodes_for g t nd -> fny g = ny -> nodes_grid around x0 dx nx y0 dy ny nd -> read_atlas t g files = Ok c ->
  alat c = nlat nd /\ evenly (x0 - INR (bef around) * dx) dx (bef around + nx + aft FES around) (alon c) /\ rect ny (bef around + nx + aft FES around) (abath c) /\ length (afields c) = length files /\
  forall j i, (j < ny)%nat -> within (bef around) (aft FES around) nx i -> entry (None, true) (abath c) j (ec (bef around) i) = depth_at (entry 0 (ndepth nd) (column nx i) j).
Proof.
  intros Hn Hny G Hr. destruct (atlas_setup t g nd around x0 dx nx y0 dy ny Hn Hny G) as (xi & b & Exi & Eb & Hxi & Rb & Nb).
  rewrite (read_atlas_inv t g nd files around x0 dx nx y0 dy ny xi b) in Hr by auto. match type of Hr with bind ?m _ = _ => destruct m as [fs|] eqn:E; [|discriminate] end. cbn [bind] in Hr. apply Ok_inj in Hr as <-. cbn [alat alon abath afields].
  apply mapM_len in E. auto.
Qed.

Lemma parts_for_one f t p q : parts_for f t (Some p) -> parts_for f t (Some q) -> p = q.
Proof. intros H1 H2. inversion H1; inversion H2; congruence. Qed.

(** ** After interpolating bilinearly velocities are no longer found with splines on the
    edges of cells with land, where they were found before *)
Theorem C71_changed_refuted : forall t sc sc' fr g nd files pts pts' c out ds c0 bo bd c' out' ds' c'' k f pa n p around x0 dx nx y0 dy ny x y i j,
  nodes_for g t nd -> fny g = ny -> nodes_grid around x0 dx nx y0 dy ny nd -> framed fr (nlon nd) -> velocity t = true ->
  (forall f, In f files -> exists pa, parts_for f t (Some pa) /\ file_grid nx ny f pa /\ forall j i, (j < ny)%nat -> (i < nx)%nat -> number_of pa j i <> None) ->
  same_frame FES fr around x0 dx nx pts ->
  read_atlas t g files = Ok c ->
  interpolate_atlas_constants Spline t sc c pts = Ok (out, ds, c0) ->
  interpolate_atlas_constants Bilinear t sc' c pts' = Ok (bo, bd, c') ->
  interpolate_atlas_constants Spline t sc c' pts = Ok (out', ds', c'') ->
  nth_error files k = Some f -> parts_for f t (Some pa) -> file_grid nx ny f pa ->
  nth_error pts n = Some p -> placed fr (fst p) = x -> snd p = y ->
  reached 1 around nx i -> reached 1 around nx (i + 1) -> (S j < ny)%nat ->
  bracket (i + 1 = last_of 1 around nx)%Z (node_x Heights x0 dx i) (node_x Heights x0 dx (i + 1)) x ->
  bracket (S (S j) = ny) (node_y Heights y0 dy j) (node_y Heights y0 dy (S j)) y ->
  let d := corners Heights x0 dx y0 dy nx x y i j (depth_of nd) in
  complete d -> (exists w, In (w, None) d) ->
  exists cs cs' r, nth_error out k = Some cs /\ nth_error cs n = Some (Some r) /\ nth_error out' k = Some cs' /\ nth_error cs' n = Some None.
Proof.
  intros t sc sc' fr g nd files pts pts' c out ds c0 bo bd c' out' ds' c'' k f pa n p around x0 dx nx y0 dy ny x y i j Hn Hny G Fr Hv Hfs Hs Hr H1 H2 H3 Hk Hpa Hfg Hp Ex Ey Ri Ri1 Hj Bx By d Cd (w & Hw).
  (* before *)
  destruct (C71_read Spline t sc fr g nd files pts around x0 dx nx y0 dy ny Hn Hny G Fr) as (cc & Ecc & Sa); auto.
  { intros f' Hin. destruct (Hfs f' Hin) as (pa' & P1 & P2 & P3). exists pa'. auto. }
  rewrite Hr in Ecc. apply Ok_inj in Ecc as <-. unfold same_answers in Sa. rewrite H1 in Sa.
  destruct (extract_atlas Spline t sc g files pts) as [a|] eqn:Ea; [|destruct Sa]. destruct Sa as (Sa & _).
  assert (Hnum : forall j i, (j < ny)%nat -> (i < nx)%nat -> number_of pa j i <> None).
  { destruct (Hfs f (nth_error_In _ _ Hk)) as (pa' & P1 & _ & P3). assert (pa' = pa) as -> by now apply (parts_for_one f t). exact P3. }
  destruct (C71_spline t sc fr g nd files pts a k f pa n p around x0 dx nx y0 dy ny x y i j) as (D & cs & r & _ & _ & _ & O1 & _ & O2 & O3 & _); auto.
  destruct (O3 Cd) as (_ & _ & Bz & Rep). rewrite <- Sa in O1.
  assert (exists rr, r = Some rr) as (rr & ->).
  { unfold reported in Rep. destruct (both _ _) as [z|]; [|congruence]. destruct (O3 Cd) as (Dn & _). change (mean d <> None) in Dn. fold d in Rep. destruct (mean d); [|congruence]. destruct Rep as (am & ph & _ & ->). eauto. }
  (* after *)
  destruct (read_atlas_axes t g nd files around x0 dx nx y0 dy ny c Hn Hny G Hr) as (Elat & Hxi & Rb & Lf & Nb). pose proof G as (Gx & Gy & Nx & Ny & Rd & Ga).
  assert (Ec : c' = AtlasTides (alon c) (alat c) (map (map sunk) (abath c)) (afields c)).
  { unfold interpolate_atlas_constants in H2. destruct (adjust _ _); [|discriminate]. cbn [bind] in H2. destruct (mapM (outside_axes _ _) _); [|discriminate]. cbn [bind] in H2.
    destruct (mapM (sounding _ _ _ _) _); [|discriminate]. cbn [bind] in H2. destruct t; try discriminate; match type of H2 with bind ?m _ = _ => destruct m; [|discriminate] end; cbn [bind] in H2; congruence. }
  subst c'. clear H2. unfold interpolate_atlas_constants in H3. cbn [alon alat abath afields] in H3.
  assert (Hne : pts <> []) by (intros ->; destruct n; discriminate).
  rewrite (adjust_longer FES fr around x0 dx nx y0 dy ny _ (alon c) pts (nodes_as_sheet _ _ _ _ _ _ _ _ G) Fr Hxi Hne Hs) in H3. cbn [bind] in H3.
  destruct (mapM (outside_axes (alon c) (alat c)) _) as [inv|] eqn:Ei; [|discriminate]. cbn [bind] in H3.
  destruct (mapM (sounding Spline (alon c) (alat c) (map (map sunk) (abath c))) _) as [dd|] eqn:Ed; [|discriminate]. cbn [bind] in H3.
  assert (Ht : t <> Vother) by (destruct Hn; discriminate).
  assert (Hz : forall (X : Type) (u v : res X), match t with Vother => u | _ => v end = v) by (intros; destruct t; congruence). rewrite Hz in H3. rename H3 into H3'.
  match type of H3' with bind ?m _ = _ => destruct m as [oo|] eqn:Eo; [|discriminate] end. cbn [bind] in H3'. assert (oo = out') by congruence. subst oo. clear H3'.
  assert (exists fl, nth_error (afields c) k = Some fl) as (fl & Efl).
  { destruct (nth_error (afields c) k) as [fl|] eqn:E; eauto. apply nth_error_None in E. rewrite Lf in E. apply nth_error_None in E. congruence. }
  destruct (mapM_nth _ _ _ _ _ Eo Efl) as (cs' & E1 & E2).
  assert (Hq : nth_error (map (fun p => (placed fr (fst p), snd p)) pts) n = Some (x, y)) by (rewrite (map_nth_error _ _ _ Hp), Ex, Ey; reflexivity).
  destruct (mapM_nth _ _ _ _ _ Ei Hq) as (iv & _ & N1). destruct (mapM_nth _ _ _ _ _ Ed Hq) as (D' & E3 & N2).
  destruct (mapM_nth _ _ _ _ _ E1 (combine3_nth _ _ _ _ _ _ _ Hq N1 N2)) as (r' & E4 & N3). cbn beta iota in E4.
  exists cs, cs', rr. repeat (split; [assumption|]). rewrite N3. f_equal.
  (* the depth is no number *)
  assert (Dn : fst D' = None).
  { destruct (bracket_le _ _ _ _ Bx) as [Bx1 Bx2]. destruct (bracket_le _ _ _ _ By) as [By1 By2]. rewrite <- Elat in Gy.
    destruct (st_axes (bef around) (aft FES around) nx ny x0 dx y0 dy (alon c) (alat c) Hxi Gy Nx Ny) as [A1 A2]. destruct (st_lengths (bef around) (aft FES around) nx ny x0 dx y0 dy (alon c) (alat c) Hxi Gy) as [L1 L2].
    assert (Wi := proj2 (within_reached FES around nx i) Ri). assert (Wi1 := proj2 (within_reached FES around nx (i + 1)%Z) Ri1).
    assert (E5 := ec_lt (bef around) (aft FES around) nx _ Wi1). rewrite (ec_succ (bef around) (aft FES around) nx i Wi) in E5.
    assert (X0 := ec_x (bef around) (aft FES around) nx x0 dx (alon c) Hxi i Wi). assert (X1 := ec_x (bef around) (aft FES around) nx x0 dx (alon c) Hxi (i + 1)%Z Wi1). rewrite (ec_succ (bef around) (aft FES around) nx i Wi) in X1.
    assert (Y0 := row_y ny y0 dy (alat c) Gy j ltac:(lia)). assert (Y1 := row_y ny y0 dy (alat c) Gy (S j) ltac:(lia)).
    assert (Mx := axis_mono (alon c) (S (ec (bef around) i)) (length (alon c) - 1) A1 ltac:(lia)). assert (Mx0 := axis_mono (alon c) 0 (ec (bef around) i) A1 ltac:(lia)).
    assert (My := axis_mono (alat c) (S j) (length (alat c) - 1) A2 ltac:(lia)). assert (My0 := axis_mono (alat c) 0 j A2 ltac:(lia)).
    assert (Rx : Rmin (nth (length (alon c) - 1) (alon c) 0) x = x) by (apply Rmin_right; lra).
    assert (Ry : Rmin (nth (length (alat c) - 1) (alat c) 0) y = y) by (apply Rmin_right; lra).
    assert (Rb' : rect ny (bef around + nx + aft FES around) (map (map sunk) (abath c))) by now apply map_rect.
    assert (O := spline_eq 0 Rplus Rmult (alon c) (alat c) (map (map sunk) (abath c)) x y (ec (bef around) i) j A1 A2 ltac:(rewrite L1, L2; exact Rb') ltac:(lra) ltac:(lra) ltac:(lia) ltac:(lia)).
    cbv zeta in O. rewrite Rx, Ry, X0, X1, Y0, Y1 in O.
    specialize (O ltac:(destruct Bx as [K|[K1 K2]]; [now left|right; split; auto; unfold ec, within, last_of, bef, aft in *; destruct around; lia]) ltac:(rewrite L2; exact By)).
    rewrite <- (ec_succ (bef around) (aft FES around) nx i Wi) in O.
    rewrite !(map_entry sunk ny (bef around + nx + aft FES around) (abath c) (None, true)) in O by (auto; try lia; now apply ec_lt). rewrite !Nb in O by (auto; lia).
    unfold sounding, rspline in E3. rewrite O in E3. apply Ok_inj in E3. rewrite <- E3. cbn [fst forallb].
    assert (Sk : forall j i, match fst (sunk (depth_at (entry 0 (ndepth nd) i j))) with Some _ => true | None => false end = match depth_of nd j i with Some _ => true | None => false end).
    { intros j' i'. unfold sunk, depth_at, depth_of, req. cbn [fst snd]. destruct (Req_EM_T _ 0); reflexivity. }
    rewrite !Sk. unfold d, corners in Hw. cbv zeta in Hw.
    destruct Hw as [K|[K|[K|[K|[]]]]]; apply (f_equal snd) in K; cbn [snd] in K; rewrite K; rewrite ?andb_false_r; reflexivity. }
  clear - E4 Dn Hv. unfold atlas_constant in E4. match type of E4 with bind ?m _ = _ => destruct m as [h|]; [|discriminate] end. cbn [bind] in E4. apply Ok_inj in E4 as <-.
  unfold atlas_value. rewrite Dn. destruct (snd h || snd D' || iv); [reflexivity|]. destruct (fst h); [|reflexivity]. destruct t; try discriminate; reflexivity.
Qed.
Print Assumptions C71_changed_refuted.

(** ** Points given from 180 to 360 degrees get nothing from constants read all around the
    globe when the column added in the west starts below zero *)
Theorem C71_read_refuted : forall me t sc g nd files pts c out ds c' n p x0 dx nx y0 dy ny,
  nodes_for g t nd -> fny g = ny -> nodes_grid true x0 dx nx y0 dy ny nd ->
  x0 - dx < 0 -> (forall q, In q pts -> 0 <= fst q) ->
  read_atlas t g files = Ok c -> interpolate_atlas_constants me t sc c pts = Ok (out, ds, c') ->
  nth_error pts n = Some p -> 180 < fst p < 360 + (x0 - dx) ->
  length out = length files /\ forall cs, In cs out -> nth_error cs n = Some None.
Proof.
  intros me t sc g nd files pts c out ds c' n p x0 dx nx y0 dy ny Hn Hny G Hw Hp Hr Hi Hnp Hx'.
  destruct (read_atlas_axes t g nd files true x0 dx nx y0 dy ny c Hn Hny G Hr) as (Elat & Hxi & Rb & Lf & Nb). pose proof G as (Gx & Gy & Nx & Ny & Rd & Ga). rewrite <- Elat in Gy.
  destruct (st_axes (bef true) (aft FES true) nx ny x0 dx y0 dy (alon c) (alat c) Hxi Gy Nx Ny) as [A1 A2].
  destruct (first_last_lon FES true x0 dx nx (alon c) Nx Hxi) as [F1 F2].
  assert (F1' : nth 0 (alon c) 0 = x0 - dx) by (rewrite F1; unfold node_x, first_of; cbn; ring). assert (L : (0 < length (alon c))%nat) by (destruct Hxi as (_ & -> & _); lia).
  unfold interpolate_atlas_constants in Hi. rewrite (adjust_westward (alon c) pts) in Hi; auto.
  2:{ exists p. split; [now apply nth_error_In in Hnp|lra]. }
  2:{ exists (nth 0 (alon c) 0). split; [now apply nth_In|lra]. }
  cbn [bind] in Hi. destruct (mapM (outside_axes (alon c) (alat c)) _) as [inv|] eqn:Ei; [|discriminate]. cbn [bind] in Hi.
  match type of Hi with bind ?m _ = _ => destruct m as [dd|] eqn:Ed; [|discriminate] end. cbn [bind] in Hi.
  assert (Ht : t <> Vother) by (destruct Hn; discriminate).
  assert (Hz : forall (X : Type) (u v : res X), match t with Vother => u | _ => v end = v) by (intros; destruct t; congruence). rewrite Hz in Hi. rename Hi into Hi'.
  match type of Hi' with bind ?m _ = _ => destruct m as [oo|] eqn:Eo; [|discriminate] end. cbn [bind] in Hi'. assert (oo = out) by congruence. subst oo. clear Hi'.
  split; [rewrite (mapM_len _ _ _ Eo); exact Lf|]. intros cs Hcs. apply In_nth_error in Hcs as (k & Hk).
  assert (Hk' : (k < length (afields c))%nat) by (rewrite <- (mapM_len _ _ _ Eo); apply nth_error_Some; congruence). apply nth_error_Some in Hk'.
  destruct (nth_error (afields c) k) as [f|] eqn:Ef; [|congruence]. destruct (mapM_nth _ _ _ _ _ Eo Ef) as (cs' & E1 & E2). assert (cs' = cs) by congruence. subst cs'.
  assert (Hq : nth_error (map (fun p : R * R => (westward (fst p), snd p)) pts) n = Some (westward (fst p), snd p)) by (rewrite nth_error_map, Hnp; reflexivity).
  destruct (mapM_nth _ _ _ _ _ Ei Hq) as (iv & E3 & N1). destruct (mapM_nth _ _ _ _ _ Ed Hq) as (D' & _ & N2).
  destruct (mapM_nth _ _ _ _ _ E1 (combine3_nth _ _ _ _ _ _ _ Hq N1 N2)) as (r' & E4 & N3). cbn beta iota in E4. rewrite N3. f_equal.
  assert (Ew : westward (fst p) = fst p - 360) by (unfold westward; destruct (Rlt_dec 180 (fst p)); lra). rewrite Ew in E3.
  unfold outside_axes in E3. cbn [fst snd] in E3. rewrite (axis_min _ A1), (axis_max _ A1), (axis_min _ A2), (axis_max _ A2) in E3. cbn [bind] in E3. rewrite (rlt_t (fst p - 360)) in E3 by lra. cbn [orb] in E3. apply Ok_inj in E3 as <-.
  unfold atlas_constant in E4. match type of E4 with bind ?m _ = _ => destruct m as [h|]; [|discriminate] end. cbn [bind] in E4. apply Ok_inj in E4 as <-. unfold atlas_value. now rewrite orb_true_r.
Qed.
Print Assumptions C71_read_refuted.

(** a variable that the file does not have is refused *)
Theorem C71_missing : forall me t sc g files pts f out, In f files -> parts_for f t None -> extract_atlas me t sc g files pts <> Ok out.
Proof.
  intros me t sc g files pts f out Hin Hp H. unfold extract_atlas in H. destruct (read_netcdf_grid t g) as [[[lon lat] h]|]; [|discriminate]. cbn [bind] in H.
  repeat match type of H with bind ?m _ = _ => lazymatch m with mapM _ files => fail | _ => destruct m; [|discriminate]; cbn [bind] in H end end.
  match type of H with bind ?m _ = _ => destruct m as [o|] eqn:Eo; [|discriminate] end. apply In_nth_error in Hin as (k & Hk). destruct (mapM_nth _ _ _ _ _ Eo Hk) as (b & E & _).
  assert (K : read_netcdf_file t f = Err KeyError) by (remember None as no eqn:En; destruct Hp; unfold read_netcdf_file; rewrite En; reflexivity). rewrite K in E. discriminate.
Qed.
Print Assumptions C71_missing.
Theorem C71_other : forall me sc g files pts, extract_atlas me Vother sc g files pts = Err NameError.
Proof. reflexivity. Qed.
Print Assumptions C71_other.

(** ** Interpolating from what was read always returns, unless (bilinearly) a point is on
    the last column; one answer for each file and point. *)
Theorem C71_read_returns : forall me t sc g nd files pts c around x0 dx nx y0 dy ny,
  nodes_for g t nd -> fny g = ny -> nodes_grid around x0 dx nx y0 dy ny nd ->
  (forall f, In f files -> exists pa, parts_for f t (Some pa) /\ file_grid nx ny f pa) ->
  read_atlas t g files = Ok c -> pts <> [] ->
  (me = Bilinear -> forall p k, In p pts -> fst p + IZR k * 360 <> node_x Heights x0 dx (last_of 1 around nx)) ->
  exists out ds c', interpolate_atlas_constants me t sc c pts = Ok (out, ds, c') /\ length out = length files /\
    length ds = length pts /\ forall cs, In cs out -> length cs = length pts.
Proof.
  intros me t sc g nd files pts c around x0 dx nx y0 dy ny Hn Hny G Hf Hr Hne Hl.
  destruct (read_atlas_axes t g nd files around x0 dx nx y0 dy ny c Hn Hny G Hr) as (Elat & Hxi & Rb & Lf & Nb). pose proof G as (Gx & Gy & Nx & Ny & Rd & Ga). rewrite <- Elat in Gy.
  assert (Rf : forall f, In f (afields c) -> rect ny (bef around + nx + aft FES around) (fst f)).
  { destruct (atlas_setup t g nd around x0 dx nx y0 dy ny Hn Hny G) as (xi & b & Exi & Eb & Hxi' & Rb' & Nb').
    rewrite (read_atlas_inv t g nd files around x0 dx nx y0 dy ny xi b) in Hr by auto. match type of Hr with bind ?m _ = _ => destruct m as [fs|] eqn:E; [|discriminate] end. cbn [bind] in Hr. apply Ok_inj in Hr as <-. cbn [afields].
    intros f Hin. apply In_nth_error in Hin as (k & Hk). assert (Hk' : (k < length files)%nat) by (rewrite <- (mapM_len _ _ _ E); apply nth_error_Some; congruence). apply nth_error_Some in Hk'.
    destruct (nth_error files k) as [fl|] eqn:Ef; [|congruence]. destruct (mapM_nth _ _ _ _ _ E Ef) as (f' & E1 & E2). assert (f' = f) by congruence. subst f'.
    destruct (Hf fl) as (pa & Hpa & Hfg); [now apply nth_error_In in Ef|]. destruct (atlas_file t fl pa around nx ny b Hpa Hfg Nx Rb') as (r & e & hc & Er & Ee & Eh & Rh & _).
    rewrite Er in E1. cbn [bind fst] in E1. rewrite Ee in E1. cbn [bind] in E1. rewrite Eh in E1. cbn [bind] in E1. apply Ok_inj in E1 as <-. exact Rh. }
  destruct (adjust_ok (alon c) pts) as (pts' & Ea); auto. { intros K. destruct Hxi as (_ & L & _). rewrite K in L. cbn in L. lia. }
  assert (Sh : length pts' = length pts /\ forall q, In q pts' -> exists p k, In p pts /\ fst q = fst p + IZR k * 360).
  { unfold adjust in Ea. destruct (amin (map fst pts)); [|discriminate]. cbn [bind] in Ea. destruct (amax (map fst pts)); [|discriminate]. cbn [bind] in Ea. destruct (amin (alon c)); [|discriminate]. cbn [bind] in Ea. destruct (amax (alon c)); [|discriminate]. cbn [bind] in Ea. apply Ok_inj in Ea as <-.
    assert (Z0 : forall p : R * R, In p pts -> exists p' k, In p' pts /\ fst p = fst p' + IZR k * 360) by (intros p Hp; exists p, 0%Z; split; [auto|lra]).
    destruct (rlt _ 0 && _); [|destruct (rlt 180 _ && _)]; rewrite ?map_length; (split; [reflexivity|]); auto; intros q Hq; apply in_map_iff in Hq as (p & <- & Hp); cbn [fst];
      match goal with |- context [if ?b then _ else _] => destruct b end; auto.
    - exists p, 1%Z. split; [auto|lra].
    - exists p, (-1)%Z. split; [auto|lra]. }
  destruct Sh as [Lp Sh]. assert (Hl' : forall q, In q pts' -> me = Bilinear -> fst q <> node_x Heights x0 dx (last_of 1 around nx)).
  { intros q Hq Km. destruct (Sh q Hq) as (p & k & Hp & ->). now apply Hl. }
  unfold interpolate_atlas_constants. rewrite Ea. cbn [bind].
  destruct (mapM_ok (outside_axes (alon c) (alat c)) pts') as (inv & Ei). { intros q _. apply (outside_ok around x0 dx nx y0 dy ny); auto. }
  rewrite Ei. cbn [bind]. set (c' := match me with Bilinear => _ | Spline => _ end).
  assert (Rc : rect ny (bef around + nx + aft FES around) (abath c')) by (subst c'; destruct me; cbn [abath]; [now apply map_rect|exact Rb] || (try exact Rb; now apply map_rect)).
  destruct (mapM_ok (sounding me (alon c) (alat c) (abath c')) pts') as (ds & Ed). { intros q Hq. apply (sounding_ok around x0 dx nx y0 dy ny); auto. }
  rewrite Ed. cbn [bind]. assert (Hz : forall (X : Type) (u v : res X), match t with Vother => u | _ => v end = v) by (destruct Hn; reflexivity). rewrite Hz.
  match goal with |- exists _ _ _, bind (mapM ?F (afields c)) _ = _ /\ _ => destruct (mapM_ok F (afields c)) as (out & Eo) end.
  - intros f Hin. apply mapM_ok. intros [q [i D]] Hq. apply in_combine_l in Hq. apply (atlas_constant_ok around x0 dx nx y0 dy ny); auto. destruct me; try (apply map_rect); now apply Rf.
  - rewrite Eo. cbn [bind]. exists out, ds, c'. split; [reflexivity|]. split; [rewrite (mapM_len _ _ _ Eo); exact Lf|]. split; [rewrite (mapM_len _ _ _ Ed); exact Lp|].
    intros cs Hcs. apply In_nth_error in Hcs as (k & Hk). assert (Hk' : (k < length (afields c))%nat) by (rewrite <- (mapM_len _ _ _ Eo); apply nth_error_Some; congruence). apply nth_error_Some in Hk'.
    destruct (nth_error (afields c) k) as [f|] eqn:Ef; [|congruence]. destruct (mapM_nth _ _ _ _ _ Eo Ef) as (cs' & E1 & E2). assert (cs' = cs) by congruence. subst cs'.
    rewrite (mapM_len _ _ _ E1), !combine_length, (mapM_len _ _ _ Ei), (mapM_len _ _ _ Ed), Lp. lia.
Qed.
Print Assumptions C71_read_returns.
