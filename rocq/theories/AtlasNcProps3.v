(** C71: when constants are returned from ATLAS netCDF files, and reading them before
    interpolating. *)
From Coq Require Import Reals List Bool Arith ZArith Lra Lia.
From Verif Require Import PyBase RBase MathModel GeoModel ConvertProps GridModel InterpModel InterpProps ExtractModel ExtractSpec NodeProps ExtractProofs ExtractProps SplineProps ReturnProps MergeSpec MergeProps SeriesModel SeriesSpec SeriesProofs SeriesProps SeriesProps2 SeriesProps3 StretchProofs AtlasNcModel AtlasNcSpec AtlasNcProps AtlasNcProps2.
Import ListNotations.
Open Scope R_scope.

(** ** Extraction succeeds, except bilinearly for a point on the last column *)
Lemma mapM_ok {A B} (f : A -> res B) l : (forall a, In a l -> exists b, f a = Ok b) -> exists l', mapM f l = Ok l'.
Proof.
  induction l as [|a l IH]; intros H; [exists []; reflexivity|]. destruct (H a (or_introl eq_refl)) as (b & E). destruct IH as (l' & E'); [intros; apply H; now right|].
  exists (b :: l'). cbn [mapM]. rewrite E. cbn [bind]. now rewrite E'.
Qed.
Lemma mapM_two {A B C D} (R : A -> res (B * D)) (F : A -> res (C * D)) (H : B * D -> res C) l ps : mapM R l = Ok ps ->
  (forall a p, In a l -> R a = Ok p -> F a = (do c <- H p ;; Ok (c, snd p))) -> mapM F l = (do cs <- mapM H ps ;; Ok (combine cs (map snd ps))).
Proof.
  revert ps. induction l as [|a l IH]; intros ps E K; [apply Ok_inj in E as <-; reflexivity|]. cbn [mapM] in E. destruct (R a) as [p|] eqn:Ea; [|discriminate]. cbn [bind] in E.
  destruct (mapM R l) as [ps'|]; [|discriminate]. cbn [bind] in E. apply Ok_inj in E as <-. cbn [mapM]. rewrite (K a p (or_introl eq_refl) Ea). rewrite (IH ps' eq_refl) by (intros; apply K; auto; now right).
  destruct (H p); [|reflexivity]. cbn [bind]. destruct (mapM H ps'); reflexivity.
Qed.
Lemma nodes_as_sheet around x0 dx nx y0 dy ny n : nodes_grid around x0 dx nx y0 dy ny n ->
  sheet_grid around x0 dx nx y0 dy ny (Sheet (nlon n) (nlat n) (repeat (repeat (None, true) nx) ny)).
Proof.
  intros (Ex & Ey & Hx & Hy & Rd & H). repeat (split; [assumption|]). split; auto. split; [apply repeat_length|]. intros r Hr. apply repeat_spec in Hr. subst r. apply repeat_length.
Qed.
Section OneGrid.
  Variables (around : bool) (x0 dx : R) (nx : nat) (y0 dy : R) (ny : nat) (xi yi : list R).
  Hypothesis Hxi : evenly (x0 - INR (bef around) * dx) dx (bef around + nx + aft FES around) xi.
  Hypothesis Hyi : evenly y0 dy ny yi.
  Hypothesis Nx : (2 <= nx)%nat.
  Hypothesis Ny : (2 <= ny)%nat.
  Let axes := st_axes (bef around) (aft FES around) nx ny x0 dx y0 dy xi yi Hxi Hyi Nx Ny.
  Let lengths := st_lengths (bef around) (aft FES around) nx ny x0 dx y0 dy xi yi Hxi Hyi.
  Lemma outside_ok q : exists b, outside_axes xi yi q = Ok b.
  Proof. destruct axes as [A1 A2]. unfold outside_axes. rewrite (axis_min _ A1), (axis_max _ A1), (axis_min _ A2), (axis_max _ A2). cbn [bind]. eauto. Qed.
  Lemma point_ok {V} (vzero : V) vadd vscale me fd q : rect ny (bef around + nx + aft FES around) fd ->
    (me = Bilinear -> fst q <> node_x Heights x0 dx (last_of 1 around nx)) ->
    exists h, match me with Bilinear => gbilinear_point vzero vadd vscale xi yi fd q | Spline => gspline_point vzero vadd vscale xi yi fd q end = Ok h.
  Proof.
    intros Rf Hl. destruct axes as [A1 A2]. destruct lengths as [L1 L2]. destruct (first_last_lon FES around x0 dx nx xi Nx Hxi) as [F1 F2]. cbn [behind] in F2. destruct me, q as [x y].
    - apply bilinear_total; auto; [now rewrite L1, L2|]. rewrite F2. now apply Hl.
    - apply spline_total; auto. now rewrite L1, L2.
  Qed.
  Lemma sounding_ok me b q : rect ny (bef around + nx + aft FES around) b -> (me = Bilinear -> fst q <> node_x Heights x0 dx (last_of 1 around nx)) -> exists D, sounding me xi yi b q = Ok D.
  Proof.
    intros Rb Hl. destruct (point_ok 0 Rplus Rmult me b q Rb Hl) as (h & E). unfold sounding, rbilinear, rspline. destruct me; [|eauto]. rewrite E. cbn [bind]. eauto.
  Qed.
  Lemma atlas_constant_ok me sc t q D inv hc : rect ny (bef around + nx + aft FES around) hc -> (me = Bilinear -> fst q <> node_x Heights x0 dx (last_of 1 around nx)) -> exists r, atlas_constant me sc xi yi t q D inv hc = Ok r.
  Proof.
    intros Rb Hl. destruct (point_ok (0, 0) cadd cscale me hc q Rb Hl) as (h & E). unfold atlas_constant, cbilinear, cspline.
    match goal with |- exists r, bind ?m _ = _ => replace m with (Ok h) by (symmetry; exact E) end. cbn [bind]. eauto.
  Qed.
End OneGrid.

Theorem C71_returns : forall me t sc fr g nd files pts around x0 dx nx y0 dy ny,
  nodes_for g t nd -> fny g = ny -> nodes_grid around x0 dx nx y0 dy ny nd -> framed fr (nlon nd) ->
  (forall f, In f files -> exists pa, parts_for f t (Some pa) /\ file_grid nx ny f pa) ->
  pts <> [] -> (me = Bilinear -> forall p, In p pts -> placed fr (fst p) <> node_x Heights x0 dx (last_of 1 around nx)) ->
  exists out, extract_atlas me t sc g files pts = Ok out /\ length (aconst out) = length files /\ length (anames out) = length files.
Proof.
  intros me t sc fr g nd files pts around x0 dx nx y0 dy ny Hn Hny G Fr Hf Hne Hl.
  destruct (atlas_setup t g nd around x0 dx nx y0 dy ny Hn Hny G) as (xi & b & Exi & Eb & Hxi & Rb & Nb). pose proof G as (Gx & Gy & Nx & Ny & Rd & Ga).
  unfold extract_atlas, read_netcdf_grid. rewrite (nodes_for_eq t g nd Hn). cbn [bind].
  assert (exists mn, amin (map fst pts) = Ok mn) as (mn & ->) by (destruct pts; [congruence|cbn; eauto]). cbn [bind]. rewrite (evenly_spacing x0 dx nx) by auto. cbn [bind].
  destruct (adjust_ok (nlon nd) pts) as (pts' & Ea); auto. { intros K. destruct Gx as (_ & L & _). rewrite K in L. cbn in L. lia. }
  rewrite Ea. cbn [bind]. rewrite (around_nodes _ _ _ _ _ _ _ _ G). rewrite Exi, Eb. cbn [bind]. apply (adjust_placed fr) in Ea; auto.
  assert (Hl' : forall q, In q pts' -> me = Bilinear -> fst q <> node_x Heights x0 dx (last_of 1 around nx)).
  { subst pts'. intros q Hq Km. apply in_map_iff in Hq as (p & <- & Hin). cbn [fst]. now apply Hl. } clear Ea.
  destruct (mapM_ok (outside_axes xi (nlat nd)) pts') as (inv & ->). { intros q _. apply (outside_ok around x0 dx nx y0 dy ny); auto. }
  cbn [bind]. destruct (mapM_ok (sounding me xi (nlat nd) b) pts') as (ds & ->). { intros q Hq. apply (sounding_ok around x0 dx nx y0 dy ny); auto. }
  cbn [bind]. match goal with |- exists out, bind (mapM ?F files) _ = _ /\ _ => destruct (mapM_ok F files) as (o & Eo) end.
  - intros f Hin. destruct (Hf f Hin) as (pa & Hpa & Hfg). destruct (atlas_file t f pa around nx ny b Hpa Hfg Nx Rb) as (r & e & hc & -> & Ee & Eh & Rh & _).
    cbn [bind fst]. rewrite Ee. cbn [bind]. rewrite Eh. cbn [bind].
    match goal with |- exists bb, bind (mapM ?F ?l) _ = _ => destruct (mapM_ok F l) as (cs & ->) end; [|cbn [bind]; eauto].
    intros [q [i D]] Hq. apply in_combine_l in Hq. apply (atlas_constant_ok around x0 dx nx y0 dy ny); auto.
  - rewrite Eo. cbn [bind]. eexists. split; [reflexivity|]. cbn [aconst anames]. now rewrite !map_length, (mapM_len _ _ _ Eo).
Qed.
Print Assumptions C71_returns.

Theorem C71_last_column_refuted : forall t sc fr g nd files pts p around x0 dx nx y0 dy ny,
  nodes_for g t nd -> fny g = ny -> nodes_grid around x0 dx nx y0 dy ny nd -> framed fr (nlon nd) ->
  In p pts -> placed fr (fst p) = node_x Heights x0 dx (last_of 1 around nx) -> node_y Heights y0 dy 0 < snd p < node_y Heights y0 dy (ny - 1) ->
  exists e, extract_atlas Bilinear t sc g files pts = Err e.
Proof.
  intros t sc fr g nd files pts p around x0 dx nx y0 dy ny Hn Hny G Fr Hin Hx' Hy'.
  destruct (extract_atlas Bilinear t sc g files pts) as [out|e] eqn:H; [|eauto]. exfalso.
  destruct (atlas_setup t g nd around x0 dx nx y0 dy ny Hn Hny G) as (xi & b & Exi & Eb & Hxi & Rb & Nb). pose proof G as (Gx & Gy & Nx & Ny & Rd & Ga).
  unfold extract_atlas, read_netcdf_grid in H. rewrite (nodes_for_eq t g nd Hn) in H. cbn [bind] in H.
  destruct (amin (map fst pts)); [|discriminate]. cbn [bind] in H. rewrite (evenly_spacing x0 dx nx) in H by auto. cbn [bind] in H.
  destruct (adjust (nlon nd) pts) as [pts'|] eqn:Ea; [|discriminate]. cbn [bind] in H. rewrite (around_nodes _ _ _ _ _ _ _ _ G) in H. rewrite Exi, Eb in H. cbn [bind] in H.
  destruct (mapM (outside_axes xi (nlat nd)) pts') as [inv|] eqn:Ei; [|discriminate]. cbn [bind] in H.
  destruct (mapM (sounding Bilinear xi (nlat nd) b) pts') as [ds|] eqn:Ed; [|discriminate]. clear H.
  apply (adjust_placed fr) in Ea; auto. subst pts'. apply In_nth_error in Hin as (n & Hin).
  assert (Hq : nth_error (map (fun p => (placed fr (fst p), snd p)) pts) n = Some (placed fr (fst p), snd p)) by now apply (map_nth_error (fun p => (placed fr (fst p), snd p))).
  destruct (mapM_nth _ _ _ _ _ Ed Hq) as (D & E2 & _).
  destruct (st_axes (bef around) (aft FES around) nx ny x0 dx y0 dy xi (nlat nd) Hxi Gy Nx Ny) as [A1 A2].
  destruct (first_last_lon FES around x0 dx nx xi Nx Hxi) as [F1 F2]. cbn [behind] in F2. destruct (first_last_lat y0 dy ny (nlat nd) Ny Gy) as [F3 F4].
  unfold sounding in E2. rewrite Hx', <- F2 in E2. unfold rbilinear, gbilinear_point in E2. rewrite (axis_min _ A1), (axis_max _ A1), (axis_min _ A2), (axis_max _ A2) in E2. cbn [bind] in E2.
  rewrite (rle_t (nth 0 xi 0)) in E2 by (apply axis_mono; auto; destruct A1; lia). rewrite (rle_t (nth (length xi - 1) xi 0)) in E2 by lra.
  unfold node_y in Hy'. cbn [INR] in Hy'. rewrite F3, F4 in E2. rewrite (rlt_t y0), (rlt_t (snd p)) in E2 by lra. cbn [andb] in E2.
  unfold gbilinear_inside in E2. rewrite brackets_last in E2 by auto. discriminate.
Qed.
Print Assumptions C71_last_column_refuted.

(** ** Numbers under masks do not matter for the bilinear interpolation *)
Definition alike {V} (a b : res (gcell V)) : Prop :=
  match a, b with Ok h, Ok h' => gkept h = gkept h' | Err e, Err e' => e = e' | _, _ => False end.
Lemma bilinear_alike {V} (vzero : V) vadd vscale (f : gcell V -> gcell V) xi yi g q :
  (forall c, gusable (f c) = gusable c) -> (forall c, gusable c = true -> f c = c) ->
  alike (gbilinear_point vzero vadd vscale xi yi g q) (gbilinear_point vzero vadd vscale xi yi (map (map f) g) q).
Proof.
  intros F1 F2. assert (Fk : forall c, gkept c = gkept (f c)).
  { intros c. specialize (F1 c). specialize (F2 c). rewrite !gkept_value. unfold value_of. rewrite F1. destruct (gusable c) eqn:E; [now rewrite F2|reflexivity]. }
  assert (Fw : forall l, gweighted vzero vadd vscale (map (fun p : gcell V * R => (f (fst p), snd p)) l) = gweighted vzero vadd vscale l).
  { intros l. unfold gweighted. assert (E : filter (fun p : gcell V * R => gusable (fst p)) (map (fun p => (f (fst p), snd p)) l) = filter (fun p : gcell V * R => gusable (fst p)) l).
    { induction l as [|[c w] l IH]; [reflexivity|]. cbn [map filter fst snd]. rewrite F1. destruct (gusable c) eqn:K; [now rewrite F2, IH|exact IH]. }
    now rewrite E. }
  destruct q as [lon lat]. unfold gbilinear_point.
  destruct (amin xi); [|reflexivity]. cbn [bind]. destruct (amax xi); [|reflexivity]. cbn [bind]. destruct (amin yi); [|reflexivity]. cbn [bind]. destruct (amax yi); [|reflexivity]. cbn [bind].
  match goal with |- context [if ?b then _ else _] => destruct b; [|reflexivity] end. unfold gbilinear_inside.
  destruct (single (brackets 0 xi lon)) as [ix|]; [|reflexivity]. cbn [bind]. destruct (single (brackets 0 yi lat)) as [iy|]; [|reflexivity]. cbn [bind].
  destruct (get1 xi ix) as [xa|]; [|reflexivity]. cbn [bind]. destruct (get1 xi (S ix)) as [xb|]; [|reflexivity]. cbn [bind].
  destruct (get1 yi iy) as [ya|]; [|reflexivity]. cbn [bind]. destruct (get1 yi (S iy)) as [yb|]; [|reflexivity]. cbn [bind].
  rewrite !gget2_map.
  destruct (gget2 g iy ix) as [c00|]; [|reflexivity]. cbn [bind]. destruct (gget2 g iy (S ix)) as [c01|]; [|reflexivity]. cbn [bind].
  destruct (gget2 g (S iy) ix) as [c10|]; [|reflexivity]. cbn [bind]. destruct (gget2 g (S iy) (S ix)) as [c11|]; [|reflexivity]. cbn [bind].
  repeat match goal with |- context [if ?b && ?c then _ else _] => destruct (b && c); [apply Fk|] end.
  cbn [existsb fst]. rewrite !F1. match goal with |- context [if ?b then _ else _] => destruct b; [|reflexivity] end.
  match goal with |- context [gweighted _ _ _ [(f ?c00, ?w00); (f ?c01, ?w01); (f ?c10, ?w10); (f ?c11, ?w11)]] =>
    pose proof (Fw [(c00, w00); (c01, w01); (c10, w10); (c11, w11)]) as E end. cbn [map fst snd] in E. now rewrite E.
Qed.
Lemma sunk_usable c : gusable (sunk c) = gusable c.
Proof. unfold sunk, gusable. destruct c as [[v|] []]; reflexivity. Qed.
Lemma sunk_same c : gusable c = true -> sunk c = c.
Proof. unfold sunk, gusable. destruct c as [[v|] []]; cbn; auto; discriminate. Qed.
Lemma sunk_twice c : sunk (sunk c) = sunk c.
Proof. unfold sunk. destruct c as [[v|] []]; reflexivity. Qed.
Lemma sounding_sunk xi yi b q :
  match sounding Bilinear xi yi b q, sounding Bilinear xi yi (map (map sunk) b) q with
  | Ok D, Ok D' => snd D = snd D' /\ open_depth D = open_depth D'
  | Err e, Err e' => e = e'
  | _, _ => False
  end.
Proof.
  pose proof (bilinear_alike 0 Rplus Rmult sunk xi yi b q sunk_usable sunk_same) as A. unfold sounding, rbilinear, alike in *.
  destruct (gbilinear_point 0 Rplus Rmult xi yi b q) as [h|e], (gbilinear_point 0 Rplus Rmult xi yi (map (map sunk) b) q) as [h'|e']; cbn [bind]; auto.
  unfold gkept, open_depth in *. cbn [fst snd]. destruct (snd h || is_nan h) eqn:K1, (snd h' || is_nan h') eqn:K2; auto.
  - apply orb_false_elim in K2 as [_ K2]. unfold is_nan in K2. rewrite <- A in K2. discriminate.
  - apply orb_false_elim in K1 as [_ K1]. unfold is_nan in K1. rewrite A in K1. discriminate.
Qed.
(** values depend on the depth there is only *)
Lemma atlas_value_depth t sc D D' inv h : snd D = snd D' -> open_depth D = open_depth D' -> atlas_value t sc D inv h = atlas_value t sc D' inv h.
Proof.
  intros E1 E2. unfold atlas_value, open_depth in *. rewrite <- E1 in *. destruct (snd h || snd D || inv) eqn:K; [reflexivity|].
  assert (Ed : snd D = false) by (destruct (snd D); auto; rewrite orb_true_r in K; discriminate). rewrite Ed in E2. unfold convert, gnumber. now rewrite E2.
Qed.
Lemma atlas_value_settled t sc D inv h h' : settled Spline 1 false h = settled Spline 1 false h' -> atlas_value t sc D inv h = atlas_value t sc D inv h'.
Proof.
  unfold settled, atlas_value. rewrite !orb_false_r. intros E. destruct h as [[z|] []], h' as [[z'|] []]; cbn [fst snd orb] in *; try discriminate; destruct (snd D || inv); auto.
  injection E as E1 E2. rewrite !Rmult_1_r in E1. destruct t; unfold convert; rewrite E1, E2; reflexivity.
Qed.

(** ** Reading first and interpolating then gives the same *)
Definition same_answers (a : res answer) (b : res (list (list (option (R * R))) * list (gcell R) * atlas_tides)) : Prop :=
  match a, b with
  | Ok a, Ok (cs, ds, c) => cs = aconst a /\ map open_depth ds = map open_depth (adepth a) /\ map snd (afields c) = anames a
  | Err e, Err e' => e = e'
  | _, _ => False
  end.
Lemma read_atlas_inv t g nd files around x0 dx nx y0 dy ny xi b : nodes_for g t nd -> nodes_grid around x0 dx nx y0 dy ny nd ->
  (if around then extend_axis (nlon nd) dx else Ok (nlon nd)) = Ok xi -> extend_if around (map (map depth_at) (transposed 0 (fny g) (ndepth nd))) = Ok b ->
  read_atlas t g files = (do fs <- mapM (fun f => do r <- read_netcdf_file t f ;; do e <- extend_if around (fst r) ;; do hc <- remask b e ;; Ok (hc, snd r)) files ;; Ok (AtlasTides xi (nlat nd) b fs)).
Proof.
  intros Hn G Exi Eb. pose proof G as (Gx & Gy & Nx & Ny & Rd & Ga). unfold read_atlas, read_netcdf_grid. rewrite (nodes_for_eq t g nd Hn). cbn [bind].
  rewrite (evenly_spacing x0 dx nx) by auto. cbn [bind]. rewrite (around_nodes _ _ _ _ _ _ _ _ G), Exi, Eb. reflexivity.
Qed.
Theorem C71_read : forall me t sc fr g nd files pts around x0 dx nx y0 dy ny,
  nodes_for g t nd -> fny g = ny -> nodes_grid around x0 dx nx y0 dy ny nd -> framed fr (nlon nd) ->
  (forall f, In f files -> exists pa, parts_for f t (Some pa) /\ file_grid nx ny f pa /\
     (me = Spline -> forall j i, (j < ny)%nat -> (i < nx)%nat -> number_of pa j i <> None)) ->
  same_frame FES fr around x0 dx nx pts ->
  exists c, read_atlas t g files = Ok c /\ same_answers (extract_atlas me t sc g files pts) (interpolate_atlas_constants me t sc c pts).
Proof.
  intros me t sc fr g nd files pts around x0 dx nx y0 dy ny Hn Hny G Fr Hf Hs.
  destruct (atlas_setup t g nd around x0 dx nx y0 dy ny Hn Hny G) as (xi & b & Exi & Eb & Hxi & Rb & Nb). pose proof G as (Gx & Gy & Nx & Ny & Rd & Ga).
  rewrite (read_atlas_inv t g nd files around x0 dx nx y0 dy ny xi b) by auto.
  match goal with |- exists c, bind (mapM ?F files) _ = _ /\ _ => destruct (mapM_ok F files) as (fs & Efs) end.
  { intros f Hin. destruct (Hf f Hin) as (pa & Hpa & Hfg & _). destruct (atlas_file t f pa around nx ny b Hpa Hfg Nx Rb) as (r & e & hc & -> & Ee & Eh & _).
    cbn [bind fst]. rewrite Ee. cbn [bind]. rewrite Eh. cbn [bind]. eauto. }
  rewrite Efs. cbn [bind]. eexists. split; [reflexivity|].
  destruct pts as [|q0 t0] eqn:Ept.
  { unfold extract_atlas, read_netcdf_grid. rewrite (nodes_for_eq t g nd Hn). reflexivity. }
  rewrite <- Ept in *. assert (Hne : pts <> []) by (rewrite Ept; discriminate).
  unfold interpolate_atlas_constants. cbn [alon alat abath afields].
  rewrite (adjust_longer FES fr around x0 dx nx y0 dy ny _ xi pts (nodes_as_sheet _ _ _ _ _ _ _ _ G) Fr Hxi Hne Hs). cbn [bind].
  unfold extract_atlas, read_netcdf_grid. rewrite (nodes_for_eq t g nd Hn). cbn [bind].
  assert (exists mn, amin (map fst pts) = Ok mn) as (mn & ->) by (rewrite Ept; cbn; eauto). cbn [bind]. rewrite (evenly_spacing x0 dx nx) by auto. cbn [bind].
  destruct (adjust_ok (nlon nd) pts) as (pts' & Ea); auto. { intros K. destruct Gx as (_ & L & _). rewrite K in L. cbn in L. lia. }
  rewrite Ea. cbn [bind]. rewrite (around_nodes _ _ _ _ _ _ _ _ G). rewrite Exi, Eb. cbn [bind]. apply (adjust_placed fr) in Ea; auto. rewrite <- Ea.
  destruct (mapM_ok (outside_axes xi (nlat nd)) pts') as (inv & Einv). { intros q _. apply (outside_ok around x0 dx nx y0 dy ny); auto. }
  rewrite Einv. cbn [bind].
  assert (Hz : forall (T : variable), T <> Vother -> forall (X : Type) (u v : res X), match T with Vother => u | _ => v end = v) by (intros []; congruence).
  assert (Ht : t <> Vother) by (destruct Hn; discriminate).
  (* the depths *)
  assert (Sd : match mapM (sounding me xi (nlat nd) b) pts', mapM (sounding me xi (nlat nd) (abath (match me with Bilinear => AtlasTides xi (nlat nd) (map (map sunk) b) fs | Spline => AtlasTides xi (nlat nd) b fs end))) pts' with
    | Ok ds, Ok ds' => map snd ds = map snd ds' /\ map open_depth ds = map open_depth ds'
    | Err e, Err e' => e = e' | _, _ => False end).
  { destruct me; cbn [abath].
    - clear. induction pts' as [|q l IH]; [split; reflexivity|]. cbn [mapM]. pose proof (sounding_sunk xi (nlat nd) b q) as S1.
      destruct (sounding Bilinear xi (nlat nd) b q) as [D|], (sounding Bilinear xi (nlat nd) (map (map sunk) b) q) as [D'|]; cbn [bind]; auto; [|destruct S1|destruct S1].
      destruct (mapM (sounding Bilinear xi (nlat nd) b) l) as [ds|], (mapM (sounding Bilinear xi (nlat nd) (map (map sunk) b)) l) as [ds'|]; cbn [bind]; auto.
      destruct S1 as [S1 S2], IH as [I1 I2]. cbn [map]. now rewrite S1, S2, I1, I2.
    - destruct (mapM (sounding Spline xi (nlat nd) b) pts'); auto. }
  destruct (mapM (sounding me xi (nlat nd) b) pts') as [ds|e] eqn:Eds;
    match type of Sd with context [mapM (sounding me xi (nlat nd) ?bb) pts'] => destruct (mapM (sounding me xi (nlat nd) bb) pts') as [ds'|e'] eqn:Eds' end; try (destruct Sd; fail).
  2:{ cbn [bind]. exact Sd. }
  destruct Sd as [Sd1 Sd2]. cbn [bind]. rewrite Hz by auto.
  (* the constants of one file *)
  match goal with |- same_answers (bind (mapM ?F files) _) (bind (mapM ?H fs) _) =>
    assert (Sf : forall f p, In f files -> (do r <- read_netcdf_file t f ;; do e <- extend_if around (fst r) ;; do hc <- remask b e ;; Ok (hc, snd r)) = Ok p -> F f = (do cs <- H p ;; Ok (cs, snd p))) end.
  { intros f p Hin Ep. destruct (Hf f Hin) as (pa & Hpa & Hfg & Hnum). destruct (atlas_file t f pa around nx ny b Hpa Hfg Nx Rb) as (r & e & hc & Er & Ee & Eh & Rh & Nh).
    rewrite Er in Ep |- *. cbn [bind fst snd] in Ep |- *. rewrite Ee in Ep |- *. cbn [bind] in Ep |- *. rewrite Eh in Ep |- *. cbn [bind] in Ep |- *. apply Ok_inj in Ep as <-. cbn [fst snd].
    assert (Pw : forall q i D D', snd D = snd D' -> open_depth D = open_depth D' ->
      atlas_constant me sc xi (nlat nd) t q D i hc = atlas_constant me sc xi (nlat nd) t q D' i (match me with Bilinear => hc | Spline => map (map (filled Spline)) hc end)).
    { intros q i D D' E1 E2. unfold atlas_constant. destruct me.
      - destruct (cbilinear xi (nlat nd) hc q); [|reflexivity]. cbn [bind]. f_equal. now apply atlas_value_depth.
      - destruct (st_axes (bef around) (aft FES around) nx ny x0 dx y0 dy xi (nlat nd) Hxi Gy Nx Ny) as [A1 A2].
        destruct (st_lengths (bef around) (aft FES around) nx ny x0 dx y0 dy xi (nlat nd) Hxi Gy) as [L1 L2].
        assert (K : (do h <- cspline xi (nlat nd) hc q ;; Ok (settled Spline 1 false h)) = (do h <- cspline xi (nlat nd) (map (map (filled Spline)) hc) q ;; Ok (settled Spline 1 false h))).
        { apply spline_same; auto; [now rewrite L1, L2|]. rewrite L1, L2. intros j' i' Hj Hi. replace i' with (ec (bef around) (Z.of_nat i' - Z.of_nat (bef around))) by (unfold ec; lia).
          rewrite Nh by (auto; unfold within; lia). cbn [fst]. apply (Hnum eq_refl); auto. now apply column_lt. }
        destruct (cspline xi (nlat nd) hc q) as [h|], (cspline xi (nlat nd) (map (map (filled Spline)) hc) q) as [h'|]; cbn [bind] in K |- *; try discriminate; [|congruence].
        apply Ok_inj in K. f_equal. rewrite (atlas_value_depth t sc D D') by auto. now apply atlas_value_settled. }
    assert (Cs : forall l inv ds ds', map snd ds = map snd ds' -> map open_depth ds = map open_depth ds' ->
      mapM (fun p => let '(q, (i, D)) := p in atlas_constant me sc xi (nlat nd) t q D i hc) (combine l (combine inv ds)) =
      mapM (fun p => let '(q, (i, D)) := p in atlas_constant me sc xi (nlat nd) t q D i (match me with Bilinear => hc | Spline => map (map (filled Spline)) hc end)) (combine l (combine inv ds'))).
    { clear - Pw. induction l as [|q l IH]; intros inv ds ds' E1 E2; [reflexivity|]. destruct inv as [|i inv]; [reflexivity|]. destruct ds as [|D ds], ds' as [|D' ds']; try discriminate; [reflexivity|].
      cbn [map] in E1, E2. injection E1 as E1 E1'. injection E2 as E2 E2'. cbn [combine mapM]. rewrite (Pw q i D D' E1 E2). rewrite (IH inv ds ds' E1' E2'). reflexivity. }
    match goal with |- bind ?a _ = bind ?b _ => assert (E : a = b) by (destruct me; exact (Cs pts' inv ds ds' Sd1 Sd2)); rewrite E; reflexivity end. }
  match goal with |- same_answers (bind (mapM ?F files) _) (bind (mapM ?H fs) _) => rewrite (mapM_two _ F H files fs Efs Sf); destruct (mapM H fs) as [o|e] eqn:Eo; [|reflexivity] end.
  apply mapM_len in Eo. cbn [bind same_answers aconst adepth anames]. split; [|split; [auto|]].
  - clear - Eo. revert o Eo. induction fs as [|p fs IH]; intros [|c o] Eo; try discriminate; [reflexivity|]. cbn [map combine fst]. f_equal. apply IH. now injection Eo.
  - replace (map snd (combine o (map snd fs))) with (map snd fs); [destruct me; reflexivity|]. clear - Eo. revert o Eo. induction fs as [|p fs IH]; intros [|c o] Eo; try discriminate; [reflexivity|]. cbn [map combine snd]. f_equal. apply IH. now injection Eo.
Qed.
Print Assumptions C71_read.
