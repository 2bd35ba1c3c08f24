(** C88: the constants taken from cropped ATLAS models. *)
From Coq Require Import Reals List Bool Arith ZArith Lra Lia.
From Verif Require Import PyBase RBase MathModel GeoModel ConvertProps GridModel InterpModel InterpProps ExtrapProps ExtractModel ExtractSpec NodeProps ExtractProofs ExtractProps SplineProps ReturnProps MergeSpec MergeProps SeriesModel SeriesSpec SeriesProofs SeriesProps SeriesProps2 SeriesProps3 StretchProofs AtlasNcModel AtlasNcSpec AtlasNcProps AtlasNcProps2 AtlasNcProps3 RegularModel RegularSpec RegularProofs RegularProps RegularProps2 RegularProps3 CropModel CropSpec CropProofs CropProps ShoreModel ShoreSpec ShoreProofs ShoreProps ShoreProps2 NarrowModel NarrowSpec NarrowProofs NarrowProps NarrowProps4 ReefModel ReefSpec ReefProofs ReefProps ReefProps2 ReefProps3.
Import ListNotations.
Open Scope R_scope.

Section Inner.
  Variables (t : variable) (sc : R) (around : bool) (x0 dx : R) (nx : nat) (y0 dy : R) (ny : nat) (g : grid_file) (nd : nodes) (h : list (list (gcell R))) (files : list tide_file) (pts : list (R * R)).
  Hypothesis Hn : nodes_for g t nd.
  Hypothesis Hny : fny g = ny.
  Hypothesis G : nodes_grid around x0 dx nx y0 dy ny nd.
  Hypothesis Ch : cells (None, true) ny nx (fun j i => depth_at (entry 0 (ndepth nd) i j)) h.
  Lemma inner_cell out k fl pa n x y i j : reef_from (Quick Bilinear) t sc None dx (nlon nd) (nlat nd) h (fun hc => Ok hc) files pts = Ok out ->
    nth_error files k = Some fl -> parts_for fl t (Some pa) -> file_grid nx ny fl pa -> nth_error pts n = Some (x, y) ->
    reached 1 around nx i -> reached 1 around nx (i + 1) -> (S j < ny)%nat ->
    between_nodes Heights x0 dx y0 dy x y i j -> ~ at_node Heights x0 dx y0 dy x y i j ->
    let z := corners Heights x0 dx y0 dy nx x y i j (constant_of nd pa) in
    let d := mean (corners Heights x0 dx y0 dy nx x y i j (depth_of nd)) in
    exists D cs r, nth_error (adepth out) n = Some D /\ length (adepth out) = length pts /\ open_depth D = d /\
      nth_error (anames out) k = Some (read_name fl) /\ nth_error (aconst out) k = Some cs /\ length cs = length pts /\ nth_error cs n = Some r /\
      reported t sc d (both (mean (part fst z)) (mean (part snd z))) r.
  Proof.
    intros H Hk Hpa Hf Hq Ri Ri1 Hj B NA z d.
    destruct (inner_inv _ _ _ _ _ _ _ _ _ _ _ _ _ _ _ _ _ _ _ _ _ Hn Hny G Ch H Hk Hpa Hf Hq) as (xi & b & hc & inv & D & cs & v & Hxi & Rb & Rh & Nb & Nh & O1 & O2 & Ev & O4 & O5 & O6 & O7 & O8 & r & -> & O9). symmetry in Ev.
    exists D, cs, r. pose proof G as (Gx & Gy & Nx & Ny & Rd & Ga). assert (0 < dx) by apply Gx. assert (0 < dy) by apply Gy.
    destruct (cell_inside FES around x0 dx nx y0 dy ny x y i j) as [I1 I2]; auto; [destruct B as (B1 & B2 & _); lra|destruct B as (B1 & B2 & _); lra|].
    rewrite (inside_nodes around x0 dx nx y0 dy ny) in O1 by auto. apply Ok_inj in O1 as <-.
    assert (Wi := proj2 (within_reached FES around nx i) Ri). assert (Wi1 := proj2 (within_reached FES around nx (i + 1)%Z) Ri1).
    destruct (gst_off (bef around) (aft FES around) nx ny x0 dx y0 dy xi (nlat nd) Hxi Gy Nx Ny 0 Rplus Rmult b (depth_of nd) x y i j Rb) as (h1 & Eh1 & Kh1); auto.
    { intros j' i' Hj' Hi'. rewrite Nb by auto. apply depth_value. }
    destruct (gst_off (bef around) (aft FES around) nx ny x0 dx y0 dy xi (nlat nd) Hxi Gy Nx Ny (0, 0) cadd cscale hc (constant_of nd pa) x y i j Rh) as (h2 & Eh2 & Kh2); auto.
    { intros j' i' Hj' Hi'. rewrite Nh by auto. apply constant_value. }
    fold z in Kh2. apply kept_both in Kh2. cbn [bed_by] in O2. cbn [number_by] in Ev.
    unfold sounding, rbilinear in O2. rewrite Eh1 in O2. cbn [bind] in O2. apply Ok_inj in O2 as <-.
    unfold cbilinear in Ev. match type of Ev with bind ?m _ = _ => replace m with (Ok h2) in Ev by (symmetry; exact Eh2) end. cbn [bind] in Ev. apply Ok_inj in Ev as <-.
    specialize (Kh1 (fun x => x) linear_real).
    assert (Kd : open_depth (fst h1, snd h1 || is_nan h1) = d).
    { unfold d. replace (corners Heights x0 dx y0 dy nx x y i j (depth_of nd)) with (part (fun x : R => x) (corners Heights x0 dx y0 dy nx x y i j (depth_of nd))).
      - rewrite <- Kh1. unfold open_depth, gkept. cbn [fst snd]. destruct (snd h1 || is_nan h1); [reflexivity|]. now destruct (fst h1).
      - unfold part. rewrite <- (map_id (corners Heights x0 dx y0 dy nx x y i j (depth_of nd))) at 2. apply map_ext. intros [w [v|]]; reflexivity. }
    repeat (split; [assumption|]). apply value_reported; auto. cbn [fst snd]. intros K. apply orb_false_elim in K as [_ K]. unfold is_nan in K. destruct (fst h1); discriminate.
  Qed.
  Lemma inner_spline w out k fl pa n x y i j : w = Quick Spline \/ w = Regular Linear -> reef_from w t sc None dx (nlon nd) (nlat nd) h (fun hc => Ok hc) files pts = Ok out ->
    nth_error files k = Some fl -> parts_for fl t (Some pa) -> file_grid nx ny fl pa ->
    (forall j i, (j < ny)%nat -> (i < nx)%nat -> number_of pa j i <> None) -> nth_error pts n = Some (x, y) ->
    reached 1 around nx i -> reached 1 around nx (i + 1) -> (S j < ny)%nat ->
    node_x Heights x0 dx i <= x < node_x Heights x0 dx (i + 1) -> node_y Heights y0 dy j <= y < node_y Heights y0 dy (S j) ->
    let z := corners Heights x0 dx y0 dy nx x y i j (constant_of nd pa) in
    let d := corners Heights x0 dx y0 dy nx x y i j (depth_of nd) in
    exists D cs r, nth_error (adepth out) n = Some D /\ length (adepth out) = length pts /\
      nth_error (anames out) k = Some (read_name fl) /\ nth_error (aconst out) k = Some cs /\ length cs = length pts /\ nth_error cs n = Some r /\
      (complete d -> mean d <> None /\ open_depth D = mean d /\
         both (mean (part fst z)) (mean (part snd z)) <> None /\ reported t sc (mean d) (both (mean (part fst z)) (mean (part snd z))) r) /\
      (~ complete d -> open_depth D = None /\ r = None).
  Proof.
    intros Hw H Hk Hpa Hf Hnum Hq Ri Ri1 Hj Bx By z d.
    destruct (inner_inv _ _ _ _ _ _ _ _ _ _ _ _ _ _ _ _ _ _ _ _ _ Hn Hny G Ch H Hk Hpa Hf Hq) as (xi & b & hc & inv & D & cs & v & Hxi & Rb & Rh & Nb & Nh & O1 & O2 & Ev & O4 & O5 & O6 & O7 & O8 & r & -> & O9). symmetry in Ev.
    exists D, cs, r. repeat (split; [assumption|]). pose proof G as (Gx & Gy & Nx & Ny & Rd & Ga). assert (0 < dx) by apply Gx. assert (0 < dy) by apply Gy.
    destruct (cell_inside FES around x0 dx nx y0 dy ny x y i j) as [I1 I2]; auto; [lra | lra |].
    rewrite (inside_nodes around x0 dx nx y0 dy ny) in O1 by auto. apply Ok_inj in O1 as <-.
    assert (Wi := proj2 (within_reached FES around nx i) Ri). assert (Wi1 := proj2 (within_reached FES around nx (i + 1)%Z) Ri1).
    destruct (st_axes (bef around) (aft FES around) nx ny x0 dx y0 dy xi (nlat nd) Hxi Gy Nx Ny) as [A1 A2].
    assert (Bo : boxed xi (nlat nd) (x, y)) by (apply (sheet_boxed FES around x0 dx nx y0 dy ny); auto; split; auto; unfold node_y; cbn [INR]; lra).
    destruct (gst_spline (bef around) (aft FES around) nx ny x0 dx y0 dy xi (nlat nd) Hxi Gy Nx Ny 0 Rplus Rmult b (depth_of nd) x y i j Rb) as (v1 & m1 & E1 & C1 & N1); auto; [| |now left|now left|].
    { intros j' i' Hj' Hi'. rewrite Nb by auto. discriminate. }
    { intros j' i' Hj' Hi'. rewrite Nb by auto. unfold depth_at, depth_of, req. cbn [fst snd]. now destruct (Req_EM_T _ 0). }
    destruct (gst_spline (bef around) (aft FES around) nx ny x0 dx y0 dy xi (nlat nd) Hxi Gy Nx Ny (0, 0) cadd cscale hc (constant_of nd pa) x y i j Rh) as (v2 & m2 & E2 & C2 & N2); auto; [| |now left|now left|].
    { intros j' i' Hj' Hi'. rewrite Nh by auto. cbn [fst]. apply Hnum; auto. now apply column_lt. }
    { intros j' i' Hj' Hi'. rewrite Nh by auto. unfold depth_at, constant_of, depth_of, req. cbn [fst snd]. now destruct (Req_EM_T _ 0). }
    fold d in C1, N1. fold z in C2, N2.
    assert (Cz : complete d -> complete z).
    { intros K q Hq' Hw'. unfold z, corners in Hq'. cbv zeta in Hq'.
      assert (Cn : forall j i, (j < ny)%nat -> (i < nx)%nat -> depth_of nd j i <> None -> constant_of nd pa j i <> None).
      { intros j' i' Hj' Hi' Kd. unfold constant_of. destruct (depth_of nd j' i'); [now apply Hnum|congruence]. }
      unfold d, corners in K. cbv zeta in K.
      destruct Hq' as [<-|[<-|[<-|[<-|[]]]]]; cbn [fst snd] in *; apply Cn; try lia; try (now apply column_lt).
      - apply (K (_, _) (or_introl eq_refl) Hw').
      - apply (K (_, _) (or_intror (or_introl eq_refl)) Hw').
      - apply (K (_, _) (or_intror (or_intror (or_introl eq_refl))) Hw').
      - apply (K (_, _) (or_intror (or_intror (or_intror (or_introl eq_refl)))) Hw'). }
    assert (Q : D = (Some v1, m1) /\ r = atlas_value t sc D false (Some v2, m2)).
    { destruct Hw as [-> | ->]; cbn [bed_by] in O2; cbn [number_by] in Ev.
      - unfold sounding, rspline in O2. rewrite E1 in O2. apply Ok_inj in O2 as <-.
        unfold cspline in Ev. match type of Ev with bind ?m _ = _ => replace m with (Ok (Some v2, m2)) in Ev by (symmetry; exact E2) end. cbn [bind] in Ev. apply Ok_inj in Ev as <-. auto.
      - unfold rregular in O2. rewrite regular_linear, E1 in O2 by auto. apply Ok_inj in O2 as <-.
        unfold cregular in Ev. rewrite regular_linear in Ev by auto. match type of Ev with bind ?m _ = _ => replace m with (Ok (Some v2, m2)) in Ev by (symmetry; exact E2) end. cbn [bind] in Ev. apply Ok_inj in Ev as <-. auto. }
    destruct Q as [-> ->]. split.
    - intros K. destruct (C1 K) as [-> M1]. destruct (C2 (Cz K)) as [-> M2].
      assert (Md : mean d = Some v1).
      { rewrite <- (M1 (fun x => x) linear_real). f_equal. unfold part. rewrite <- (map_id d) at 1. apply map_ext. intros [w' [v|]]; reflexivity. }
      rewrite (M2 fst linear_fst), (M2 snd linear_snd), Md. cbn [both]. split; [discriminate|]. split; [reflexivity|]. split; [discriminate|].
      apply value_reported; [discriminate|reflexivity|]. unfold gkept. cbn [fst snd orb is_nan]. now destruct v2.
    - intros K. rewrite (N1 K). split; [reflexivity|]. unfold atlas_value. cbn [snd]. now rewrite orb_true_r.
  Qed.
  Lemma inner_nearest out k fl pa n x y a b' : reef_from (Regular Nearest) t sc None dx (nlon nd) (nlat nd) h (fun hc => Ok hc) files pts = Ok out ->
    nth_error files k = Some fl -> parts_for fl t (Some pa) -> file_grid nx ny fl pa -> nth_error pts n = Some (x, y) ->
    node_x Heights x0 dx (first_of around) <= x <= node_x Heights x0 dx (last_of 1 around nx) ->
    node_y Heights y0 dy 0 <= y <= node_y Heights y0 dy (ny - 1) ->
    reached 1 around nx a -> (b' < ny)%nat -> nearest_node Heights x0 dx y0 dy x y a b' ->
    exists D cs r, nth_error (adepth out) n = Some D /\ length (adepth out) = length pts /\ open_depth D = depth_of nd b' (column nx a) /\
      nth_error (anames out) k = Some (read_name fl) /\ nth_error (aconst out) k = Some cs /\ length cs = length pts /\ nth_error cs n = Some r /\
      reported t sc (depth_of nd b' (column nx a)) (constant_of nd pa b' (column nx a)) r.
  Proof.
    intros H Hk Hpa Hf Hq Ix Iy Ra Hb' [Nx' Ny'].
    destruct (inner_inv _ _ _ _ _ _ _ _ _ _ _ _ _ _ _ _ _ _ _ _ _ Hn Hny G Ch H Hk Hpa Hf Hq) as (xi & b & hc & inv & D & cs & v & Hxi & Rb & Rh & Nb & Nh & O1 & O2 & Ev & O4 & O5 & O6 & O7 & O8 & r & -> & O9). symmetry in Ev.
    pose proof G as (Gx & Gy & Nx & Ny & Rd & Ga). assert (0 < dx) by apply Gx. assert (0 < dy) by apply Gy.
    rewrite (inside_nodes around x0 dx nx y0 dy ny) in O1 by (auto; unfold node_y in Iy; cbn [INR] in Iy; lra). apply Ok_inj in O1 as <-.
    assert (Wa : within (bef around) (aft FES around) nx a) by now apply (within_reached FES).
    assert (Bo : boxed xi (nlat nd) (x, y)) by now apply (sheet_boxed FES around x0 dx nx y0 dy ny).
    assert (Na : x0 - INR (bef around) * dx + INR (ec (bef around) a) * dx - dx / 2 < x <= x0 - INR (bef around) * dx + INR (ec (bef around) a) * dx + dx / 2).
    { pose proof (ec_x (bef around) (aft FES around) nx x0 dx xi Hxi a Wa) as E. destruct Hxi as (_ & _ & Hx'). rewrite Hx' in E by now apply ec_lt. rewrite E. exact Nx'. }
    cbn [bed_by] in O2. cbn [number_by] in Ev.
    unfold rregular in O2. rewrite (regular_nearest 0 Rplus Rmult (x0 - INR (bef around) * dx) dx (bef around + nx + aft FES around) xi y0 dy ny (nlat nd) b x y (ec (bef around) a) b' (None, true)) in O2; auto; try lia; [|now apply ec_lt].
    rewrite Nb in O2 by auto. apply Ok_inj in O2 as <-.
    unfold cregular in Ev. rewrite (regular_nearest (0, 0) cadd cscale (x0 - INR (bef around) * dx) dx (bef around + nx + aft FES around) xi y0 dy ny (nlat nd) hc x y (ec (bef around) a) b' (None, true)) in Ev; auto; try lia; [|now apply ec_lt].
    rewrite Nh in Ev by auto. cbn [bind] in Ev. apply Ok_inj in Ev as <-.
    set (q := entry 0 (ndepth nd) (column nx a) b') in *.
    assert (Kd : open_depth (depth_at q) = depth_of nd b' (column nx a)).
    { unfold open_depth, depth_at, depth_of, req. cbn [fst snd]. fold q. now destruct (Req_EM_T q 0). }
    eexists _, cs, _. repeat (split; [eassumption|]). apply value_reported; auto.
    - cbn [fst]. intros _. discriminate.
    - rewrite gkept_value. apply constant_value.
  Qed.
  Lemma inner_returns w ex : files_grid t nx ny files -> w <> Regular Unknown ->
    (w = Quick Bilinear -> forall p, In p pts -> fst p <> node_x Heights x0 dx (last_of 1 around nx)) ->
    exists out, reef_from w t sc ex dx (nlon nd) (nlat nd) h (fun hc => Ok hc) files pts = Ok out.
  Proof.
    intros Hf Hw Hl. destruct (atlas_setup t g nd around x0 dx nx y0 dy ny Hn Hny G) as (xi & b & Exi & Eb & Hxi & Rb & Nb). pose proof G as (Gx & Gy & Nx & Ny & Rd & Ga).
    destruct (st_axes (bef around) (aft FES around) nx ny x0 dx y0 dy xi (nlat nd) Hxi Gy Nx Ny) as [A1 A2].
    destruct (st_lengths (bef around) (aft FES around) nx ny x0 dx y0 dy xi (nlat nd) Hxi Gy) as [L1 L2].
    destruct (read_grid t g nd around x0 dx nx y0 dy ny Hn Hny G) as (h' & Eh' & Ch'). assert (h' = h) as -> by exact (cells_ext _ _ _ _ _ _ Ch' Ch).
    unfold reef_from. rewrite (around_nodes _ _ _ _ _ _ _ _ G), Exi. cbn [bind].
    assert (Eb' : extend_if around h = Ok b). { unfold read_netcdf_grid in Eh'. rewrite (nodes_for_eq t g nd Hn) in Eh'. cbn [bind] in Eh'. apply Ok_inj in Eh'. injection Eh' as <-. exact Eb. }
    rewrite Eb'. cbn [bind]. destruct (mapM_ok (outside_axes xi (nlat nd)) pts) as (inv & ->). { intros q _. apply (outside_ok around x0 dx nx y0 dy ny); auto. }
    cbn [bind]. destruct (mapM_ok (bed_by w xi (nlat nd) b) pts) as (ds & ->).
    { intros q Hq. destruct w as [me|me]; cbn [bed_by]; [apply (sounding_ok around x0 dx nx y0 dy ny); auto; intros ->; now apply Hl|]. apply regular_total; auto; try congruence; now rewrite L1, L2. }
    cbn [bind]. match goal with |- exists out, bind (mapM ?F files) _ = _ => destruct (mapM_ok F files) as (o & Eo) end.
    - intros f Hin. destruct (Hf f Hin) as (pa & Hpa & Hfg). destruct (atlas_file t f pa around nx ny b Hpa Hfg Nx Rb) as (r & e & hc & -> & Ee & Eh & Rh & _).
      cbn [bind fst]. rewrite Ee. cbn [bind]. rewrite Eh. cbn [bind]. unfold reef_constituent.
      match goal with |- exists bb, bind (bind (mapM ?F ?l) _) _ = _ => destruct (mapM_ok F l) as (cs & ->) end; [|cbn [bind]; eauto].
      intros [q [i D]] Hq. apply in_combine_l in Hq. cbn [fst snd].
      assert (exists kk, number_by w xi (nlat nd) hc q = Ok kk) as (kk & ->); [|cbn [bind]; eauto].
      destruct w as [me|me]; cbn [number_by].
      + destruct (point_ok around x0 dx nx y0 dy ny xi (nlat nd) Hxi Gy Nx Ny (0, 0) cadd cscale me hc q Rh) as (kk & Ek); [intros ->; now apply Hl|]. exists kk. destruct me; exact Ek.
      + apply regular_total; auto; try congruence; now rewrite L1, L2.
    - rewrite Eo. cbn [bind]. eauto.
  Qed.
End Inner.

(** ** The same in terms of the whole model *)
Lemma block_depth nx a na c nr nd nd' j i : nodes_block nx a na c nr nd nd' -> (c <= j < c + nr)%nat -> (a <= i < a + Z.of_nat na)%Z -> depth_of nd' (j - c) (column na (i - a)) = depth_of nd j (column nx i).
Proof. intros B Hj Hi. unfold column at 1. rewrite Z.mod_small by lia. rewrite B by lia. f_equal; [lia|]. f_equal. lia. Qed.
Lemma block_constant nx a na c nr nd nd' pa pa' j i : nodes_block nx a na c nr nd nd' -> parts_block nx a na c nr pa pa' -> (c <= j < c + nr)%nat -> (a <= i < a + Z.of_nat na)%Z ->
  constant_of nd' pa' (j - c) (column na (i - a)) = constant_of nd pa j (column nx i).
Proof.
  intros B P Hj Hi. unfold constant_of. rewrite (block_depth nx a na c nr nd nd') by auto. destruct (depth_of nd j (column nx i)); [|reflexivity].
  unfold column at 1. rewrite Z.mod_small by lia. rewrite P by lia. f_equal; [lia|]. f_equal. lia.
Qed.
Lemma reached_cell around na a i : (a <= i < a + Z.of_nat na)%Z -> reached 1 around na (i - a).
Proof. intros H. unfold reached. destruct around; lia. Qed.
Theorem C88_cell : forall t sc around x0 dx nx y0 dy ny bounds buffer b m f g nd files pts out i j k fl pa n x y,
  cropping t around x0 dx nx y0 dy ny bounds buffer b m f g nd files pts -> cell_within x0 dx nx y0 dy ny b m f i j ->
  extract_reef (Quick Bilinear) t sc None true bounds buffer g files pts = Ok out ->
  nth_error files k = Some fl -> parts_for fl t (Some pa) -> file_grid nx ny fl pa -> nth_error pts n = Some (x, y) ->
  node_y Heights y0 dy j < y \/ (exists j', j = S j' /\ stays (y_min b) (y_max b) m (node_y Heights y0 dy j')) ->
  between_nodes Heights x0 dx y0 dy x y i j -> ~ at_node Heights x0 dx y0 dy x y i j ->
  let z := corners Heights x0 dx y0 dy nx x y i j (constant_of nd pa) in
  let d := mean (corners Heights x0 dx y0 dy nx x y i j (depth_of nd)) in
  exists D cs r, nth_error (adepth out) n = Some D /\ length (adepth out) = length pts /\ open_depth D = d /\
    nth_error (anames out) k = Some (read_name fl) /\ nth_error (aconst out) k = Some cs /\ length cs = length pts /\ nth_error cs n = Some r /\
    reported t sc d (both (mean (part fst z)) (mean (part snd z))) r.
Proof.
  intros t sc around x0 dx nx y0 dy ny bounds buffer b m f g nd files pts out i j k fl pa n x y Cr Ce H Hk Hpa Hg Hq Lj B NA z d.
  destruct (reef_cell_from (Quick Bilinear) t sc _ _ _ _ _ _ _ _ _ _ _ _ _ _ _ _ _ _ Cr Ce) as (around' & a & na & c & nr & g' & nd' & h' & files' & M & A1 & A2 & C1 & C2 & N1 & N2 & E1 & E2 & E3 & Eq).
  rewrite Eq in H. destruct M as (Kc & Kr & _ & Hn' & Hny' & G' & Bn & _ & Fl). destruct (Fl k fl pa Hk Hpa Hg) as (fl' & pa' & Hk' & Hpa' & Hg' & Er & Bp).
  pose proof G' as (_ & (Dy & _) & _).
  destruct (inner_cell t sc around' _ dx na _ dy nr g' nd' h' files' pts Hn' Hny' G' E2 out k fl' pa' n x y (i - a) (j - c) H Hk' Hpa' Hg' Hq) as (D & cs & r & O).
  { apply reached_cell. lia. } { replace (i - a + 1)%Z with (i + 1 - a)%Z by ring. apply reached_cell. lia. } { lia. }
  { apply between_shift; auto. destruct Lj as [Lj|(j' & -> & Lj)]; [now left|right]. destruct Kr as [_ Kr]. destruct Ce as (_ & _ & _ & _ & C5 & _). apply Kr in Lj; lia. }
  { rewrite at_shift by auto. exact NA. }
  exists D, cs, r. rewrite <- Er. cbv zeta in O. rewrite (corners_shift Heights x0 dx y0 dy nx na a c x y i j (depth_of nd) (depth_of nd')) in O by (auto; apply (block_depth nx a na c nr); auto; lia).
  rewrite (corners_shift Heights x0 dx y0 dy nx na a c x y i j (constant_of nd pa) (constant_of nd' pa')) in O by (auto; apply (block_constant nx a na c nr); auto; lia). exact O.
Qed.
Print Assumptions C88_cell.

(** methods spline and linear *)
Theorem C88_spline : forall w t sc around x0 dx nx y0 dy ny bounds buffer b m f g nd files pts out i j k fl pa n x y,
  w = Quick Spline \/ w = Regular Linear ->
  cropping t around x0 dx nx y0 dy ny bounds buffer b m f g nd files pts -> cell_within x0 dx nx y0 dy ny b m f i j ->
  extract_reef w t sc None true bounds buffer g files pts = Ok out ->
  nth_error files k = Some fl -> parts_for fl t (Some pa) -> file_grid nx ny fl pa ->
  (forall j i, (j < ny)%nat -> (i < nx)%nat -> number_of pa j i <> None) -> nth_error pts n = Some (x, y) ->
  node_x Heights x0 dx i <= x < node_x Heights x0 dx (i + 1) -> node_y Heights y0 dy j <= y < node_y Heights y0 dy (S j) ->
  let z := corners Heights x0 dx y0 dy nx x y i j (constant_of nd pa) in
  let d := corners Heights x0 dx y0 dy nx x y i j (depth_of nd) in
  exists D cs r, nth_error (adepth out) n = Some D /\ length (adepth out) = length pts /\
    nth_error (anames out) k = Some (read_name fl) /\ nth_error (aconst out) k = Some cs /\ length cs = length pts /\ nth_error cs n = Some r /\
    (complete d -> mean d <> None /\ open_depth D = mean d /\
       both (mean (part fst z)) (mean (part snd z)) <> None /\ reported t sc (mean d) (both (mean (part fst z)) (mean (part snd z))) r) /\
    (~ complete d -> open_depth D = None /\ r = None).
Proof.
  intros w t sc around x0 dx nx y0 dy ny bounds buffer b m f g nd files pts out i j k fl pa n x y Hw Cr Ce H Hk Hpa Hg Hnum Hq Bx By z d.
  destruct (reef_cell_from w t sc _ _ _ _ _ _ _ _ _ _ _ _ _ _ _ _ _ _ Cr Ce) as (around' & a & na & c & nr & g' & nd' & h' & files' & M & A1 & A2 & C1 & C2 & N1 & N2 & E1 & E2 & E3 & Eq).
  rewrite Eq in H. destruct M as (Kc & Kr & _ & Hn' & Hny' & G' & Bn & _ & Fl). destruct (Fl k fl pa Hk Hpa Hg) as (fl' & pa' & Hk' & Hpa' & Hg' & Er & Bp).
  assert (Hx : (2 <= nx)%nat) by (destruct Cr as (_ & _ & (_ & _ & Q & _) & _); exact Q).
  destruct (inner_spline t sc around' _ dx na _ dy nr g' nd' h' files' pts Hn' Hny' G' E2 w out k fl' pa' n x y (i - a) (j - c) Hw H Hk' Hpa' Hg') as (D & cs & r & O); auto.
  { intros j' i' Hj' Hi'. rewrite Bp by auto. apply Hnum; [destruct Kr; lia | now apply column_lt]. }
  { apply reached_cell. lia. } { replace (i - a + 1)%Z with (i + 1 - a)%Z by ring. apply reached_cell. lia. } { lia. }
  { replace (i - a + 1)%Z with (i + 1 - a)%Z by ring. rewrite !node_shift. exact Bx. }
  { replace (S (j - c)) with (S j - c)%nat by lia. rewrite !row_shift by lia. exact By. }
  exists D, cs, r. rewrite <- Er. cbv zeta in O. rewrite (corners_shift Heights x0 dx y0 dy nx na a c x y i j (depth_of nd) (depth_of nd')) in O by (auto; apply (block_depth nx a na c nr); auto; lia).
  rewrite (corners_shift Heights x0 dx y0 dy nx na a c x y i j (constant_of nd pa) (constant_of nd' pa')) in O by (auto; apply (block_constant nx a na c nr); auto; lia). exact O.
Qed.
Print Assumptions C88_spline.

(** method nearest: the node a, r0 of the corners of the cell *)
Theorem C88_nearest : forall t sc around x0 dx nx y0 dy ny bounds buffer b m f g nd files pts out i j k fl pa n x y i' j',
  cropping t around x0 dx nx y0 dy ny bounds buffer b m f g nd files pts -> cell_within x0 dx nx y0 dy ny b m f i j ->
  extract_reef (Regular Nearest) t sc None true bounds buffer g files pts = Ok out ->
  nth_error files k = Some fl -> parts_for fl t (Some pa) -> file_grid nx ny fl pa -> nth_error pts n = Some (x, y) ->
  node_x Heights x0 dx i <= x <= node_x Heights x0 dx (i + 1) -> node_y Heights y0 dy j <= y <= node_y Heights y0 dy (S j) ->
  (i' = i \/ i' = i + 1)%Z -> j' = j \/ j' = S j -> nearest_node Heights x0 dx y0 dy x y i' j' ->
  exists D cs r, nth_error (adepth out) n = Some D /\ length (adepth out) = length pts /\ open_depth D = depth_of nd j' (column nx i') /\
    nth_error (anames out) k = Some (read_name fl) /\ nth_error (aconst out) k = Some cs /\ length cs = length pts /\ nth_error cs n = Some r /\
    reported t sc (depth_of nd j' (column nx i')) (constant_of nd pa j' (column nx i')) r.
Proof.
  intros t sc around x0 dx nx y0 dy ny bounds buffer b m f g nd files pts out i j k fl pa n x y i' j' Cr Ce H Hk Hpa Hg Hq Bx By Hi' Hj' [Q1 Q2].
  destruct (reef_cell_from (Regular Nearest) t sc _ _ _ _ _ _ _ _ _ _ _ _ _ _ _ _ _ _ Cr Ce) as (around' & a & na & c & nr & g' & nd' & h' & files' & M & A1 & A2 & C1 & C2 & N1 & N2 & E1 & E2 & E3 & Eq).
  rewrite Eq in H. destruct M as (Kc & Kr & _ & Hn' & Hny' & G' & Bn & _ & Fl). destruct (Fl k fl pa Hk Hpa Hg) as (fl' & pa' & Hk' & Hpa' & Hg' & Er & Bp).
  pose proof G' as ((Dx & _) & (Dy & _) & _).
  assert (La : (a + first_of around' <= i)%Z /\ (i + 1 <= a + last_of 1 around' na)%Z) by (unfold first_of, last_of; destruct around'; lia). destruct La as [La Lb]. apply IZR_le in La, Lb.
  destruct (inner_nearest t sc around' _ dx na _ dy nr g' nd' h' files' pts Hn' Hny' G' E2 out k fl' pa' n x y (i' - a) (j' - c) H Hk' Hpa' Hg' Hq) as (D & cs & r & O).
  { unfold node_x in *. rewrite plus_IZR in La, Bx. rewrite !plus_IZR in Lb. split; nra. }
  { assert (T1 : INR c <= INR j) by (apply le_INR; lia). assert (T2 : INR (S j) <= INR c + INR (nr - 1)) by (rewrite <- plus_INR; apply le_INR; lia). unfold node_y in *. rewrite S_INR in *. change (INR 0) with 0. split; nra. }
  { apply reached_cell. lia. } { lia. } { split; [rewrite node_shift; exact Q1 | rewrite row_shift by lia; exact Q2]. }
  exists D, cs, r. rewrite <- Er. rewrite (block_depth nx a na c nr nd nd' j' i') in O by (auto; lia). rewrite (block_constant nx a na c nr nd nd' pa pa' j' i') in O by (auto; lia). exact O.
Qed.
Print Assumptions C88_nearest.
