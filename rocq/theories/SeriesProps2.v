(** C69: where FES and GOT extraction returns nothing, and reading before interpolating. *)
From Coq Require Import Reals List Bool Arith ZArith Lra Lia.
From Verif Require Import PyBase RBase MathModel GeoModel ConvertProps GridModel InterpModel InterpProps ExtractModel ExtractSpec NodeProps ExtractProofs ExtractProps SplineProps ReturnProps MergeSpec MergeProps SeriesModel SeriesSpec SeriesProofs SeriesProps.
Import ListNotations.
Open Scope R_scope.

Lemma first_last_lon src around x0 dx nx lon : (2 <= nx)%nat -> evenly (x0 - INR (bef around) * dx) dx (bef around + nx + aft src around) lon ->
  nth 0 lon 0 = node_x Heights x0 dx (first_of around) /\ nth (length lon - 1) lon 0 = node_x Heights x0 dx (last_of (behind src) around nx).
Proof.
  intros Nx Hx. split.
  - destruct Hx as (_ & _ & E). rewrite E by lia. unfold node_x, first_of, bef. destruct around; cbn [INR]; lra.
  - rewrite <- (ec_x (bef around) (aft src around) nx x0 dx lon Hx) by (unfold within, last_of, bef, aft, behind; destruct around, src; lia).
    f_equal. destruct Hx as (_ & -> & _). unfold ec, last_of, bef, aft, behind. destruct around, src; lia.
Qed.
Lemma first_last_lat y0 dy ny lat : (2 <= ny)%nat -> evenly y0 dy ny lat -> nth 0 lat 0 = y0 /\ nth (length lat - 1) lat 0 = y0 + INR (ny - 1) * dy.
Proof. intros Ny (_ & L & E). rewrite L, !E by lia. cbn [INR]. split; lra. Qed.

(** ** Nothing is returned outside of the model, and bilinearly on its first and last rows *)
Theorem C69_outside : forall src me sc fr files pts out c s n p around x0 dx nx y0 dy ny x y,
  (forall s, In s files -> framed fr (slon s)) -> (forall q, In q pts -> -360 <= fst q <= 540) ->
  extract_series src me sc files pts = Ok out ->
  nth_error files c = Some s -> sheet_grid around x0 dx nx y0 dy ny s ->
  nth_error pts n = Some p -> placed fr (fst p) = x -> snd p = y ->
  src = FES \/ me = Bilinear ->
  x < node_x Heights x0 dx (first_of around) \/ node_x Heights x0 dx (last_of (behind src) around nx) < x \/
  y < node_y Heights y0 dy 0 \/ node_y Heights y0 dy (ny - 1) < y ->
  exists cs, nth_error out c = Some cs /\ nth_error cs n = Some None.
Proof.
  intros src me sc fr files pts out c s n p around x0 dx nx y0 dy ny x y Hf Hp H Hc G Hn Ex Ey Hm Ho.
  destruct (series_inv _ _ _ _ _ _ _ _ _ _ _ _ _ _ _ _ _ _ Hf Hp H Hc G Hn) as (e & cs & r & Hx & Hlat & Rh & Nh & O1 & O2 & O3 & O4). rewrite Ex, Ey in O4.
  exists cs. split; auto. rewrite O3. f_equal. destruct G as (Gx & Gy & Nx & Ny & Rs & Ga). rewrite <- Hlat in Gy.
  destruct (st_axes (bef around) (aft src around) nx ny x0 dx y0 dy (slon e) (slat e) Hx Gy Nx Ny) as [A1 A2].
  destruct (first_last_lon src around x0 dx nx (slon e) Nx Hx) as [F1 F2]. destruct (first_last_lat y0 dy ny (slat e) Ny Gy) as [F3 F4].
  assert (N0 : node_y Heights y0 dy 0 = y0) by (unfold node_y; cbn [INR]; lra). rewrite N0 in Ho. unfold node_y in Ho.
  unfold sheet_constant in O4. destruct src.
  - assert (I : outside_sheet FES (slon e) (slat e) (x, y) = Ok true).
    { unfold outside_sheet, outside_axes. rewrite (axis_min _ A1), (axis_max _ A1), (axis_min _ A2), (axis_max _ A2). cbn [bind fst snd]. rewrite F1, F2, F3, F4. f_equal.
      destruct Ho as [K|[K|[K|K]]]; rewrite (rlt_t _ _ K), ?orb_true_r; reflexivity. }
    rewrite I in O4. cbn [bind] in O4. match type of O4 with bind ?m _ = _ => destruct m as [h|]; [|discriminate] end. cbn [bind] in O4. apply Ok_inj in O4 as <-.
    unfold settled. now rewrite orb_true_r.
  - destruct Hm as [Hm|Hm]; [discriminate|]. subst me. cbn [outside_sheet bind] in O4.
    assert (Eb : cbilinear (slon e) (slat e) (map (map (blank GOT)) (shc e)) (x, y) = Ok (None, true)).
    { unfold cbilinear. apply gpoint_outside; auto. rewrite F1, F2, F3, F4. lra. }
    rewrite Eb in O4. cbn [bind] in O4. now apply Ok_inj in O4 as <-.
Qed.
Print Assumptions C69_outside.

Theorem C69_rows_refuted : forall src sc fr files pts out c s n p around x0 dx nx y0 dy ny,
  (forall s, In s files -> framed fr (slon s)) -> (forall q, In q pts -> -360 <= fst q <= 540) ->
  extract_series src Bilinear sc files pts = Ok out ->
  nth_error files c = Some s -> sheet_grid around x0 dx nx y0 dy ny s ->
  nth_error pts n = Some p -> snd p = node_y Heights y0 dy 0 \/ snd p = node_y Heights y0 dy (ny - 1) ->
  exists cs, nth_error out c = Some cs /\ nth_error cs n = Some None.
Proof.
  intros src sc fr files pts out c s n p around x0 dx nx y0 dy ny Hf Hp H Hc G Hn Ho.
  destruct (series_inv _ _ _ _ _ _ _ _ _ _ _ _ _ _ _ _ _ _ Hf Hp H Hc G Hn) as (e & cs & r & Hx & Hlat & Rh & Nh & O1 & O2 & O3 & O4).
  exists cs. split; auto. rewrite O3. f_equal. destruct G as (Gx & Gy & Nx & Ny & Rs & Ga). rewrite <- Hlat in Gy.
  destruct (st_axes (bef around) (aft src around) nx ny x0 dx y0 dy (slon e) (slat e) Hx Gy Nx Ny) as [A1 A2].
  destruct (first_last_lat y0 dy ny (slat e) Ny Gy) as [F3 F4]. unfold node_y in Ho. cbn [INR] in Ho.
  unfold sheet_constant in O4.
  assert (Eb : cbilinear (slon e) (slat e) (map (map (blank src)) (shc e)) (placed fr (fst p), snd p) = Ok (None, true)).
  { unfold cbilinear. apply gpoint_outside; auto. rewrite F3, F4. lra. }
  rewrite Eb in O4. destruct (outside_sheet src (slon e) (slat e) (placed fr (fst p), snd p)) as [b|]; [|discriminate]. cbn [bind] in O4. now apply Ok_inj in O4 as <-.
Qed.
Print Assumptions C69_rows_refuted.

(** ** GOT extraction with splines returns constants for points anywhere, also far outside
    of a regional model *)
Theorem C69_got_outside_refuted : forall sc fr files pts out c s n p around x0 dx nx y0 dy ny,
  (forall s, In s files -> framed fr (slon s)) -> (forall q, In q pts -> -360 <= fst q <= 540) ->
  extract_series GOT Spline sc files pts = Ok out ->
  nth_error files c = Some s -> sheet_grid around x0 dx nx y0 dy ny s ->
  (forall j i, (j < ny)%nat -> (i < nx)%nat -> valid (entry (None, true) (shc s) j i) <> None) ->
  nth_error pts n = Some p ->
  exists cs r, nth_error out c = Some cs /\ nth_error cs n = Some (Some r).
Proof.
  intros sc fr files pts out c s n p around x0 dx nx y0 dy ny Hf Hp H Hc G Hv Hn.
  destruct (extend_sheet_grid GOT _ _ _ _ _ _ _ _ G) as (e & _ & Hx & Hlat & _). pose proof G as (Gx & Gy & Nx & Ny & _).
  pose proof Gy as Gy'. rewrite <- Hlat in Gy'.
  destruct (st_axes (bef around) (aft GOT around) nx ny x0 dx y0 dy (slon e) (slat e) Hx Gy' Nx Ny) as [A1 A2].
  destruct (first_last_lon GOT around x0 dx nx (slon e) Nx Hx) as [F1 F2]. destruct (first_last_lat y0 dy ny (slat e) Ny Gy') as [F3 F4].
  destruct (between_exists (slon e) (placed fr (fst p)) A1) as (ix & Lx & Bx). destruct (between_exists (slat e) (snd p) A2) as (iy & Ly & By).
  rewrite F1, F2 in Bx. rewrite F3, F4 in By. pose proof (st_lengths (bef around) (aft GOT around) nx ny x0 dx y0 dy (slon e) (slat e) Hx Gy') as [L1 L2]. rewrite L1 in Lx, Bx. rewrite L2 in Ly, By.
  set (i := (Z.of_nat ix - Z.of_nat (bef around))%Z).
  assert (Wi : within (bef around) (aft GOT around) nx i) by (unfold within, i; lia).
  assert (Wi1 : within (bef around) (aft GOT around) nx (i + 1)) by (unfold within, i; lia).
  assert (Ei : ix = ec (bef around) i) by (unfold ec, i; lia). assert (Ei1 : S ix = ec (bef around) (i + 1)) by (unfold ec, i; lia).
  rewrite Ei1, Ei in Bx. rewrite !(ec_x (bef around) (aft GOT around) nx x0 dx (slon e) Hx) in Bx by auto.
  rewrite !(row_y ny y0 dy (slat e) Gy') in By by lia.
  set (x := nearest_within (node_x Heights x0 dx (first_of around)) _ _) in *. set (y := nearest_within y0 _ _) in *.
  destruct (C69_spline GOT sc fr files pts out c s n p around x0 dx nx y0 dy ny x y i iy Hf Hp H Hc G) as (cs & r & O1 & _ & O2 & O3 & _); auto.
  - intros j' i' Hj Hi. specialize (Hv j' i' Hj Hi). unfold valid in Hv. destruct (snd _); [congruence|exact Hv].
  - discriminate.
  - now apply within_reached.
  - now apply within_reached.
  - destruct Bx as [Bx|[K Bx]]; [now left|right]. split; auto. unfold last_of, behind. unfold ec, bef, aft, i in *. destruct around; lia.
  - destruct O3 as [O3 O4].
    + intros q Hq _. unfold corners in Hq. destruct Hq as [<-|[<-|[<-|[<-|[]]]]]; cbn [snd]; apply Hv; try lia; now apply column_lt.
    + destruct (both _ _) as [z|]; [|congruence]. cbn [scaled] in O4. destruct O4 as (a & ph & _ & ->). eauto.
Qed.
Print Assumptions C69_got_outside_refuted.

(** ** Extraction succeeds, except bilinearly for a point on the last column *)
Lemma adjust_ok lons pts : lons <> [] -> pts <> [] -> exists pts', adjust lons pts = Ok pts'.
Proof. intros H1 H2. destruct lons as [|a l]; [congruence|]. destruct pts as [|q t]; [congruence|]. unfold adjust. cbn [map amin amax bind]. eauto. Qed.
Lemma sheet_constant_ok src me sc fr around x0 dx nx y0 dy ny e pts : (2 <= nx)%nat -> (2 <= ny)%nat ->
  evenly (x0 - INR (bef around) * dx) dx (bef around + nx + aft src around) (slon e) -> evenly y0 dy ny (slat e) -> rect ny (bef around + nx + aft src around) (shc e) ->
  (me = Bilinear -> forall p, In p pts -> placed fr (fst p) <> node_x Heights x0 dx (last_of (behind src) around nx)) ->
  exists cs, mapM (sheet_constant src me sc e) (map (fun p => (placed fr (fst p), snd p)) pts) = Ok cs.
Proof.
  intros Nx Ny Hx Hy Rh Hl. destruct (st_axes (bef around) (aft src around) nx ny x0 dx y0 dy (slon e) (slat e) Hx Hy Nx Ny) as [A1 A2].
  destruct (first_last_lon src around x0 dx nx (slon e) Nx Hx) as [F1 F2]. destruct (st_lengths (bef around) (aft src around) nx ny x0 dx y0 dy (slon e) (slat e) Hx Hy) as [L1 L2].
  induction pts as [|p pts IH]; [exists []; reflexivity|]. destruct IH as (cs & E); [intros K q Hq; apply Hl; auto; now right|].
  cbn [map mapM]. assert (Sc : exists r, sheet_constant src me sc e (placed fr (fst p), snd p) = Ok r).
  { unfold sheet_constant. assert (exists b, outside_sheet src (slon e) (slat e) (placed fr (fst p), snd p) = Ok b) as (b & ->).
    { destruct src; [|exists false; reflexivity]. unfold outside_sheet, outside_axes. rewrite (axis_min _ A1), (axis_max _ A1), (axis_min _ A2), (axis_max _ A2). cbn [bind]. eauto. }
    cbn [bind]. destruct me.
    - destruct (bilinear_total (0, 0) cadd cscale (slon e) (slat e) (map (map (blank src)) (shc e)) (placed fr (fst p)) (snd p) A1 A2) as (h & Eh).
      { rewrite L1, L2. now apply map_rect. }
      { rewrite F2. apply Hl; auto. now left. }
      unfold cbilinear. match goal with |- exists _, bind ?m _ = _ => replace m with (Ok h) by (symmetry; exact Eh) end. cbn [bind]. eauto.
    - destruct (spline_total (0, 0) cadd cscale (slon e) (slat e) (shc e) (placed fr (fst p), snd p) A1 A2) as (h & Eh); [now rewrite L1, L2|].
      unfold cspline. match goal with |- exists _, bind ?m _ = _ => replace m with (Ok h) by (symmetry; exact Eh) end. cbn [bind]. eauto. }
  destruct Sc as (r & ->). cbn [bind]. rewrite E. cbn [bind]. eauto.
Qed.
Theorem C69_returns : forall src me sc fr files pts,
  pts <> [] -> (forall q, In q pts -> -360 <= fst q <= 540) ->
  (forall s, In s files -> framed fr (slon s) /\ exists around x0 dx nx y0 dy ny, sheet_grid around x0 dx nx y0 dy ny s /\
     (me = Bilinear -> forall p, In p pts -> placed fr (fst p) <> node_x Heights x0 dx (last_of (behind src) around nx))) ->
  exists out, extract_series src me sc files pts = Ok out /\ length out = length files.
Proof.
  intros src me sc fr files pts Hn Hp Hf.
  assert (Go : exists out, extract_series src me sc files pts = Ok out).
  { unfold extract_series. destruct pts as [|q0 t] eqn:Ept; [congruence|]. rewrite <- Ept in *. replace (amin (map fst pts)) with (Ok (rmin_list (fst q0) (map fst t))) by (rewrite Ept; reflexivity). cbn [bind].
    clear Ept. clear q0 t. revert pts Hn Hp Hf. induction files as [|s files IH]; intros pts Hn Hp Hf; [exists []; reflexivity|].
    cbn [extract_files]. destruct (Hf s (or_introl eq_refl)) as (Fr & around & x0 & dx & nx & y0 & dy & ny & G & Hl). pose proof G as (Gx & Gy & Nx & Ny & _).
    rewrite (evenly_spacing x0 dx nx) by auto. cbn [bind].
    destruct (adjust_ok (slon s) pts) as (pts' & Ea); auto. { intros K. destruct Gx as (_ & L & _). rewrite K in L. cbn in L. lia. }
    rewrite Ea. cbn [bind]. apply (adjust_placed fr) in Ea; auto. subst pts'.
    destruct (extend_sheet_grid src _ _ _ _ _ _ _ _ G) as (e & -> & Hx & Hlat & Rh & _). cbn [bind]. rewrite <- Hlat in Gy.
    destruct (sheet_constant_ok src me sc fr around x0 dx nx y0 dy ny e pts Nx Ny Hx Gy Rh Hl) as (cs & ->). cbn [bind].
    destruct (IH (map (fun p => (placed fr (fst p), snd p)) pts)) as (out & ->).
    - intros K. apply map_eq_nil in K. auto.
    - intros q Hq. apply in_map_iff in Hq as (p & <- & Hin). cbn [fst]. apply placed_twice. auto.
    - intros s' Hs'. destruct (Hf s' (or_intror Hs')) as (Fr' & ar' & x0' & dx' & nx' & y0' & dy' & ny' & G' & Hl'). split; auto. exists ar', x0', dx', nx', y0', dy', ny'. split; auto.
      intros Km q Hq. apply in_map_iff in Hq as (p & <- & Hin). cbn [fst]. rewrite (proj1 (placed_twice fr (fst p) (Hp p Hin))). auto.
    - cbn [bind]. eauto. }
  destruct Go as (out & E). exists out. split; auto. unfold extract_series in E. destruct (amin (map fst pts)); [|discriminate]. cbn [bind] in E.
  apply (extract_files_nth src me sc fr files (fun s Hs => proj1 (Hf s Hs)) pts out Hp E).
Qed.
Print Assumptions C69_returns.

Theorem C69_last_column_refuted : forall src sc fr files pts s p around x0 dx nx y0 dy ny,
  (forall s, In s files -> framed fr (slon s)) -> (forall q, In q pts -> -360 <= fst q <= 540) ->
  In s files -> sheet_grid around x0 dx nx y0 dy ny s ->
  In p pts -> placed fr (fst p) = node_x Heights x0 dx (last_of (behind src) around nx) -> node_y Heights y0 dy 0 < snd p < node_y Heights y0 dy (ny - 1) ->
  exists e, extract_series src Bilinear sc files pts = Err e.
Proof.
  intros src sc fr files pts s p around x0 dx nx y0 dy ny Hf Hp Hs G Hin Hx' Hy'.
  destruct (extract_series src Bilinear sc files pts) as [out|e] eqn:H; [|eauto]. exfalso.
  apply In_nth_error in Hs as (c & Hc). apply In_nth_error in Hin as (n & Hn).
  destruct (series_inv _ _ _ _ _ _ _ _ _ _ _ _ _ _ _ _ _ _ Hf Hp H Hc G Hn) as (e & cs & r & Hx & Hlat & Rh & Nh & O1 & O2 & O3 & O4).
  destruct G as (Gx & Gy & Nx & Ny & Rs & Ga). rewrite <- Hlat in Gy.
  destruct (st_axes (bef around) (aft src around) nx ny x0 dx y0 dy (slon e) (slat e) Hx Gy Nx Ny) as [A1 A2].
  destruct (first_last_lon src around x0 dx nx (slon e) Nx Hx) as [F1 F2]. destruct (first_last_lat y0 dy ny (slat e) Ny Gy) as [F3 F4].
  unfold sheet_constant in O4. destruct (outside_sheet src (slon e) (slat e) (placed fr (fst p), snd p)) as [b|]; [|discriminate]. cbn [bind] in O4.
  rewrite Hx', <- F2 in O4. unfold cbilinear, gbilinear_point in O4. rewrite (axis_min _ A1), (axis_max _ A1), (axis_min _ A2), (axis_max _ A2) in O4. cbn [bind] in O4.
  rewrite (rle_t (nth 0 (slon e) 0)) in O4 by (apply axis_mono; auto; destruct A1; lia). rewrite (rle_t (nth (length (slon e) - 1) (slon e) 0)) in O4 by lra.
  unfold node_y in Hy'. cbn [INR] in Hy'. rewrite F3, F4 in O4. rewrite (rlt_t y0), (rlt_t (snd p)) in O4 by lra. cbn [andb] in O4.
  unfold gbilinear_inside in O4. rewrite brackets_last in O4 by auto. discriminate.
Qed.
Print Assumptions C69_last_column_refuted.

(** ** A model that is neither from 0 to 360 nor from -180 to 180: for a point beyond 180
    degrees the first of two files of the same model gives nothing and the second one its
    constant *)
Theorem C69_alternate_refuted : forall sc s x y around x0 dx nx y0 dy ny out,
  sheet_grid around x0 dx nx y0 dy ny s -> x0 < 0 ->
  (forall j i, (j < ny)%nat -> (i < nx)%nat -> valid (entry (None, true) (shc s) j i) <> None) ->
  180 < x <= node_x Heights x0 dx (Z.of_nat nx - 1) -> x - 360 < node_x Heights x0 dx (first_of around) -> x <= 540 -> y0 <= y <= y0 + INR (ny - 1) * dy ->
  extract_series FES Spline sc [s; s] [(x, y)] = Ok out -> exists r, out = [[None]; [Some r]].
Proof.
  intros sc s x y around x0 dx nx y0 dy ny out G Hx0 Hv Hx' Hx'' Hxx Hy' H.
  destruct (extend_sheet_grid FES _ _ _ _ _ _ _ _ G) as (e & Ee & Hx & Hlat & Rh & Nh). destruct G as (Gx & Gy & Nx & Ny & Rs & Ga).
  pose proof Gy as Gy'. rewrite <- Hlat in Gy'. assert (Hdx : 0 < dx) by apply Gx. assert (Hdy : 0 < dy) by apply Gy.
  destruct (st_axes (bef around) (aft FES around) nx ny x0 dx y0 dy (slon e) (slat e) Hx Gy' Nx Ny) as [A1 A2].
  destruct (first_last_lon FES around x0 dx nx (slon e) Nx Hx) as [F1 F2]. destruct (first_last_lat y0 dy ny (slat e) Ny Gy') as [F3 F4].
  destruct (st_lengths (bef around) (aft FES around) nx ny x0 dx y0 dy (slon e) (slat e) Hx Gy') as [L1 L2].
  destruct (evenly_ends x0 dx nx (slon s) Gx Nx) as [Es1 Es2].
  assert (Ehi : x0 + INR (nx - 1) * dx = node_x Heights x0 dx (Z.of_nat nx - 1)) by (unfold node_x; rewrite minus_INR by lia; rewrite minus_IZR, <- INR_IZR_INZ; reflexivity).
  rewrite Ehi in Es2.
  assert (A : adjust (slon s) [(x, y)] = Ok [(x - 360, y)]).
  { unfold adjust. cbn [map fst snd amin amax rmin_list rmax_list fold_right bind]. rewrite Es1, Es2. cbn [bind]. unfold rmin_list, rmax_list. cbn [fold_right].
    rewrite (rlt_f x 0) by lra. rewrite (rlt_t 180 x), (rlt_t x0 0) by lra. reflexivity. }
  assert (B : adjust (slon s) [(x - 360, y)] = Ok [(x, y)] \/ x = 540).
  { destruct (Req_dec x 540) as [->|K]; [now right|left].
    unfold adjust. cbn [map fst snd amin amax bind]. rewrite Es1, Es2. cbn [bind]. unfold rmin_list, rmax_list. cbn [fold_right].
    destruct (Rlt_le_dec (x - 360) 0).
    - rewrite (rlt_t (x - 360) 0), (rlt_t 180) by lra. cbn [andb]. do 3 f_equal. lra.
    - exfalso. unfold node_x, first_of in Hx''. destruct around; lra. }
  destruct B as [B | ->].
  2:{ exfalso. unfold node_x, first_of in Hx''. destruct around; lra. }
  unfold extract_series in H. cbn [map fst amin rmin_list fold_right bind] in H.
  cbn [extract_files] in H. rewrite (evenly_spacing x0 dx nx) in H by auto. cbn [bind] in H. rewrite A in H. cbn [bind] in H. rewrite Ee in H. cbn [bind] in H. rewrite B in H. cbn [bind] in H.
  cbn [mapM] in H.
  assert (C1 : sheet_constant FES Spline sc e (x - 360, y) = Ok None).
  { unfold sheet_constant. cbn [outside_sheet]. unfold outside_axes. rewrite (axis_min _ A1), (axis_max _ A1), (axis_min _ A2), (axis_max _ A2). cbn [bind fst snd].
    rewrite F1, (rlt_t (x - 360)) by lra. cbn [orb].
    destruct (spline_total (0, 0) cadd cscale (slon e) (slat e) (shc e) (x - 360, y) A1 A2) as (h & Eh); [now rewrite L1, L2|].
    unfold cspline. match goal with |- bind ?m _ = _ => replace m with (Ok h) by (symmetry; exact Eh) end. cbn [bind]. unfold settled. now rewrite orb_true_r. }
  rewrite C1 in H. cbn [bind] in H.
  assert (Hlast : node_x Heights x0 dx (Z.of_nat nx - 1) <= node_x Heights x0 dx (last_of (behind FES) around nx)).
  { unfold node_x. assert (IZR (Z.of_nat nx - 1) <= IZR (last_of (behind FES) around nx)) by (apply IZR_le; unfold last_of, behind; destruct around; lia). nra. }
  assert (Hfirst : node_x Heights x0 dx (first_of around) <= x0) by (unfold node_x, first_of; destruct around; lra).
  assert (C2 : exists r, sheet_constant FES Spline sc e (x, y) = Ok (Some r)).
  { unfold sheet_constant. rewrite (inside_sheet FES around x0 dx nx y0 dy ny) by (auto; lra). cbn [bind].
    destruct (between_exists (slon e) x A1) as (ix & Lx & Bx). destruct (between_exists (slat e) y A2) as (iy & Ly & By). rewrite F1, F2 in Bx. rewrite F3, F4 in By.
    assert (Id : forall lo hi v, lo <= v <= hi -> nearest_within lo hi v = v) by (intros lo hi v K; unfold nearest_within; rewrite Rmin_right, Rmax_right by lra; reflexivity).
    rewrite Id in Bx by lra. rewrite Id in By by lra. rewrite L1 in Lx, Bx. rewrite L2 in Ly, By.
    set (i := (Z.of_nat ix - Z.of_nat (bef around))%Z).
    assert (Wi : within (bef around) (aft FES around) nx i) by (unfold within, i; lia).
    assert (Wi1 : within (bef around) (aft FES around) nx (i + 1)) by (unfold within, i; lia).
    assert (Ei : ix = ec (bef around) i) by (unfold ec, i; lia). assert (Ei1 : S ix = ec (bef around) (i + 1)) by (unfold ec, i; lia).
    rewrite Ei1, Ei in Bx. rewrite !(ec_x (bef around) (aft FES around) nx x0 dx (slon e) Hx) in Bx by auto.
    rewrite !(row_y ny y0 dy (slat e) Gy') in By by lia.
    destruct (st_spline (bef around) (aft FES around) nx ny x0 dx y0 dy (slon e) (slat e) Hx Gy' Nx Ny (shc e) (fun j i => valid (entry (None, true) (shc s) j i)) Rh x y i iy) as (v & m & Es & Zc & Zn); auto.
    - intros j' i' Hj' Hi'. rewrite Nh by auto. specialize (Hv j' (column nx i') Hj' (column_lt nx i' Nx)). unfold valid in Hv. destruct (snd _); [congruence|exact Hv].
    - intros j' i' Hj' Hi'. now rewrite Nh by auto.
    - destruct Bx as [Bx|[K Bx]]; [now left|right]. split; auto. unfold ec, bef, aft, i in *. destruct around; lia.
    - rewrite Es. cbn [bind]. destruct Zc as [-> _].
      + intros q Hq _. unfold corners in Hq. destruct Hq as [<-|[<-|[<-|[<-|[]]]]]; cbn [snd]; apply Hv; try lia; now apply column_lt.
      + unfold settled. cbn. eauto. }
  destruct C2 as (r & C2). rewrite C2 in H. cbn [bind] in H. apply Ok_inj in H as <-. eauto.
Qed.
Print Assumptions C69_alternate_refuted.
