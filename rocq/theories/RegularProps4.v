(** C82: constants of OTIS models with the methods linear and nearest. *)
From Coq Require Import Reals List Bool Arith ZArith Lra Lia.
From Verif Require Import PyBase RBase MathModel GeoModel ConvertProps GridModel InterpModel InterpProps ExtractModel ExtractSpec NodeProps ExtractProofs ExtractProps SplineProps ReadProps ReturnProps SeriesModel SeriesProps3 AtlasNcModel RegularModel RegularSpec RegularProofs.
From Verif Require RegularProps.
From Verif Require MaskModel.
Import ListNotations.
Open Scope R_scope.

(** ** What extraction computes for each point *)
Lemma regular_otis_inv fwd geo around me t k x0 dx nx y0 dy ny g hcs lonlat out :
  model_grid geo around x0 dx nx y0 dy ny g hcs -> kind_of t = Some k ->
  extract_otis_regular fwd geo me t g hcs lonlat = Ok out ->
  exists xe xi yi b fs,
    evenly (if around then x0 - dx else x0) dx (ncols around nx) xe /\
    evenly (node_x k (if around then x0 - dx else x0) dx 0) dx (ncols around nx) xi /\
    evenly (node_y k y0 dy 0) dy ny yi /\ rect ny (ncols around nx) b /\
    (forall j e, (j < ny)%nat -> (e < ncols around nx)%nat -> sound_column k around (col around nx e) ->
      depth_entry (water (entry 0 (ghz g)) (entry 0%Z (gmz g)) around nx k j (col around nx e)) (entry (None, true) b j e)) /\
    mapM (fun hc => do e <- extend_if around hc ;; remask b e) hcs = Ok fs /\
    length out = length lonlat /\
    forall n p x, nth_error lonlat n = Some p -> ExtractProps.placed fwd geo x0 dx nx lonlat p x ->
      exists D inv cs, nth_error out n = Some (D, cs) /\ rregular me xi yi b (x, snd (fwd p)) = Ok D /\
        outside_axes xe (gy g) (x, snd (fwd p)) = Ok inv /\ mapM (constant_regular me xi yi t D inv (x, snd (fwd p))) fs = Ok cs.
Proof.
  intros M Hk H. pose proof (around_test _ _ _ _ _ _ _ _ _ _ M) as Ha. destruct (around_axis _ _ _ _ _ _ _ _ _ _ M) as (xe & Exe & Hxe).
  destruct M as (Ex & Ey & Hx & Hy & Rh & Rm & Rc & _).
  unfold extract_otis_regular in H. rewrite (evenly_spacing x0 dx nx), (evenly_spacing y0 dy ny) in H by auto. cbn [bind] in H.
  destruct (evenly_ends x0 dx nx (gx g) Ex Hx) as [-> ->] in H. cbn [bind] in H.
  destruct (batch geo x0 (x0 + INR (nx - 1) * dx) (map fwd lonlat)) as [pts|] eqn:Eb in H; [|discriminate]. cbn [bind] in H.
  rewrite Ha in H. rewrite Exe in H. cbn [bind] in H.
  destruct (mapM (outside_axes xe (gy g)) pts) as [invs|] eqn:Ei in H; [|discriminate]. cbn [bind] in H.
  destruct (layer_entries around dx dy x0 y0 xe (gy g) g t k ny nx Hk Rh Rm Hy Hx Hxe Ey) as (xi & yi & b & El & Hxi & Hyi & Rb & Nb).
  rewrite El in H. cbn [bind] in H.
  destruct (mapM (rregular me xi yi b) pts) as [ds|] eqn:Ed in H; [|discriminate]. cbn [bind] in H.
  destruct (mapM (fun hc => do e <- extend_if around hc ;; remask b e) hcs) as [fs|] eqn:Ef in H; [|discriminate]. cbn [bind] in H.
  exists xe, xi, yi, b, fs. repeat (split; [first [assumption | reflexivity]|]).
  pose proof (mapM_len _ _ _ Ei) as L1. pose proof (mapM_len _ _ _ Ed) as L2. pose proof (mapM_len _ _ _ H) as L3. pose proof (batch_len _ _ _ _ _ Eb) as L'. rewrite map_length in L'.
  split; [rewrite L3, !combine_length; lia|].
  intros n p x Hn C. assert (Hq : nth_error pts n = Some (x, snd (fwd p))) by (apply (batch_nth _ _ _ _ _ n (fwd p) x Eb); [now apply map_nth_error|now rewrite map_map]).
  destruct (mapM_nth _ _ _ _ _ Ei Hq) as (inv & I1 & I2). destruct (mapM_nth _ _ _ _ _ Ed Hq) as (D & D1 & D2).
  destruct (mapM_nth _ _ _ n ((x, snd (fwd p)), (inv, D)) H) as (r & R1 & R2); [now repeat apply nth_error_combine|].
  cbn beta iota in R1. destruct (mapM (constant_regular me xi yi t D inv (x, snd (fwd p))) fs) as [cs|] eqn:Ec in R1; [|discriminate]. cbn [bind] in R1. apply Ok_inj in R1 as <-.
  exists D, inv, cs. auto.
Qed.
(** the box of the nodes *)
Lemma nodes_boxed (around : bool) k x0 dx nx y0 dy ny xi yi x y : evenly (node_x k (if around then x0 - dx else x0) dx 0) dx (ncols around nx) xi -> evenly (node_y k y0 dy 0) dy ny yi ->
  (2 <= nx)%nat -> (2 <= ny)%nat ->
  boxed xi yi (x, y) <-> node_x k x0 dx (first_column around) <= x <= node_x k x0 dx (last_column around nx) /\ node_y k y0 dy 0 <= y <= node_y k y0 dy (ny - 1).
Proof.
  intros Hx Hy Nx Ny. pose proof (eastern_nth around k x0 dx nx xi Hx Nx) as F2. unfold eastern in F2.
  assert (F1 : nth 0 xi 0 = node_x k x0 dx (first_column around)).
  { rewrite <- (ecol_x around k x0 dx nx xi (first_column around) Hx Nx) by (unfold columns, first_column; destruct around; lia). now destruct around. }
  unfold boxed. cbn [fst snd]. rewrite F1, F2. assert (Ly : length yi = ny) by apply Hy. rewrite Ly.
  rewrite (node_y_nth k y0 dy ny yi 0), (node_y_nth k y0 dy ny yi (ny - 1)) by (auto; lia). reflexivity.
Qed.
Lemma is_fill_t m : is_fill (Some fill_number, m) = true.
Proof. unfold is_fill. cbn [fst]. now rewrite !req_t. Qed.

(** the value of a point where there is water *)
Lemma regular_returned t w v m d : w = Some d -> unfilled (Some v) -> returned (velocity t) w (Some v)
  (if is_fill (Some v, m) || snd (w, false) || false then None else match fst (Some v, m) with Some z => Some (convert t (w, false) z, phase_of z) | None => None end).
Proof.
  intros -> Hu. rewrite RegularProps.is_fill_not by auto. cbn [fst snd orb]. exists (cabs v), (phase_of v). split; [destruct v; apply phase_of_spec|].
  unfold convert, velocity. destruct t; reflexivity.
Qed.

(** ** C82: with the method linear: the bilinear interpolant of the numbers in the file at
    the four nodes around, if these are water, whatever their own mask *)
Theorem C82_otis_linear : forall fwd geo around t k x0 dx nx y0 dy ny g hcs lonlat out n p x y i j,
  model_grid geo around x0 dx nx y0 dy ny g hcs -> kind_of t = Some k ->
  (forall hc, In hc hcs -> forall j i, (j < ny)%nat -> (i < nx)%nat -> fst (entry (None, true) hc j i) <> None) ->
  extract_otis_regular fwd geo Linear t g hcs lonlat = Ok out -> nth_error lonlat n = Some p ->
  convention geo x0 (x0 + INR (nx - 1) * dx) (map (fun p => fst (fwd p)) lonlat) (fst (fwd p)) x -> snd (fwd p) = y ->
  reach around x0 dx nx x -> in_rows y0 dy ny (x, y) ->
  columns around nx i -> columns around nx (i + 1) -> (S j < ny)%nat ->
  bracket (i + 1 = last_column around nx)%Z (node_x k x0 dx i) (node_x k x0 dx (i + 1)) x ->
  bracket (S (S j) = ny) (node_y k y0 dy j) (node_y k y0 dy (S j)) y ->
  (k = Zonal -> around = true \/ (0 < i)%Z) ->
  let w := water (entry 0 (ghz g)) (entry 0%Z (gmz g)) around nx k in
  let ws := corners k x0 dx y0 dy nx x y i j w in
  exists D cs, nth_error out n = Some (D, cs) /\ length cs = length hcs /\
    (complete ws -> D = (mean ws, false) /\ mean ws <> None) /\ (~ complete ws -> snd D = true) /\
    forall c hc, nth_error hcs c = Some hc ->
      let z := corners k x0 dx y0 dy nx x y i j (fun j i => number (w j i) (entry (None, true) hc j i)) in
      let raw := corners k x0 dx y0 dy nx x y i j (fun j i => fst (entry (None, true) hc j i)) in
      exists r, nth_error cs c = Some r /\
        (complete z -> complete ws /\ both (mean (part fst z)) (mean (part snd z)) = both (mean (part fst raw)) (mean (part snd raw))) /\
        (complete ws -> both (mean (part fst raw)) (mean (part snd raw)) <> None /\
           (unfilled (both (mean (part fst raw)) (mean (part snd raw))) -> returned (velocity t) (mean ws) (both (mean (part fst raw)) (mean (part snd raw))) r)) /\
        (~ complete ws -> r = None).
Proof.
  intros fwd geo around t k x0 dx nx y0 dy ny g hcs lonlat out n p x y i j M Hk Hv H Hn Hc' Hq Hs Hr Ci Ci1 Hj Bx By HZ w ws.
  destruct (regular_otis_inv _ _ _ _ _ _ _ _ _ _ _ _ _ _ _ _ M Hk H) as (xe & xi & yi & b & fs & Hxe & Hxi & Hyi & Rb & Nb & Ef & _ & V).
  destruct M as (Ex & Ey & Hx & Hy & Rh & Rm & Rc & _).
  destruct (V n p x Hn Hc') as (D & inv & cs & O1 & O2 & O3 & O4). rewrite Hq in O2, O3, O4.
  rewrite (inside_valid around x0 dx nx y0 dy ny) in O3 by auto. apply Ok_inj in O3 as <-.
  destruct (first_node around k x0 dx nx y0 dy ny xi yi x y) as [Xf Yf]; auto.
  assert (N2 : (2 <= ncols around nx)%nat) by (unfold ncols; destruct around; lia).
  assert (A1 : axis xi) by (eapply evenly_axis; eauto). assert (A2 : axis yi) by (eapply evenly_axis; eauto).
  assert (Lx : length xi = ncols around nx) by apply Hxi. assert (Ly : length yi = ny) by apply Hyi.
  destruct (bracket_le _ _ _ _ Bx) as [Bx1 Bx2]. destruct (bracket_le _ _ _ _ By) as [By1 By2].
  assert (Xl : x <= node_x k x0 dx (last_column around nx)).
  { rewrite <- (eastern_nth around k x0 dx nx xi Hxi Hx : _ = node_x k x0 dx (last_column around nx)). pose proof (ecol_lt around nx (i + 1) Hx Ci1) as Li1.
    pose proof (axis_mono xi (ecol around (i + 1)) (length xi - 1) A1 ltac:(lia)) as Q. rewrite (ecol_x around k x0 dx nx xi (i + 1) Hxi Hx Ci1) in Q. lra. }
  assert (Yl : y <= node_y k y0 dy (ny - 1)).
  { rewrite <- (node_y_nth k y0 dy ny yi (ny - 1)) by (auto; lia). pose proof (axis_mono yi (S j) (ny - 1) A2 ltac:(lia)). rewrite <- (node_y_nth k y0 dy ny yi (S j)) in By1 by (auto; lia). lra. }
  assert (Bo : boxed xi yi (x, y)).
  { unfold boxed. cbn [fst snd]. rewrite (eastern_nth around k x0 dx nx xi Hxi Hx : _ = node_x k x0 dx (last_column around nx)), Ly, (node_y_nth k y0 dy ny yi (ny - 1)) by (auto; lia). auto. }
  pose proof (spline_values around k x0 dx nx y0 dy ny w xi yi b x y i j Hxi Hyi Hx Hy Rb Nb Xf Yf Ci Ci1 Hj) as SV. cbv zeta in SV. rewrite !Rmin_right in SV by auto.
  destruct (SV Bx By HZ) as (D' & E1 & DC & DN & Vf). clear SV. fold ws in DC, DN.
  unfold rregular in O2. rewrite regular_linear in O2 by auto. unfold rspline in E1. rewrite E1 in O2. apply Ok_inj in O2 as <-.
  exists D', cs. split; [exact O1|]. split; [now rewrite (mapM_len _ _ _ O4), (mapM_len _ _ _ Ef)|]. split; [apply DC|]. split; [exact DN|].
  intros c hc Hc z raw. destruct (fields_entries around ny nx b hcs fs Rb Hx Rc Ef c hc Hc) as (f & Hf & Rf & Nf).
  destruct (mapM_nth _ _ _ _ _ O4 Hf) as (r & Er & Hr'). exists r. split; [exact Hr'|].
  destruct (Vf hc f Rf (Hv hc (nth_error_In _ _ Hc)) Nf) as (v & m & Eh & Ez & Zc & Zn). change (both (mean (part fst raw)) (mean (part snd raw)) = Some v) in Ez.
  unfold constant_regular, cregular in Er. rewrite regular_linear in Er by auto. unfold cspline in Eh.
  match type of Er with bind ?lhs _ = _ => replace lhs with (Ok (Some v, m)) in Er by (symmetry; exact Eh) end. cbn [bind] in Er. apply Ok_inj in Er as <-.
  rewrite Ez. split; [|split].
  - intros K. destruct (Zc K) as (_ & K2 & K3). split; auto.
  - intros K. destruct (DC K) as [-> Md]. split; [discriminate|]. intros Hu. destruct (mean ws) as [d|] eqn:Ed; [|congruence]. rewrite <- Ed. apply (regular_returned t (mean ws) v m d Ed Hu).
  - intros K. rewrite (DN K). now rewrite orb_true_r.
Qed.
Print Assumptions C82_otis_linear.

(** ** C82: with the method nearest: depth and constant of the nearest node of the
    variable, the constant whatever its own mask (unless it is numpy's fill value) *)
Theorem C82_otis_nearest : forall fwd geo around t k x0 dx nx y0 dy ny g hcs lonlat out n p x y a b,
  model_grid geo around x0 dx nx y0 dy ny g hcs -> kind_of t = Some k ->
  extract_otis_regular fwd geo Nearest t g hcs lonlat = Ok out -> nth_error lonlat n = Some p ->
  convention geo x0 (x0 + INR (nx - 1) * dx) (map (fun p => fst (fwd p)) lonlat) (fst (fwd p)) x -> snd (fwd p) = y ->
  reach around x0 dx nx x -> in_rows y0 dy ny (x, y) ->
  x <= node_x k x0 dx (last_column around nx) -> y <= node_y k y0 dy (ny - 1) ->
  columns around nx a -> (b < ny)%nat -> nearest_node k x0 dx y0 dy x y a b ->
  (k = Zonal -> around = true \/ (0 < a)%Z) ->
  let w := water (entry 0 (ghz g)) (entry 0%Z (gmz g)) around nx k b (column nx a) in
  exists D cs, nth_error out n = Some (D, cs) /\ length cs = length hcs /\
    (if snd D then None else fst D) = w /\
    forall c hc, nth_error hcs c = Some hc ->
      let z := fst (entry (None, true) hc b (column nx a)) in
      exists r, nth_error cs c = Some r /\
        (w <> None -> unfilled z -> returned (velocity t) w z r) /\ (w = None -> r = None) /\ (~ unfilled z -> r = None).
Proof.
  intros fwd geo around t k x0 dx nx y0 dy ny g hcs lonlat out n p x y a b' M Hk H Hn Hc' Hq Hs Hr Xl Yl Ca Hb' [Na Nb'] HZ w.
  destruct (regular_otis_inv _ _ _ _ _ _ _ _ _ _ _ _ _ _ _ _ M Hk H) as (xe & xi & yi & b & fs & Hxe & Hxi & Hyi & Rb & Nb & Ef & _ & V).
  destruct M as (Ex & Ey & Hx & Hy & Rh & Rm & Rc & _).
  destruct (V n p x Hn Hc') as (D & inv & cs & O1 & O2 & O3 & O4). rewrite Hq in O2, O3, O4.
  rewrite (inside_valid around x0 dx nx y0 dy ny) in O3 by auto. apply Ok_inj in O3 as <-.
  destruct (first_node around k x0 dx nx y0 dy ny xi yi x y) as [Xf Yf]; auto.
  assert (N2 : (2 <= ncols around nx)%nat) by (unfold ncols; destruct around; lia).
  assert (Lx : length xi = ncols around nx) by apply Hxi. assert (Ly : length yi = ny) by apply Hyi.
  assert (Bo : boxed xi yi (x, y)).
  { unfold boxed. cbn [fst snd]. rewrite (eastern_nth around k x0 dx nx xi Hxi Hx : _ = node_x k x0 dx (last_column around nx)), Ly, (node_y_nth k y0 dy ny yi (ny - 1)) by (auto; lia). auto. }
  pose proof (ecol_lt around nx a Hx Ca) as La.
  assert (Na' : node_x k (if around then x0 - dx else x0) dx 0 + INR (ecol around a) * dx - dx / 2 < x <= node_x k (if around then x0 - dx else x0) dx 0 + INR (ecol around a) * dx + dx / 2).
  { pose proof (ecol_x around k x0 dx nx xi a Hxi Hx Ca) as E. destruct Hxi as (_ & _ & Hxi). rewrite Hxi in E by auto. rewrite E. exact Na. }
  assert (Nb2 : node_y k y0 dy 0 + INR b' * dy - dy / 2 < y <= node_y k y0 dy 0 + INR b' * dy + dy / 2).
  { pose proof (node_y_nth k y0 dy ny yi b' Hyi Hb') as E. destruct Hyi as (_ & _ & Hyi). rewrite Hyi in E by auto. rewrite E. exact Nb'. }
  assert (Sc : sound_column k around (col around nx (ecol around a))).
  { unfold sound_column. destruct k; auto. destruct (HZ eq_refl) as [Ha|Ha]; auto. destruct around; auto. right. rewrite ecol_col by auto. unfold column, columns in *. rewrite Z.mod_small by lia. lia. }
  pose proof (Nb b' (ecol around a) Hb' La Sc) as De. rewrite ecol_col in De by auto. fold w in De.
  unfold rregular in O2. rewrite (regular_nearest 0 Rplus Rmult (node_x k (if around then x0 - dx else x0) dx 0) dx (ncols around nx) xi (node_y k y0 dy 0) dy ny yi b x y (ecol around a) b' (None, true)) in O2 by auto.
  apply Ok_inj in O2. assert (Dw : depth_entry w D) by (rewrite <- O2; exact De). clear De O2. unfold depth_entry in Dw. clearbody w. exists D, cs. split; [exact O1|]. split; [now rewrite (mapM_len _ _ _ O4), (mapM_len _ _ _ Ef)|].
  split.
  { destruct w as [d|]; destruct Dw as [Dw _]; rewrite Dw; reflexivity. }
  intros c hc Hc z. destruct (fields_entries around ny nx b hcs fs Rb Hx Rc Ef c hc Hc) as (f & Hf & Rf & Nf).
  destruct (mapM_nth _ _ _ _ _ O4 Hf) as (r & Er & Hr'). exists r. split; [exact Hr'|].
  unfold constant_regular, cregular in Er.
  rewrite (regular_nearest (0, 0) cadd cscale (node_x k (if around then x0 - dx else x0) dx 0) dx (ncols around nx) xi (node_y k y0 dy 0) dy ny yi f x y (ecol around a) b' (None, true)) in Er by auto.
  cbn [bind] in Er. rewrite Nf, ecol_col in Er by auto. apply Ok_inj in Er as <-. change (fst (entry (None, true) hc b' (column nx a))) with z. set (m := snd (entry (None, true) hc _ _) || _). clearbody m z.
  split; [|split].
  - intros Kw Hu. destruct w as [d|]; [|congruence]. destruct Dw as [-> _]. destruct z as [v|].
    + apply (regular_returned t (Some d) v m d eq_refl Hu).
    + cbn [returned fst snd is_fill orb]. reflexivity.
  - intros Kw. rewrite Kw in Dw. destruct Dw as [-> _]. rewrite orb_true_r. reflexivity.
  - intros Hu. destruct z as [v|]; [|exfalso; apply Hu; discriminate]. cbn [fst]. destruct (is_fill (Some v, m)) eqn:K; [reflexivity|]. exfalso. apply Hu. intros E. injection E as ->.
    change (100000000000000000000, 0) with fill_number in K. now rewrite is_fill_t in K.
Qed.
Print Assumptions C82_otis_nearest.
