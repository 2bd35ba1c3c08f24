(** C82: extraction with the methods linear and nearest succeeds, and reading the
    constants of FES and GOT models first gives the same. *)
From Coq Require Import Reals List Bool Arith ZArith Lra Lia.
From Verif Require Import PyBase RBase MathModel GeoModel ConvertProps GridModel InterpModel InterpProps ExtractModel ExtractSpec NodeProps ExtractProofs ExtractProps SplineProps ReturnProps MergeSpec MergeProps SeriesModel SeriesSpec SeriesProofs SeriesProps SeriesProps2 SeriesProps3 AtlasNcModel RegularModel RegularSpec RegularProofs RegularProps.
From Verif Require MaskModel.
Import ListNotations.
Open Scope R_scope.

(** ** Extraction succeeds for every point *)
Lemma sheet_regular_ok src me sc fr around x0 dx nx y0 dy ny e pts : me <> Unknown -> (2 <= nx)%nat -> (2 <= ny)%nat ->
  evenly (x0 - INR (bef around) * dx) dx (bef around + nx + aft src around) (slon e) -> evenly y0 dy ny (slat e) -> rect ny (bef around + nx + aft src around) (shc e) ->
  exists cs, mapM (sheet_regular src me sc e) (map (fun p => (placed fr (fst p), snd p)) pts) = Ok cs.
Proof.
  intros Hm Nx Ny Hx Hy Rh. destruct (st_axes (bef around) (aft src around) nx ny x0 dx y0 dy (slon e) (slat e) Hx Hy Nx Ny) as [A1 A2].
  destruct (st_lengths (bef around) (aft src around) nx ny x0 dx y0 dy (slon e) (slat e) Hx Hy) as [L1 L2].
  apply mapM_total. intros q _. unfold sheet_regular.
  assert (exists b, outside_sheet src (slon e) (slat e) q = Ok b) as (b & ->) by (destruct src; [apply outside_total; auto|exists false; reflexivity]). cbn [bind].
  destruct (regular_total (0, 0) cadd cscale me (slon e) (slat e) (shc e) q Hm A1 A2) as (h & Eh); [now rewrite L1, L2|].
  unfold cregular. match goal with |- exists _, bind ?m _ = _ => replace m with (Ok h) by (symmetry; exact Eh) end. cbn [bind]. eauto.
Qed.
Theorem C82_returns : forall src me sc fr files pts, me <> Unknown ->
  pts <> [] -> (forall q, In q pts -> -360 <= fst q <= 540) ->
  (forall s, In s files -> framed fr (slon s) /\ exists around x0 dx nx y0 dy ny, sheet_grid around x0 dx nx y0 dy ny s) ->
  exists out, extract_series_regular src me sc files pts = Ok out /\ length out = length files.
Proof.
  intros src me sc fr files pts Hm Hn Hp Hf.
  assert (Go : exists out, extract_series_regular src me sc files pts = Ok out).
  { unfold extract_series_regular. destruct pts as [|q0 t] eqn:Ept; [congruence|]. rewrite <- Ept in *. replace (amin (map fst pts)) with (Ok (rmin_list (fst q0) (map fst t))) by (rewrite Ept; reflexivity). cbn [bind].
    clear Ept. clear q0 t. revert pts Hn Hp. induction files as [|s files IH]; intros pts Hn Hp; [exists []; reflexivity|].
    cbn [extract_files_regular]. destruct (Hf s (or_introl eq_refl)) as (Fr & around & x0 & dx & nx & y0 & dy & ny & G). pose proof G as (Gx & Gy & Nx & Ny & _).
    rewrite (evenly_spacing x0 dx nx) by auto. cbn [bind].
    destruct (adjust_ok (slon s) pts) as (pts' & Ea); auto. { intros K. destruct Gx as (_ & L & _). rewrite K in L. cbn in L. lia. }
    rewrite Ea. cbn [bind]. apply (adjust_placed fr) in Ea; auto. subst pts'.
    destruct (extend_sheet_grid src _ _ _ _ _ _ _ _ G) as (e & -> & Hx & Hlat & Rh & _). cbn [bind]. rewrite <- Hlat in Gy.
    destruct (sheet_regular_ok src me sc fr around x0 dx nx y0 dy ny e pts Hm Nx Ny Hx Gy Rh) as (cs & ->). cbn [bind].
    destruct (IH (fun s' Hs' => Hf s' (or_intror Hs')) (map (fun p => (placed fr (fst p), snd p)) pts)) as (out & ->).
    - intros K. apply map_eq_nil in K. auto.
    - intros q Hq. apply in_map_iff in Hq as (p & <- & Hin). cbn [fst]. apply placed_twice. auto.
    - cbn [bind]. eauto. }
  destruct Go as (out & E). exists out. split; auto. unfold extract_series_regular in E. destruct (amin (map fst pts)); [|discriminate]. cbn [bind] in E.
  apply (extract_regular_nth src me sc fr files (fun s Hs => proj1 (Hf s Hs)) pts out Hp E).
Qed.
Print Assumptions C82_returns.

(** a method of another name is refused *)
Theorem C82_unknown : forall src sc files pts out, extract_series_regular src Unknown sc files pts = Ok out -> files = [].
Proof.
  intros src sc files pts out H. destruct files as [|s files]; [reflexivity|]. exfalso. unfold extract_series_regular in H.
  destruct pts as [|p pts]; [discriminate|]. cbn [map amin bind extract_files_regular] in H. destruct (spacing (slon s)); [|discriminate]. cbn [bind] in H.
  destruct (adjust (slon s) (p :: pts)) as [pts'|] eqn:Ea; [|discriminate]. cbn [bind] in H. destruct (extend_sheet src s) as [e|]; [|discriminate]. cbn [bind] in H.
  destruct pts' as [|q t].
  { unfold adjust in Ea. cbn [map amin amax bind] in Ea. destruct (amin (slon s)); [|discriminate]. destruct (amax (slon s)); [|discriminate]. cbn [bind] in Ea. apply Ok_inj in Ea.
    destruct (_ && _); [discriminate|]. destruct (_ && _); discriminate. }
  cbn [mapM] in H. unfold sheet_regular at 1 in H. destruct (outside_sheet _ _ _ _); [|discriminate]. cbn [bind] in H. unfold cregular, gregular_point in H.
  destruct (negb _); [discriminate|]. destruct (outside_axes _ _ _); discriminate.
Qed.
Print Assumptions C82_unknown.

(** ** Replacing invalid values by the fill value changes nothing *)
Lemma amplitude_phase_one z z' a p : amplitude_phase z a p -> amplitude_phase z' a p -> z = z'.
Proof. intros (_ & _ & E1 & E2) (_ & _ & E3 & E4). destruct z, z'. cbn [fst snd] in *. congruence. Qed.
Lemma settled_to_regular sc inv h h' : settled Spline 1 false h = settled Spline 1 false h' -> settled_regular sc inv h = settled_regular sc inv h'.
Proof.
  unfold settled, settled_regular. rewrite !orb_false_r. destruct h as [v m], h' as [v' m']. cbn [fst snd]. intros H.
  assert (K : forall (v : option (R * R)) (m : bool), (if m then None else match v with Some z => Some (cabs z * 1, phase_of z) | None => None end) = None ->
    (if m || is_fill (v, m) || inv then None else match v with Some z => Some (cabs z * sc, phase_of z) | None => None end) = None).
  { intros [u|] [] E; try discriminate; cbn [orb]; auto. now destruct (_ || inv). }
  destruct m; [rewrite (K v' m') by auto; reflexivity|]. destruct v as [z|].
  - destruct m'; [discriminate|]. destruct v' as [z'|]; [|discriminate]. injection H as H1 H2. rewrite !Rmult_1_r in H1.
    assert (z = z') as <-; [|reflexivity]. apply (amplitude_phase_one z z' (cabs z) (phase_of z)); [apply phase_of_spec|]. rewrite H1, H2. apply phase_of_spec.
  - rewrite (K v' m') by auto. cbn [orb is_fill fst]. now destruct inv.
Qed.
Lemma settled_filled sc inv c : settled_regular sc inv c = settled_regular sc inv (filled Spline c).
Proof. unfold settled_regular, filled. destruct c as [v []]; reflexivity. Qed.
Lemma regular_same me sc inv ilon ilat g q : axis ilon -> axis ilat -> rect (length ilat) (length ilon) g ->
  (me = Linear -> forall j i, (j < length ilat)%nat -> (i < length ilon)%nat -> fst (entry (None, true) g j i) <> None) ->
  (do h <- cregular me ilon ilat g q ;; Ok (settled_regular sc inv h)) = (do h <- cregular me ilon ilat (map (map (filled Spline)) g) q ;; Ok (settled_regular sc inv h)).
Proof.
  intros A1 A2 Rg Hn. unfold cregular. destruct me.
  - destruct (boxed_dec ilon ilat q) as [B|B]; [|now rewrite !regular_outside by (auto; discriminate)]. rewrite !regular_linear by auto.
    pose proof (spline_same 1 false ilon ilat g q A1 A2 Rg (Hn eq_refl)) as E. unfold cspline in E.
    destruct (gspline_point (0, 0) cadd cscale ilon ilat g q) as [h|], (gspline_point (0, 0) cadd cscale ilon ilat (map (map (filled Spline)) g) q) as [h'|]; cbn [bind] in *; try discriminate; try congruence.
    apply Ok_inj in E. f_equal. now apply settled_to_regular.
  - unfold gregular_point. destruct (negb _); [reflexivity|]. destruct (outside_axes ilon ilat q) as [[]|]; try reflexivity. cbn [bind].
    destruct (MaskModel.nearer ilon (fst q)); [|reflexivity]. cbn [bind]. destruct (MaskModel.nearer ilat (snd q)); [|reflexivity]. cbn [bind]. rewrite gget2_map.
    destruct (gget2 g _ _); [|reflexivity]. cbn [bind]. now rewrite settled_filled.
  - unfold gregular_point. destruct (negb _); [reflexivity|]. destruct (outside_axes ilon ilat q); reflexivity.
Qed.

(** ** Extraction as one pass over the files *)
Lemma extract_regular_mapM src me sc fr files : (forall s, In s files -> framed fr (slon s) /\ exists d, spacing (slon s) = Ok d) -> forall pts,
  pts <> [] -> (forall q, In q pts -> -360 <= fst q <= 540) ->
  extract_files_regular src me sc files pts = mapM (fun s => do e <- extend_sheet src s ;; mapM (sheet_regular src me sc e) (map (fun p => (placed fr (fst p), snd p)) pts)) files.
Proof.
  induction files as [|s files IH]; intros Hf pts Hn Hp; [reflexivity|]. cbn [extract_files_regular mapM].
  destruct (Hf s (or_introl eq_refl)) as [Fr (d & Ed)]. rewrite Ed. cbn [bind].
  destruct (adjust_ok (slon s) pts) as (pts' & Ea); auto. { intros K. rewrite K in Ed. discriminate. }
  rewrite Ea. cbn [bind]. apply (adjust_placed fr) in Ea; auto. subst pts'. destruct (extend_sheet src s) as [e|]; [|reflexivity]. cbn [bind].
  destruct (mapM (sheet_regular src me sc e) _) as [cs|]; [|reflexivity]. cbn [bind].
  rewrite IH; [|intros; apply Hf; now right|intros K; apply map_eq_nil in K; auto|intros q Hq; apply in_map_iff in Hq as (p & <- & Hin); cbn [fst]; apply placed_twice; auto].
  replace (map (fun p : R * R => (placed fr (fst p), snd p)) (map (fun p : R * R => (placed fr (fst p), snd p)) pts)) with (map (fun p : R * R => (placed fr (fst p), snd p)) pts); [reflexivity|].
  rewrite map_map. apply map_ext_in. intros p Hin. cbn [fst snd]. now rewrite (proj1 (placed_twice fr (fst p) (Hp p Hin))).
Qed.

(** ** C82: reading the constants and interpolating them gives the same *)
Theorem C82_read : forall src me sc fr files pts around x0 dx nx y0 dy ny,
  files <> [] ->
  (forall s, In s files -> framed fr (slon s) /\ sheet_grid around x0 dx nx y0 dy ny s /\ (me = Linear -> numbers ny nx s)) ->
  (forall q, In q pts -> -360 <= fst q <= 540) -> same_frame src fr around x0 dx nx pts ->
  exists t, read_series src files = Ok t /\ interpolate_series_regular src me sc t pts = extract_series_regular src me sc files pts.
Proof.
  intros src me sc fr files pts around x0 dx nx y0 dy ny Hne Hf Hp Hs.
  assert (Re : exists es, mapM (extend_sheet src) files = Ok es).
  { clear Hne. induction files as [|s files IH]; [exists []; reflexivity|]. destruct (Hf s (or_introl eq_refl)) as (_ & G & _). destruct (extend_sheet_grid src _ _ _ _ _ _ _ _ G) as (e & Ee & _).
    destruct IH as (es & E); [intros; apply Hf; now right|]. exists (e :: es). cbn [mapM]. rewrite Ee. cbn [bind]. rewrite E. reflexivity. }
  destruct Re as (es & Ees). unfold read_series. rewrite Ees. cbn [bind]. eexists. split; [reflexivity|]. unfold interpolate_series_regular. cbn [taxes tfields].
  assert (Le : length es = length files) by apply (mapM_len _ _ _ Ees).
  assert (Ge : forall n s e, nth_error files n = Some s -> nth_error es n = Some e -> extend_sheet src s = Ok e).
  { intros n s e H1 H2. destruct (mapM_nth _ _ _ _ _ Ees H1) as (e' & E1 & E2). congruence. }
  destruct files as [|s0 files']; [congruence|]. clear Hne.
  destruct (Hf s0 (or_introl eq_refl)) as (Fr0 & G0 & _). destruct (extend_sheet_grid src _ _ _ _ _ _ _ _ G0) as (e0 & _ & Hx0 & Hlat0 & _).
  assert (Gy0 : evenly y0 dy ny (slat s0)) by apply G0.
  assert (Ax : forall e, In e es -> slon e = slon e0 /\ slat e = slat s0).
  { intros e He. apply In_nth_error in He as (n & Hn). assert (Hn' : (n < length (s0 :: files'))%nat) by (rewrite <- Le; apply nth_error_Some; congruence).
    apply nth_error_Some in Hn'. destruct (nth_error (s0 :: files') n) as [s|] eqn:Es; [|congruence]. specialize (Ge n s e Es Hn).
    destruct (Hf s (nth_error_In _ _ Es)) as (_ & G & _). destruct (extend_sheet_grid src _ _ _ _ _ _ _ _ G) as (e' & Ee & Hx & Hlat & _). rewrite Ge in Ee. apply Ok_inj in Ee as <-.
    split; [now apply (evenly_unique _ _ _ _ _ Hx Hx0)|]. rewrite Hlat. apply (evenly_unique y0 dy ny); [apply G|auto]. }
  assert (Last : fold_left (fun (_ : option (list R * list R)) e => Some (slon e, slat e)) es None = Some (slon e0, slat s0)).
  { destruct es as [|e1 es]; [discriminate|]. cbn [fold_left]. rewrite (proj1 (Ax e1 (or_introl eq_refl))), (proj2 (Ax e1 (or_introl eq_refl))).
    assert (K : forall e, In e es -> slon e = slon e0 /\ slat e = slat s0) by (intros; apply Ax; now right). clear - K. induction es as [|e es IH]; [reflexivity|].
    cbn [fold_left]. rewrite (proj1 (K e (or_introl eq_refl))), (proj2 (K e (or_introl eq_refl))). apply IH. intros; apply K; now right. }
  rewrite Last. destruct pts as [|q0 t0] eqn:Ept; [reflexivity|]. rewrite <- Ept in *. assert (Hn : pts <> []) by (rewrite Ept; discriminate).
  rewrite (adjust_longer src fr around x0 dx nx y0 dy ny s0 (slon e0) pts G0 Fr0 Hx0 Hn Hs). cbn [bind]. unfold extract_series_regular.
  replace (amin (map fst pts)) with (Ok (rmin_list (fst q0) (map fst t0))) by (rewrite Ept; reflexivity). cbn [bind].
  rewrite (extract_regular_mapM src me sc fr) by (auto; intros s Hs'; destruct (Hf s Hs') as (F & G & _); split; auto; exists dx; apply (evenly_spacing x0 dx nx); apply G).
  assert (Pw : forall s e q, In s (s0 :: files') -> extend_sheet src s = Ok e -> sheet_regular src me sc e q = tide_regular src me sc (slon e0) (slat s0) (shc e) q).
  { intros s e q Hin Ee. destruct (Hf s Hin) as (_ & G & Hnum). destruct (extend_sheet_grid src _ _ _ _ _ _ _ _ G) as (e' & Ee' & Hx & Hlat & Rh & Nh). rewrite Ee in Ee'. apply Ok_inj in Ee' as <-.
    destruct G as (Gx & Gy & Nx & Ny & _). assert (E1 : slon e = slon e0) by apply (evenly_unique _ _ _ _ _ Hx Hx0). assert (E2 : slat e = slat s0) by (rewrite Hlat; apply (evenly_unique _ _ _ _ _ Gy Gy0)).
    unfold sheet_regular, tide_regular. rewrite <- E1, <- E2. destruct (outside_sheet src (slon e) (slat e) q) as [b|]; [|reflexivity]. cbn [bind].
    rewrite <- Hlat in Gy. destruct (st_axes (bef around) (aft src around) nx ny x0 dx y0 dy (slon e) (slat e) Hx Gy Nx Ny) as [A1 A2].
    destruct (st_lengths (bef around) (aft src around) nx ny x0 dx y0 dy (slon e) (slat e) Hx Gy) as [L1 L2]. apply regular_same; auto; [now rewrite L1, L2|]. intros Km. rewrite L1, L2.
    intros j i Hj Hi. replace i with (ec (bef around) (Z.of_nat i - Z.of_nat (bef around))) by (unfold ec; lia). rewrite Nh by (auto; unfold within; lia).
    apply (Hnum Km); auto. now apply column_lt. }
  clear Last Ax Le Ge. revert es Ees Pw. clear Hf Fr0 G0. generalize (s0 :: files') as fl. intros fl. induction fl as [|s fl IH]; intros es Ees Pw.
  - cbn in Ees. apply Ok_inj in Ees as <-. reflexivity.
  - cbn [mapM] in Ees. destruct (extend_sheet src s) as [e|] eqn:Ee; [|discriminate]. cbn [bind] in Ees. destruct (mapM (extend_sheet src) fl) as [es'|] eqn:E'; [|discriminate]. cbn [bind] in Ees. apply Ok_inj in Ees as <-.
    cbn [map mapM]. rewrite Ee. cbn [bind]. rewrite (IH es' eq_refl) by (intros s' e' q' Hin He'; apply (Pw s'); auto; now right).
    rewrite (mapM_ext_in (tide_regular src me sc (slon e0) (slat s0) (shc e)) (sheet_regular src me sc e)); [reflexivity|]. intros q _. symmetry. apply (Pw s); auto. now left.
Qed.
Print Assumptions C82_read.
