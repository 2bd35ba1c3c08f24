(** C68: when extraction succeeds, what interpolating the constituents that were read
    returns by splines, and where the two differ. *)
From Coq Require Import Reals List Bool Arith ZArith Lra Lia.
From Verif Require Import PyBase RBase MathModel GeoModel ConvertProps GridModel InterpModel InterpProps ExtractModel ExtractSpec NodeProps ExtractProofs ExtractProps SplineProps ReadProps.
Import ListNotations.
Open Scope R_scope.

Lemma mapM_total {A B} (f : A -> res B) l : (forall a, In a l -> exists b, f a = Ok b) -> exists l', mapM f l = Ok l'.
Proof.
  induction l as [|a l IH]; intros H; cbn; [eauto|]. destruct (H a (or_introl eq_refl)) as (b & ->). cbn [bind].
  destruct IH as (l' & ->); [intros; apply H; now right|]. cbn [bind]. eauto.
Qed.
Lemma bilinear_total {V} (z : V) a s ilon ilat g lon lat : axis ilon -> axis ilat -> rect (length ilat) (length ilon) g ->
  lon <> nth (length ilon - 1) ilon 0 -> exists c, gbilinear_point z a s ilon ilat g (lon, lat) = Ok c.
Proof.
  intros A1 A2 Rg N.
  destruct (Rlt_le_dec lon (nth 0 ilon 0)); [exists (None, true); apply gpoint_outside; auto|].
  destruct (Rlt_le_dec (nth (length ilon - 1) ilon 0) lon); [exists (None, true); apply gpoint_outside; auto|].
  destruct (Rle_lt_dec lat (nth 0 ilat 0)); [exists (None, true); apply gpoint_outside; auto|].
  destruct (Rle_lt_dec (nth (length ilat - 1) ilat 0) lat); [exists (None, true); apply gpoint_outside; auto|].
  destruct (find_cell ilon lon A1) as (i & Hi & Bi); [split; auto; lra|].
  destruct (find_cell ilat lat A2) as (j & Hj & Bj); [split; auto; lra|].
  eexists. apply (gpoint_eq z a s ilon ilat g lon lat i j A1 A2 Rg). unfold in_cell. repeat split; auto; tauto.
Qed.
Lemma cell_of_bound l : forall n x, (2 <= length l)%nat -> (n <= cell_of n l x /\ S (cell_of n l x) < n + length l)%nat.
Proof.
  induction l as [|a t IH]; intros n x H; [cbn in H; lia|]. destruct t as [|b t]; [cbn in H; lia|]. destruct t as [|c t]; [cbn; lia|].
  change (cell_of n (a :: b :: c :: t) x) with (if rlt x b then n else cell_of (S n) (b :: c :: t) x). destruct (rlt x b); [cbn [length]; lia|].
  specialize (IH (S n) x ltac:(cbn [length]; lia)). cbn [length] in *. lia.
Qed.
Lemma spline_total {V} (z : V) a s ilon ilat g q : axis ilon -> axis ilat -> rect (length ilat) (length ilon) g ->
  exists c, gspline_point z a s ilon ilat g q = Ok c.
Proof.
  intros A1 A2 Rg. unfold gspline_point. rewrite (axis_increasing _ A1), (axis_increasing _ A2). cbn [andb negb].
  rewrite (axis_min _ A1), (axis_max _ A1), (axis_min _ A2), (axis_max _ A2). cbn [bind].
  set (lon := clamp _ _ (fst q)). set (lat := clamp _ _ (snd q)).
  destruct (cell_of_bound ilon 0 lon (proj1 A1)) as [_ B1]. destruct (cell_of_bound ilat 0 lat (proj1 A2)) as [_ B2]. cbn [Nat.add] in B1, B2.
  rewrite !(get1_nth _ 0) by lia. cbn [bind]. rewrite !(gget2_node (length ilat) (length ilon) g) by (auto; lia). cbn [bind]. eauto.
Qed.
Lemma fields_total around ny nx b hcs : rect ny (ncols around nx) b -> (2 <= nx)%nat -> (forall hc, In hc hcs -> rect ny nx hc) ->
  exists fs, mapM (fun hc => do e <- extend_if around hc ;; remask b e) hcs = Ok fs.
Proof.
  intros Rb Hx Hh. apply mapM_total. intros hc Hc.
  destruct (@extend_if_entries (gcell (R * R)) (None, true) around ny nx hc (Hh hc Hc) ltac:(lia)) as (h' & E' & R' & N'). rewrite E'. cbn [bind].
  destruct (remask_entries b ny (ncols around nx) h' Rb R') as (f' & Ef & _). eauto.
Qed.
Lemma outside_total xi yi q : axis xi -> axis yi -> exists i, outside_axes xi yi q = Ok i.
Proof. intros A1 A2. unfold outside_axes. rewrite (axis_min _ A1), (axis_max _ A1), (axis_min _ A2), (axis_max _ A2). cbn [bind]. eauto. Qed.
Lemma points_total {A B C} (g : A -> B -> C -> res (list (option (R * R)))) (l : list (A * (B * C))) :
  (forall q i D, In (q, (i, D)) l -> exists cs, g q i D = Ok cs) ->
  exists out, mapM (fun p => let '(q, (i, D)) := p in do cs <- g q i D ;; Ok (D, cs)) l = Ok out.
Proof. intros H. apply mapM_total. intros [q [i D]] Hin. destruct (H q i D Hin) as (cs & ->). cbn [bind]. eauto. Qed.
Lemma clean_rect ny nx (b : list (list (gcell R))) : rect ny nx b -> rect ny nx (map (map (fun c : gcell R => (if snd c then None else fst c, snd c) : gcell R)) b).
Proof. apply map_rect. Qed.

(** the longitude at which the bilinear search finds no cell: the last column of the nodes *)
Definition eastern (around : bool) k x0 dx nx : R := node_x k x0 dx (last_column around nx).
Lemma eastern_nth (around : bool) k x0 dx nx xi : evenly (node_x k (if around then x0 - dx else x0) dx 0) dx (ncols around nx) xi -> (2 <= nx)%nat ->
  nth (length xi - 1) xi 0 = eastern around k x0 dx nx.
Proof.
  intros Hxi Hx. unfold eastern. rewrite <- (ecol_x around k x0 dx nx xi (last_column around nx) Hxi Hx) by (unfold columns, last_column; destruct around; lia).
  f_equal. destruct Hxi as (_ & -> & _). unfold ecol, ncols, last_column. destruct around; lia.
Qed.

Lemma batch_total geo lo hi pts : pts <> [] -> exists pts', batch geo lo hi pts = Ok pts' /\
  forall q, In q pts' -> exists q0, In q0 pts /\ convention geo lo hi (map fst pts) (fst q0) (fst q) /\ snd q = snd q0.
Proof.
  intros Hne.
  assert (Go : exists pts', batch geo lo hi pts = Ok pts').
  { unfold batch, wrap_points. destruct geo; [|destruct pts; [congruence|eauto]]. destruct pts as [|p0 pts]; [congruence|]. cbn [map amin bind].
    destruct (rlt _ lo); cbn [map amax bind]; eauto. }
  destruct Go as (pts' & E). exists pts'. split; [exact E|]. intros q Hq. apply In_nth_error in Hq as (n & Hn).
  assert (Hl : (n < length pts)%nat) by (rewrite <- (batch_len _ _ _ _ _ E); apply nth_error_Some; congruence).
  destruct (nth_error pts n) as [q0|] eqn:E0; [|apply nth_error_None in E0; lia].
  assert (Cx : exists x, convention geo lo hi (map fst pts) (fst q0) x).
  { destruct geo; [|eexists; now apply projected]. set (xs := map fst pts).
    destruct (Classical_Prop.classic (exists a, In a xs /\ a < lo)) as [K|K].
    - destruct (Classical_Prop.classic (exists a, In a xs /\ hi < eastward a)) as [K'|K']; eexists; [now apply to_both|apply to_east; auto].
      intros a Ha. apply Rnot_lt_le. intros L. apply K'. eauto.
    - assert (K0 : forall a, In a xs -> lo <= a) by (intros a Ha; apply Rnot_lt_le; intros L; apply K; eauto).
      destruct (Classical_Prop.classic (exists a, In a xs /\ hi < a)) as [K'|K']; eexists; [now apply to_west|apply as_given; auto].
      intros a Ha. split; auto. apply Rnot_lt_le. intros L. apply K'. eauto. }
  destruct Cx as (x & C). pose proof (batch_nth _ _ _ _ _ n q0 x E E0 C) as Hn'. assert (q = (x, snd q0)) as -> by congruence.
  exists q0. split; [eapply nth_error_In; eauto|]. auto.
Qed.

(** ** C68: extraction returns for any points, by splines always, bilinearly unless a
    point is exactly on the last column of the nodes *)
Theorem C68_returns : forall fwd geo around me t k x0 dx nx y0 dy ny g hcs lonlat,
  model_grid geo around x0 dx nx y0 dy ny g hcs -> kind_of t = Some k -> lonlat <> [] ->
  (me = Bilinear -> forall p x, In p lonlat -> convention geo x0 (x0 + INR (nx - 1) * dx) (map (fun p => fst (fwd p)) lonlat) (fst (fwd p)) x ->
    x <> node_x k x0 dx (last_column around nx)) ->
  exists out, extract_constants fwd geo me t g hcs lonlat = Ok out /\ length out = length lonlat.
Proof.
  intros fwd geo around me t k x0 dx nx y0 dy ny g hcs lonlat M Hk Hne Hl.
  assert (Go : exists out, extract_constants fwd geo me t g hcs lonlat = Ok out).
  { pose proof (around_test _ _ _ _ _ _ _ _ _ _ M) as Ha. destruct (around_axis _ _ _ _ _ _ _ _ _ _ M) as (xe & Exe & Hxe).
    destruct M as (Ex & Ey & Hx & Hy & Rh & Rm & Rc & _).
    unfold extract_constants. rewrite (evenly_spacing x0 dx nx), (evenly_spacing y0 dy ny) by auto. cbn [bind].
    destruct (evenly_ends x0 dx nx (gx g) Ex Hx) as [-> ->]. cbn [bind].
    destruct (batch_total geo x0 (x0 + INR (nx - 1) * dx) (map fwd lonlat)) as (pts & Eb & Hpts); [destruct lonlat; [congruence|discriminate]|].
    rewrite Eb. cbn [bind]. rewrite map_map in Hpts.
    assert (Hl' : me = Bilinear -> forall q, In q pts -> fst q <> node_x k x0 dx (last_column around nx)).
    { intros Hm q Hq. destruct (Hpts q Hq) as (q' & Hq' & C & _). apply in_map_iff in Hq' as (p & <- & Hin). now apply (Hl Hm p). }
    rewrite Ha, Exe. cbn [bind].
    assert (N2 : (2 <= ncols around nx)%nat) by (unfold ncols; destruct around; lia).
    assert (Ae : axis xe) by (eapply evenly_axis; eauto). assert (Ay : axis (gy g)) by (eapply evenly_axis; eauto).
    destruct (mapM_total (outside_axes xe (gy g)) pts) as (invs & Ei); [intros; now apply outside_total|]. rewrite Ei. cbn [bind].
    destruct (layer_entries around dx dy x0 y0 xe (gy g) g t k ny nx Hk Rh Rm Hy Hx Hxe Ey) as (xi & yi & b & El & Hxi & Hyi & Rb & Nb).
    rewrite El. cbn [bind]. assert (Axi : axis xi) by (eapply evenly_axis; eauto). assert (Ayi : axis yi) by (eapply evenly_axis; eauto).
    assert (Lx : length xi = ncols around nx) by apply Hxi. assert (Ly : length yi = ny) by apply Hyi.
    assert (Rb' : rect (length yi) (length xi) b) by (rewrite Lx, Ly; auto).
    destruct (mapM_total (extract_depth me xi yi b) pts) as (ds & Ed).
    { intros [lon lat] Hq. specialize (fun K => Hl' K _ Hq). cbn [fst] in Hl'.
      destruct me; cbn [extract_depth].
      - destruct (bilinear_total 0 Rplus Rmult xi yi _ lon lat Axi Ayi (clean_rect _ _ _ Rb')) as (c & Ec).
        { rewrite (eastern_nth around k x0 dx nx) by auto. now apply Hl'. }
        match goal with |- exists _, bind ?m _ = _ => replace m with (Ok c) by (symmetry; exact Ec) end. cbn [bind]. eauto.
      - now apply spline_total. }
    rewrite Ed. cbn [bind]. destruct (fields_total around ny nx b hcs Rb Hx Rc) as (fs & Ef). rewrite Ef. cbn [bind].
    apply points_total. intros q i D Hin. apply in_combine_l in Hin. specialize (fun K => Hl' K _ Hin). destruct q as [lon lat]. cbn [fst] in Hl'.
    apply mapM_total. intros f Hf. apply In_nth_error in Hf as (c & Hf).
    assert (Hcl : (c < length hcs)%nat) by (eapply Nat.lt_le_trans; [apply nth_error_Some; rewrite Hf; discriminate|exact (Nat.eq_le_incl _ _ (mapM_len _ _ _ Ef))]).
    destruct (nth_error hcs c) as [hc|] eqn:Eh; [|apply nth_error_None in Eh; lia].
    destruct (fields_entries around ny nx b hcs fs Rb Hx Rc Ef c hc Eh) as (f' & Hf' & Rf & _). assert (f' = f) as -> by congruence.
    assert (Rf' : rect (length yi) (length xi) f) by (rewrite Lx, Ly; auto).
    unfold constant. destruct me.
    - destruct (bilinear_total (0, 0) cadd cscale xi yi (drop_invalid f) lon lat Axi Ayi (map_rect drop_cell _ _ _ Rf')) as (h & Eh').
      { rewrite (eastern_nth around k x0 dx nx) by auto. now apply Hl'. }
      match goal with |- exists _, bind ?m _ = _ => replace m with (Ok h) by (symmetry; exact Eh') end. cbn [bind]. eauto.
    - destruct (spline_total (0, 0) cadd cscale xi yi f (lon, lat) Axi Ayi Rf') as (h & Eh'). match goal with |- exists _, bind ?m _ = _ => replace m with (Ok h) by (symmetry; exact Eh') end.
      cbn [bind]. eauto. }
  destruct Go as (out & E). exists out. split; [exact E|].
  destruct (extract_inv _ _ _ _ _ _ _ _ _ _ _ _ _ _ _ _ M Hk E) as (xe & xi & yi & b & fs & _ & _ & _ & _ & _ & _ & L & _). exact L.
Qed.
Print Assumptions C68_returns.

(** ** Bilinearly nothing is returned at all when a point is on the last column *)
Theorem C68_last_column_refuted : forall fwd geo around t k x0 dx nx y0 dy ny g hcs lonlat p,
  model_grid geo around x0 dx nx y0 dy ny g hcs -> kind_of t = Some k ->
  In p lonlat -> convention geo x0 (x0 + INR (nx - 1) * dx) (map (fun p => fst (fwd p)) lonlat) (fst (fwd p)) (node_x k x0 dx (last_column around nx)) -> node_y k y0 dy 0 < snd (fwd p) < node_y k y0 dy (ny - 1) ->
  exists e, extract_constants fwd geo Bilinear t g hcs lonlat = Err e.
Proof.
  intros fwd geo around t k x0 dx nx y0 dy ny g hcs lonlat p M Hk Hin C Hy'.
  destruct (extract_constants fwd geo Bilinear t g hcs lonlat) as [out|e] eqn:E; [|eauto]. exfalso.
  destruct (extract_inv _ _ _ _ _ _ _ _ _ _ _ _ _ _ _ _ M Hk E) as (xe & xi & yi & b & fs & Hxe & Hxi & Hyi & Rb & Nb & Ef & _ & V).
  apply In_nth_error in Hin as (n & Hn). destruct (V n p _ Hn C) as (D & inv & cs & O1 & O2 & _). destruct M as (_ & _ & Hx & Hy & _).
  assert (N2 : (2 <= ncols around nx)%nat) by (unfold ncols; destruct around; lia).
  assert (A1 : axis xi) by (eapply evenly_axis; eauto). assert (A2 : axis yi) by (eapply evenly_axis; eauto).
  cbn [extract_depth] in O2. set (lon := node_x k x0 dx (last_column around nx)) in *. set (lat := snd (fwd p)) in *.
  unfold rbilinear, gbilinear_point in O2. rewrite (axis_min _ A1), (axis_max _ A1), (axis_min _ A2), (axis_max _ A2) in O2. cbn [bind] in O2.
  rewrite (eastern_nth around k x0 dx nx xi Hxi Hx) in O2. unfold eastern in O2. fold lon in O2.
  assert (Ex : lon = nth (length xi - 1) xi 0) by (rewrite (eastern_nth around k x0 dx nx xi Hxi Hx); reflexivity).
  rewrite (rle_t (nth 0 xi 0) lon) in O2 by (rewrite Ex; apply axis_mono; auto; destruct A1; lia). rewrite (rle_t lon lon) in O2 by lra.
  rewrite (node_y_nth k y0 dy ny) in O2 by (auto; lia). rewrite (node_y_nth k y0 dy ny) in O2 by (auto; destruct Hyi as (_ & -> & _); lia).
  assert (Ly : length yi = ny) by apply Hyi. rewrite Ly in O2.
  rewrite (rlt_t _ lat), (rlt_t lat) in O2 by tauto. cbn [andb] in O2.
  unfold gbilinear_inside in O2. replace (brackets 0 xi lon) with (@nil nat) in O2 by (rewrite Ex; symmetry; now apply brackets_last). discriminate.
Qed.
Print Assumptions C68_last_column_refuted.

Lemma node_ends (around : bool) k x0 dx nx : (2 <= nx)%nat ->
  node_x k x0 dx (first_column around) = node_x k (if around then x0 - dx else x0) dx 0 /\
  node_x k x0 dx (last_column around nx) = node_x k (if around then x0 - dx else x0) dx 0 + INR (ncols around nx - 1) * dx.
Proof.
  intros Hx. split.
  - unfold node_x, first_column. destruct around, k; cbn [IZR]; lra.
  - unfold last_column, ncols. rewrite minus_INR by (destruct around; lia). destruct around; rewrite ?plus_INR; unfold node_x.
    + rewrite <- INR_IZR_INZ. destruct k; cbn [INR]; lra.
    + rewrite minus_IZR, <- INR_IZR_INZ. destruct k; cbn [INR]; lra.
Qed.
Lemma read_total geo around t k x0 dx nx y0 dy ny g hcs : model_grid geo around x0 dx nx y0 dy ny g hcs -> kind_of t = Some k ->
  exists xi yi b fs, read_constants geo t g hcs = Ok (Cons xi yi b fs) /\
    evenly (node_x k (if around then x0 - dx else x0) dx 0) dx (ncols around nx) xi /\ evenly (node_y k y0 dy 0) dy ny yi /\ rect ny (ncols around nx) b /\
    (forall j e, (j < ny)%nat -> (e < ncols around nx)%nat -> sound_column k around (col around nx e) ->
      depth_entry (water (entry 0 (ghz g)) (entry 0%Z (gmz g)) around nx k j (col around nx e)) (entry (None, true) b j e)) /\
    mapM (fun hc => do e <- extend_if around hc ;; remask b e) hcs = Ok fs.
Proof.
  intros M Hk. pose proof (around_equal _ _ _ _ _ _ _ _ _ _ M) as Ha. destruct (around_axis _ _ _ _ _ _ _ _ _ _ M) as (xe & Exe & Hxe).
  destruct M as (Ex & Ey & Hx & Hy & Rh & Rm & Rc & _).
  destruct (layer_entries around dx dy x0 y0 xe (gy g) g t k ny nx Hk Rh Rm Hy Hx Hxe Ey) as (xi & yi & b & El & Hxi & Hyi & Rb & Nb).
  destruct (fields_total around ny nx b hcs Rb Hx Rc) as (fs & Ef). exists xi, yi, b, fs.
  unfold read_constants. rewrite (evenly_spacing x0 dx nx), (evenly_spacing y0 dy ny) by auto. cbn [bind].
  rewrite Ha, Exe. cbn [bind]. rewrite El. cbn [bind]. rewrite Ef. cbn [bind]. auto 10.
Qed.
(** everything interpolation computes for a point *)
Lemma interpolate_inv fwd geo me t k c x0 dx nx lonlat out c' : kind_of t = Some k -> evenly x0 dx nx (cx c) -> (2 <= nx)%nat ->
  interpolate_constants fwd geo me t c lonlat = Ok (out, c') ->
  length out = length lonlat /\
  forall n p x, nth_error lonlat n = Some p -> placed fwd geo x0 dx nx lonlat p x ->
    exists D inv cs, nth_error out n = Some (D, cs) /\ interpolate_depth me (cx c) (cy c) (cbath c) (x, snd (fwd p)) = Ok D /\
    outside_axes (cx c) (cy c) (x, snd (fwd p)) = Ok inv /\ mapM (constant_again me (cx c) (cy c) t D inv (x, snd (fwd p))) (cfields c) = Ok cs.
Proof.
  intros Hk Ex Hx H. unfold interpolate_constants in H. destruct (evenly_ends _ _ _ _ Ex Hx) as [E1 E2]. rewrite E1, E2 in H. cbn [bind] in H.
  destruct (batch geo x0 (x0 + INR (nx - 1) * dx) (map fwd lonlat)) as [pts|] eqn:Eb in H; [|discriminate]. cbn [bind] in H.
  destruct (mapM (outside_axes _ _) _) as [invs|] eqn:Ei in H; [|discriminate]. cbn [bind] in H.
  destruct (mapM (interpolate_depth _ _ _ _) _) as [ds|] eqn:Ed in H; [|discriminate]. cbn [bind] in H.
  assert (K : exists o', mapM (fun p => let '(q, (i, D)) := p in do cs <- mapM (constant_again me (cx c) (cy c) t D i q) (cfields c) ;; Ok (D, cs)) (combine pts (combine invs ds)) = Ok o' /\ o' = out).
  { destruct t; try discriminate Hk; (match type of H with bind ?m _ = _ => destruct m as [o'|]; [|discriminate] end); cbn [bind] in H; apply Ok_inj in H; exists o'; split; congruence. }
  destruct K as (o' & Eo & ->). pose proof (mapM_len _ _ _ Ei) as L1. pose proof (mapM_len _ _ _ Ed) as L2. pose proof (mapM_len _ _ _ Eo) as L3.
  pose proof (batch_len _ _ _ _ _ Eb) as L0. rewrite map_length in L0. split; [etransitivity; [exact L3|]; rewrite !combine_length, L1, L2; lia|]. intros n p x Hn C.
  assert (Hq : nth_error pts n = Some (x, snd (fwd p))) by (apply (batch_nth _ _ _ _ _ n (fwd p) x Eb); [now apply map_nth_error|now rewrite map_map]).
  destruct (mapM_nth _ _ _ _ _ Ei Hq) as (inv & I1 & I2). destruct (mapM_nth _ _ _ _ _ Ed Hq) as (D & D1 & D2).
  destruct (mapM_nth _ _ _ n ((x, snd (fwd p)), (inv, D)) Eo) as (r & R1 & R2); [now repeat apply nth_error_combine|].
  cbn beta iota in R1. destruct (mapM (constant_again _ _ _ _ _ _ _) _) as [cs|] eqn:Ec in R1; [|discriminate]. cbn [bind] in R1. apply Ok_inj in R1 as <-.
  exists D, inv, cs. auto.
Qed.

(** ** C68: by splines from the constituents that were read: the points are those between
    the first and last nodes of the variable, and the values of the file are interpolated
    whatever their own mask: only the depths must be valid around the point *)
Theorem C68_again_spline_partial : forall fwd geo around t k x0 dx nx y0 dy ny g hcs lonlat c out c' n p x y i j,
  model_grid geo around x0 dx nx y0 dy ny g hcs -> kind_of t = Some k ->
  (forall hc, In hc hcs -> forall j i, (j < ny)%nat -> (i < nx)%nat -> fst (entry (None, true) hc j i) <> None) ->
  read_constants geo t g hcs = Ok c -> interpolate_constants fwd geo Spline t c lonlat = Ok (out, c') ->
  nth_error lonlat n = Some p ->
  convention geo (node_x k x0 dx (first_column around)) (node_x k x0 dx (last_column around nx)) (map (fun p => fst (fwd p)) lonlat) (fst (fwd p)) x -> snd (fwd p) = y ->
  columns around nx i -> columns around nx (i + 1) -> (S j < ny)%nat ->
  bracket (i + 1 = last_column around nx)%Z (node_x k x0 dx i) (node_x k x0 dx (i + 1)) x ->
  bracket (S (S j) = ny) (node_y k y0 dy j) (node_y k y0 dy (S j)) y ->
  (k = Zonal -> around = true \/ (0 < i)%Z) ->
  let w := water (entry 0 (ghz g)) (entry 0%Z (gmz g)) around nx k in
  let ws := corners k x0 dx y0 dy nx x y i j w in
  exists D cs, nth_error out n = Some (D, cs) /\ length cs = length hcs /\
    (complete ws -> D = (mean ws, false)) /\ (~ complete ws -> snd D = true) /\
    forall c hc, nth_error hcs c = Some hc ->
      let z := corners k x0 dx y0 dy nx x y i j (fun j i => fst (entry (None, true) hc j i)) in
      exists r, nth_error cs c = Some r /\
        (complete ws -> returned (velocity t) (mean ws) (both (mean (part fst z)) (mean (part snd z))) r) /\ (~ complete ws -> r = None).
Proof.
  intros fwd geo around t k x0 dx nx y0 dy ny g hcs lonlat cc out c' n p x y i j M Hk Hv Hc H Hn Hc' Hq Ci Ci1 Hj Bx By HZ w ws.
  destruct (read_total _ _ _ _ _ _ _ _ _ _ _ _ M Hk) as (xi & yi & b & fs & Er & Hxi & Hyi & Rb & Nb & Ef). rewrite Er in Hc. apply Ok_inj in Hc as <-.
  destruct M as (Ex & Ey & Hx & Hy & Rh & Rm & Rc & _).
  assert (N2 : (2 <= ncols around nx)%nat) by (unfold ncols; destruct around; lia).
  destruct (interpolate_inv fwd geo Spline t k (Cons xi yi b fs) _ _ _ lonlat out c' Hk Hxi N2 H) as [_ V].
  destruct (V n p x Hn) as (D & inv & cs & O1 & O2 & O3 & O4); [destruct (node_ends around k x0 dx nx Hx) as [<- <-]; exact Hc'|]. rewrite Hq in O2, O3, O4. cbn [cx cy cbath cfields interpolate_depth] in O2, O3, O4.
  destruct (bracket_le _ _ _ _ Bx) as [Bx1 Bx2]. destruct (bracket_le _ _ _ _ By) as [By1 By2].
  assert (Lx : length xi = ncols around nx) by apply Hxi. assert (Ly : length yi = ny) by apply Hyi.
  assert (A1 : axis xi) by (eapply evenly_axis; eauto). assert (A2 : axis yi) by (eapply evenly_axis; eauto).
  assert (X0 : nth (ecol around i) xi 0 = node_x k x0 dx i) by (apply (ecol_x around k x0 dx nx xi i); auto).
  assert (X1 : nth (ecol around (i + 1)) xi 0 = node_x k x0 dx (i + 1)) by (apply (ecol_x around k x0 dx nx xi (i + 1)); auto).
  pose proof (ecol_lt around nx i Hx Ci) as Li. pose proof (ecol_lt around nx (i + 1) Hx Ci1) as Li1.
  assert (Xf : nth 0 xi 0 <= x) by (pose proof (axis_mono xi 0 (ecol around i) A1 ltac:(lia)); lra).
  assert (Yf : nth 0 yi 0 <= y) by (pose proof (axis_mono yi 0 j A2 ltac:(lia)); rewrite <- (node_y_nth k y0 dy ny yi j) in By1 by (auto; lia); lra).
  assert (Xl : x <= node_x k x0 dx (last_column around nx)).
  { rewrite <- (eastern_nth around k x0 dx nx xi Hxi Hx : _ = node_x k x0 dx (last_column around nx)). pose proof (axis_mono xi (ecol around (i + 1)) (length xi - 1) A1 ltac:(lia)). lra. }
  assert (Yl : y <= node_y k y0 dy (ny - 1)).
  { rewrite <- (node_y_nth k y0 dy ny yi (ny - 1)) by (auto; lia). pose proof (axis_mono yi (S j) (ny - 1) A2 ltac:(lia)). rewrite <- (node_y_nth k y0 dy ny yi (S j)) in By1 by (auto; lia). lra. }
  assert (Ix : Rmin (node_x k x0 dx (last_column around nx)) x = x) by (apply Rmin_right; auto). assert (Iy : Rmin (node_y k y0 dy (ny - 1)) y = y) by (apply Rmin_right; auto).
  pose proof (spline_values around k x0 dx nx y0 dy ny w xi yi b x y i j Hxi Hyi Hx Hy Rb Nb Xf Yf Ci Ci1 Hj) as SV. cbv zeta in SV. rewrite Ix, Iy in SV.
  destruct (SV Bx By HZ) as (D' & E1 & DC & DN & Vf). clear SV. fold ws in DC, DN.
  rewrite E1 in O2. apply Ok_inj in O2 as <-.
  assert (inv = false) as ->.
  { unfold outside_axes in O3. rewrite (axis_min _ A1), (axis_max _ A1), (axis_min _ A2), (axis_max _ A2) in O3. cbn [bind fst snd] in O3. apply Ok_inj in O3 as <-.
    rewrite (eastern_nth around k x0 dx nx xi Hxi Hx). unfold eastern. rewrite (node_y_nth k y0 dy ny yi (length yi - 1)), Ly by (auto; lia).
    rewrite !rlt_f by auto. reflexivity. }
  exists D', cs. split; [exact O1|]. split; [now rewrite (mapM_len _ _ _ O4), (mapM_len _ _ _ Ef)|]. split; [apply DC|]. split; [exact DN|].
  intros c hc Hc z. destruct (fields_entries around ny nx b hcs fs Rb Hx Rc Ef c hc Hc) as (f & Hf & Rf & Nf).
  destruct (mapM_nth _ _ _ _ _ O4 Hf) as (r & Er' & Hr'). exists r. split; [exact Hr'|].
  destruct (Vf hc f Rf (Hv hc (nth_error_In _ _ Hc)) Nf) as (v & m & Eh & Ez & _ & _). change (both (mean (part fst z)) (mean (part snd z)) = Some v) in Ez.
  unfold constant_again in Er'. rewrite Eh in Er'. cbn [bind fst snd] in Er'. apply Ok_inj in Er'. rewrite orb_false_r in Er'. split.
  - intros K. destruct (DC K) as [-> Md]. rewrite Ez. cbn [snd] in Er'.
    cbn [returned]. exists (cabs v), (phase_of v). split; [destruct v; apply phase_of_spec|]. rewrite <- Er'. destruct (mean ws) as [dd|]; [|congruence].
    unfold convert, velocity. destruct t; reflexivity.
  - intros K. rewrite (DN K) in Er'. auto.
Qed.
Print Assumptions C68_again_spline_partial.
