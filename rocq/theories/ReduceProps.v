(** C93: reducing OTIS files to a region.
    Code: scripts/reduce_OTIS_files.py:82-224, pyTMD/io/OTIS.py:914-975, 1746-1811. *)
From Coq Require Import String Ascii Reals ZArith List Bool Lra Lia Sorted.
From Verif Require Import PyBase RBase GeoModel OtisModel OtisProofs OtisProps ExtractModel NodeProps OtisFilesModel ReduceModel ReduceSpec ReduceProofs ReduceProofs2.
Import ListNotations.
Open Scope list_scope.

Lemma grid_parts file raw g : run read_otis_grid file = Ok raw -> grid_of_file file = Ok g ->
  exists xlim ylim dt, limits (g_xlim raw) = Ok xlim /\ limits (g_ylim raw) = Ok ylim /\ finite (g_dt raw) = Ok dt
    /\ mapM (mapM finite) (g_hz raw) = Ok (ghz g) /\ gmz g = g_mz raw
    /\ gx g = centres (grid_limits xlim dt) (Z.to_nat (g_nx raw)) /\ gy g = centres ylim (Z.to_nat (g_ny raw)).
Proof.
  intros Er Eg. unfold grid_of_file in Eg. rewrite Er in Eg. cbn [bind] in Eg.
  destruct (limits (g_xlim raw)) as [xlim|]; [|discriminate Eg]. cbn [bind] in Eg.
  destruct (limits (g_ylim raw)) as [ylim|]; [|discriminate Eg]. cbn [bind] in Eg.
  destruct (finite (g_dt raw)) as [dt|]; [|discriminate Eg]. cbn [bind] in Eg.
  match type of Eg with bind ?m _ = _ => destruct m as [hz|] eqn:Eh; [|discriminate Eg] end. cbn [bind] in Eg. apply Ok_inj in Eg as <-.
  exists xlim, ylim, dt. repeat split; auto.
Qed.
Lemma spacing_pitch l : (2 <= List.length l)%nat -> (0 < pitch l)%R -> spacing l = Ok (pitch l).
Proof.
  intros L P. destruct l as [|a [|b l]]; cbn [List.length] in L; try lia. unfold spacing, pitch in *. cbn [nth] in *. now rewrite Rabs_right by lra.
Qed.
Lemma kept_places lo hi axis : map (fun i => nth i axis 0%R) (places lo hi axis) = filter (in_box lo hi) axis.
Proof. rewrite (places_kept 0%R lo hi axis axis eq_refl). apply kept_self. Qed.
Lemma shaped_rows (P : Z -> Prop) ny nx m : shaped P ny nx m -> List.length m = Z.to_nat ny /\ Forall (fun r => List.length r = Z.to_nat nx) m /\ Forall (Forall P) m.
Proof.
  intros (_ & _ & L & F). split; [lia|]. split; (eapply Forall_impl; [|exact F]); intros r [Lr Fr]; [lia|exact Fr].
Qed.
Lemma gathered lx hx ly hy xi yi m : List.length m = List.length yi -> Forall (fun r => List.length r = List.length xi) m ->
  map (fun j => map (fun i => nth i (nth j m []) 0%Z) (places lx hx xi)) (places ly hy yi) = restricted lx hx ly hy xi yi m.
Proof.
  intros L F. unfold restricted. rewrite <- (places_kept [] ly hy yi m L), map_map. apply map_ext_in. intros j Hj. apply places_kept.
  unfold places in Hj. apply filter_In in Hj as [Hj _]. apply in_seq in Hj. rewrite Forall_forall in F. apply F. apply nth_In. lia.
Qed.
Lemma restricted_shape {A} lx hx ly hy xi yi (m : list (list A)) : List.length m = List.length yi -> Forall (fun r => List.length r = List.length xi) m ->
  List.length (restricted lx hx ly hy xi yi m) = List.length (filter (in_box ly hy) yi)
  /\ Forall (fun r => List.length r = List.length (filter (in_box lx hx) xi)) (restricted lx hx ly hy xi yi m).
Proof.
  intros L F. unfold restricted. split; [rewrite map_length; now apply kept_length|]. apply Forall_map. apply Forall_forall. intros r Hr. apply kept_in in Hr.
  rewrite Forall_forall in F. now apply kept_length, F.
Qed.
Lemma restricted_all {A} (P : A -> Prop) lx hx ly hy xi yi m : Forall (Forall P) m -> Forall (Forall P) (restricted lx hx ly hy xi yi m).
Proof.
  intros F. unfold restricted. apply Forall_map. apply Forall_forall. intros r Hr. apply kept_in in Hr. rewrite Forall_forall in F. specialize (F r Hr).
  apply Forall_forall. intros x Hx. apply kept_in in Hx. rewrite Forall_forall in F. auto.
Qed.
Lemma five_bounds (corner : R * R -> R * R) a b c d (p : R * R -> R) lo hi :
  bounds_of (map p (map corner [(a, c); (b, c); (b, d); (a, d)])) lo hi ->
  spread (map p (corners corner a b c d)) = (lo, hi).
Proof.
  intros B. unfold corners. set (l5 := map p (map corner [(a, c); (b, c); (b, d); (a, d); (a, c)])).
  pose proof (spread_bounds (p (corner (a, c))) (tl l5)) as S. change (p (corner (a, c)) :: tl l5) with l5 in S.
  assert (Q : forall x, In x l5 <-> In x (map p (map corner [(a, c); (b, c); (b, d); (a, d)]))) by (intros x; subst l5; cbn [map In]; tauto).
  destruct (bounds_unique _ _ _ _ _ _ Q S B) as [<- <-]. now destruct (spread l5).
Qed.

(** the reduced grid, read back, has the nodes of the grid within the box, with their depths; the
    edges of the box are the least and greatest coordinates of its corners in model
    coordinates; the longitudes of a part that lies west of Greenwich come back 360 degrees
    higher.  The open boundary nodes are those of the whole grid *)
Theorem C93_grid : forall (corner : R * R -> R * R) (single : R -> Z) a b c d file raw g lx hx ly hy,
  Forall (fun x => 0 <= x < 256)%Z file -> run read_otis_grid file = Ok raw -> grid_of_file file = Ok g ->
  (2 <= List.length (gx g))%nat -> (2 <= List.length (gy g))%nat -> StronglySorted Rlt (gx g) -> StronglySorted Rlt (gy g) ->
  bounds_of (map fst (map corner [(a, c); (b, c); (b, d); (a, d)])) lx hx ->
  bounds_of (map snd (map corner [(a, c); (b, c); (b, d); (a, d)])) ly hy ->
  let X := filter (in_box lx hx) (gx g) in let Y := filter (in_box ly hy) (gy g) in
  let west := (hd 0 X - pitch (gx g) / 2)%R in let east := (last X 0 + pitch (gx g) / 2)%R in
  let south := (hd 0 Y - pitch (gy g) / 2)%R in let north := (last Y 0 + pitch (gy g) / 2)%R in
  X <> [] -> Y <> [] ->
  (forall v, In v [west; east; south; north] -> pattern (single v) /\ float32 (single v) = Some v) ->
  fits (List.length X) (List.length Y) (List.length (g_iob raw)) ->
  exists file' raw' g',
    reduced_grid corner single a b c d file = Ok file' /\ run read_otis_grid file' = Ok raw' /\ grid_of_file file' = Ok g'
    /\ gy g' = Y
    /\ (forall dt, float32 (g_dt raw) = Some dt -> (east < 0 /\ 0 < dt)%R -> gx g' = map (fun x => x + 360)%R X)
    /\ (forall dt, float32 (g_dt raw) = Some dt -> ~ (east < 0 /\ 0 < dt)%R -> gx g' = X)
    /\ ghz g' = restricted lx hx ly hy (gx g) (gy g) (ghz g)
    /\ g_hz raw' = restricted lx hx ly hy (gx g) (gy g) (g_hz raw)
    /\ g_iob raw' = g_iob raw /\ g_dt raw' = g_dt raw
    /\ ((2 <= List.length Y * List.length X)%nat ->
        exists n, concat (gmz g') = map signed32 (skipn 2 (concat (g_hz raw')) ++ [n; n])).
Proof.
  intros corner single a b c d file raw g lx hx ly hy Fb Er Eg Lx Ly Sx Sy Bx By X Y west east south north NX NY Ex Ft.
  destruct (read_sound file raw Fb Er) as [Hh Hm Hd Hi].
  destruct (grid_parts file raw g Er Eg) as (xlim & ylim & dt & Exl & Eyl & Edt & Ehz & Emz & Egx & Egy).
  destruct (shaped_rows _ _ _ _ Hh) as (Lh & Rh & Ph). destruct (shaped_rows _ _ _ _ Hm) as (Lm & Rm & _).
  assert (Cx : List.length (gx g) = Z.to_nat (g_nx raw)) by (rewrite Egx; apply centres_length).
  assert (Cy : List.length (gy g) = Z.to_nat (g_ny raw)) by (rewrite Egy; apply centres_length).
  rewrite <- Cy in Lh, Lm. rewrite <- Cx in Rh, Rm.
  assert (Ax : (0 < pitch (gx g))%R /\ centres (west, east) (List.length X) = X /\ (west < east)%R).
  { pose proof (axis_part (grid_limits xlim dt) (Z.to_nat (g_nx raw)) lx hx) as A. cbv zeta in A. rewrite <- Egx in A. apply A; [lia|exact Sx|exact NX]. }
  assert (Ay : (0 < pitch (gy g))%R /\ centres (south, north) (List.length Y) = Y /\ (south < north)%R).
  { pose proof (axis_part ylim (Z.to_nat (g_ny raw)) ly hy) as A. cbv zeta in A. rewrite <- Egy in A. apply A; [lia|exact Sy|exact NY]. }
  destruct Ax as (Px & CX & Wx), Ay as (Py & CY & Wy).
  set (I := places lx hx (gx g)). set (J := places ly hy (gy g)).
  assert (EI : map (fun i => nth i (gx g) 0%R) I = X) by apply kept_places.
  assert (EJ : map (fun i => nth i (gy g) 0%R) J = Y) by apply kept_places.
  assert (NI : I <> []) by (intros H; apply NX; rewrite <- EI, H; reflexivity).
  assert (NJ : J <> []) by (intros H; apply NY; rewrite <- EJ, H; reflexivity).
  set (H1 := restricted lx hx ly hy (gx g) (gy g) (g_hz raw)). set (M1 := restricted lx hx ly hy (gx g) (gy g) (g_mz raw)).
  destruct (restricted_shape lx hx ly hy (gx g) (gy g) (g_hz raw) Lh Rh) as [LH FH]. fold H1 X Y in LH, FH.
  destruct (restricted_shape lx hx ly hy (gx g) (gy g) (g_mz raw) Lm Rm) as [LM FM]. fold M1 X Y in LM, FM.
  set (iob := map (fun r => (nth 0 r 0%Z, nth 1 r 0%Z)) (g_iob raw)).
  assert (Eout : reduced_grid corner single a b c d file
    = output_otis_grid (DT 4 true) (single west, single east) (single south, single north)
        (array H1 (List.length Y) (List.length X)) (array M1 (List.length Y) (List.length X)) (DT 4 true) iob (g_dt raw)).
  { unfold reduced_grid. rewrite Er. cbn [bind]. rewrite Exl, Eyl, Edt. cbn [bind]. cbv zeta. unfold otis_axes. cbn [fst snd]. rewrite <- Egx, <- Egy.
    rewrite (five_bounds corner a b c d fst lx hx Bx), (five_bounds corner a b c d snd ly hy By).
    rewrite nodes_prod. cbn [fst snd]. fold I J.
    rewrite (filter_ext (inside (lx, hx)) (in_box lx hx)) by (intros; apply inside_in_box).
    rewrite (filter_ext (inside (ly, hy)) (in_box ly hy)) by (intros; apply inside_in_box). fold X Y.
    rewrite (spacing_pitch (gx g) Lx Px), (spacing_pitch (gy g) Ly Py). cbn [bind].
    rewrite !gather_prod. unfold I, J. rewrite !gathered by assumption. fold I J H1 M1.
    rewrite (reshape_ok _ _ H1) by (try (intros r Hr; rewrite Forall_forall in FH; rewrite (FH r Hr)); lia).
    rewrite (reshape_ok _ _ M1) by (try (intros r Hr; rewrite Forall_forall in FM; rewrite (FM r Hr)); lia). cbn [bind].
    destruct (list_prod J I) as [|first others] eqn:EP.
    { exfalso. destruct J as [|j J']; [now elim NJ|]. destruct I as [|i I']; [now elim NI|]. discriminate EP. }
    assert (E1 : first = (hd 0%nat J, hd 0%nat I)).
    { destruct J as [|j J']; [now elim NJ|]. destruct I as [|i I']; [now elim NI|]. cbn in EP. now injection EP as <- _. }
    rewrite <- EP, (last_prod J I 0%nat 0%nat NJ NI), E1. cbn [fst snd].
    assert (Hh1 : forall (K : list nat) (ax l : list R), K <> [] -> map (fun i => nth i ax 0%R) K = l -> nth (hd 0%nat K) ax 0%R = hd 0%R l /\ nth (last K 0%nat) ax 0%R = last l 0%R).
    { clear. intros K ax l N <-. split; [destruct K; [now elim N|reflexivity]|]. symmetry. now apply (last_map (fun i => nth i ax 0%R) K 0%nat). }
    destruct (Hh1 I (gx g) X NI EI) as [-> ->]. destruct (Hh1 J (gy g) Y NJ EJ) as [-> ->]. reflexivity. }
  assert (Hi' : map (fun p => [int_read (DT 4 true) (fst p); int_read (DT 4 true) (snd p)]) iob = g_iob raw).
  { unfold iob. rewrite map_map. rewrite <- (map_id (g_iob raw)) at 2. apply map_ext_in. intros r Hr. unfold boundary in Hi. rewrite Forall_forall in Hi.
    destruct (Hi r Hr) as (u & v & -> & Iu & Iv). cbn [nth fst snd]. now rewrite !int_read_big. }
  assert (Pt : forall v, In v [west; east; south; north] -> pattern (single v)) by (intros v Hv; now apply Ex).
  assert (PH : patterns (array H1 (List.length Y) (List.length X))) by (apply array_patterns; apply restricted_all; exact Ph).
  assert (Li : List.length iob = List.length (g_iob raw)) by (unfold iob; now rewrite map_length).
  destruct (grid_read (DT 4 true) (single west, single east) (single south, single north)
     (array H1 (List.length Y) (List.length X)) (array M1 (List.length Y) (List.length X)) (DT 4 true) iob (g_dt raw)) as (file' & Ef & Er');
    try reflexivity; try assumption; try (now rewrite Li); try (split; apply Pt; cbn; tauto).
  rewrite (array_rows H1 _ _ LH FH) in Er'. cbn [array nx2 ny2 dt2] in Er'. rewrite Hi' in Er'.
  replace (map (map (as_read (DT 4 true))) H1) with H1 in Er' by (symmetry; rewrite <- (map_id H1) at 2; apply map_ext; intros r; apply map_id).
  cbn [as_read big fst snd] in Er'.
  assert (Fin : forall v, In v [west; east; south; north] -> finite (single v) = Ok v) by (intros v Hv; unfold finite; now rewrite (proj2 (Ex v Hv))).
  assert (HH : mapM (mapM finite) H1 = Ok (restricted lx hx ly hy (gx g) (gy g) (ghz g))).
  { unfold H1, restricted. apply mapM_map_kept. now apply mapM_kept. }
  exists file'. eexists. eexists. split; [rewrite Eout; exact Ef|]. split; [exact Er'|]. split.
  { unfold grid_of_file. rewrite Er'. cbn [bind g_xlim g_ylim g_dt g_hz g_mz g_nx g_ny limits].
    rewrite (Fin west), (Fin east), (Fin south), (Fin north), Edt, HH by (cbn; tauto). cbn [bind]. reflexivity. }
  cbn [gx gy ghz gmz g_hz g_iob g_dt]. rewrite !Nat2Z.id. unfold otis_axes. cbn [fst snd]. split; [exact CY|].
  assert (NXl : (1 <= List.length X)%nat) by (destruct X; [now elim NX|cbn; lia]).
  assert (Edt' : float32 (g_dt raw) = Some dt) by (unfold finite in Edt; destruct (float32 (g_dt raw)); [now apply Ok_inj in Edt as <-|discriminate Edt]).
  split.
  { intros dt' Q [W D]. rewrite Edt' in Q. injection Q as <-. unfold grid_limits. cbn [fst snd].
    unfold rlt. destruct (Rlt_dec west 0); [|lra]. destruct (Rlt_dec east 0); [|lra]. destruct (Rlt_dec 0 dt); [|lra]. cbn [andb].
    rewrite centres_shift by exact NXl. now rewrite CX. }
  split.
  { intros dt' Q W. rewrite Edt' in Q. injection Q as <-. unfold grid_limits. cbn [fst snd].
    unfold rlt. destruct (Rlt_dec west 0); [|exact CX]. destruct (Rlt_dec east 0); [|exact CX]. destruct (Rlt_dec 0 dt); [exfalso; apply W; lra|exact CX]. }
  split; [reflexivity|]. split; [reflexivity|]. split; [reflexivity|]. split; [reflexivity|].
  intros N2. destruct (C35_mask_refuted (DT 4 true) (single west, single east) (single south, single north)
     (array H1 (List.length Y) (List.length X)) (array M1 (List.length Y) (List.length X)) (array M1 (List.length Y) (List.length X)) (DT 4 true) iob (g_dt raw))
     as (f1 & f2 & g1 & E1 & _ & E3 & _ & n & E5);
    try reflexivity; try assumption; try (now rewrite Li); try (split; apply Pt; cbn; tauto).
  rewrite Ef in E1. apply Ok_inj in E1 as <-. rewrite Er' in E3. apply Ok_inj in E3 as <-. cbn [g_mz] in E5. exists n.
  rewrite (array_rows H1 _ _ LH FH) in E5. exact E5.
Qed.
Print Assumptions C93_grid.
