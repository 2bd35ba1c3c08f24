(** Lemmas for C87 and C88. *)
From Coq Require Import Reals List Bool Arith ZArith Lra Lia.
From Verif Require Import PyBase RBase MathModel GeoModel ConvertProps GridModel InterpModel InterpProps ExtrapProps ExtractModel ExtractSpec NodeProps ExtractProofs ExtractProps SplineProps ReturnProps SeriesModel SeriesSpec SeriesProofs SeriesProps SeriesProps2 StretchProofs AtlasNcModel AtlasNcSpec AtlasNcProps AtlasNcProps2 RegularModel CropModel CropProofs ShoreModel ShoreSpec ShoreProofs CoastModel CoastSpec CoastProofs CoastProps NarrowModel ReefModel.
From Verif Require MaskModel.
Import ListNotations.
Open Scope R_scope.

(** ** One constituent *)
Lemma reef_constituent_nth w t sc ex xi yi hc pps cs n q inv D : reef_constituent w t sc ex xi yi hc pps = Ok cs -> nth_error pps n = Some (q, (inv, D)) ->
  exists h, number_by w xi yi hc q = Ok h /\
    (ex = None -> nth_error cs n = Some (reef_value t sc w inv D (h, concealed D h))) /\
    forall c, ex = Some c -> exists near queries,
      near = filter (fun n => sound (snd n) && in_bounds coords3 c queries (fst n)) (nodes_of (Sheet xi yi (map (map wiped) hc))) /\ (concealed D h = true -> In (on_ellipsoid q) queries) /\
      nth_error cs n = Some (reef_value t sc w inv D (if concealed D h then ShoreProofs.answer c q near else (h, false))).
Proof.
  unfold reef_constituent. match goal with |- bind ?m _ = _ -> _ => destruct m as [hs|] eqn:E; [|discriminate] end. cbn [bind]. intros H Hn. apply Ok_inj in H as <-.
  destruct (mapM_nth _ _ _ _ _ E Hn) as (r & R1 & R2). cbn [fst snd] in R1. destruct (number_by w xi yi hc q) as [h|]; [|discriminate]. cbn [bind] in R1. apply Ok_inj in R1 as <-.
  exists h. split; [reflexivity|]. apply mapM_len in E. split.
  - intros ->. pose proof (nth_error_combine _ _ _ _ _ Hn R2) as K. apply (map_nth_error (fun p => reef_value t sc w (fst (snd (fst p))) (snd (snd (fst p))) (snd p))) in K. exact K.
  - intros c ->. destruct (fill_in_nth c (Sheet xi yi (map (map wiped) hc)) (map fst pps) hs n q h (concealed D h)) as (near & queries & En & Iq & F); [rewrite map_length; lia | apply (map_nth_error fst) in Hn; exact Hn | exact R2 |].
    exists near, queries. split; [exact En|]. split; [exact Iq|].
    pose proof (nth_error_combine _ _ _ _ _ Hn F) as K. apply (map_nth_error (fun p => reef_value t sc w (fst (snd (fst p))) (snd (snd (fst p))) (snd p))) in K. exact K.
Qed.
Lemma reef_constituent_len w t sc ex xi yi hc pps cs : reef_constituent w t sc ex xi yi hc pps = Ok cs -> length cs = length pps.
Proof.
  unfold reef_constituent. match goal with |- bind ?m _ = _ -> _ => destruct m as [hs|] eqn:E; [|discriminate] end. cbn [bind]. intros H. apply Ok_inj in H as <-. apply mapM_len in E.
  destruct ex; rewrite map_length, combine_length, ?fill_in_length; lia.
Qed.
Lemma reef_constituent_err w t sc ex xi yi hc pps x : reef_constituent w t sc ex xi yi hc pps = Err x <-> reef_constituent w t sc None xi yi hc pps = Err x.
Proof. unfold reef_constituent. match goal with |- bind ?m _ = _ <-> _ => destruct m end; cbn [bind]; split; intros H; try discriminate; auto. Qed.
Lemma reef_points w t sc xi yi hc pps : reef_constituent w t sc None xi yi hc pps =
  mapM (fun p => do h <- number_by w xi yi hc (fst p) ;; Ok (reef_value t sc w (fst (snd p)) (snd (snd p)) (h, concealed (snd (snd p)) h))) pps.
Proof.
  unfold reef_constituent. induction pps as [|p pps IH]; [reflexivity|]. cbn [mapM]. destruct (number_by w xi yi hc (fst p)) as [h|]; [|reflexivity]. cbn [bind].
  rewrite <- IH. match goal with |- bind (bind ?m _) _ = _ => destruct m as [hs|] end; reflexivity.
Qed.
Lemma reef_atlas t sc w inv D h : reef_value t sc w inv D (h, concealed D h) = atlas_value t sc D inv h.
Proof.
  unfold reef_value, atlas_value, concealed. cbn [fst snd]. destruct (snd h || snd D || inv) eqn:E; [reflexivity|]. destruct (fst h) as [z|]; [|reflexivity].
  apply orb_false_iff in E as [E _]. apply orb_false_iff in E as [_ E]. assert (B : bed_data w D = fst D) by (unfold bed_data; rewrite E; destruct w as [[|]|]; reflexivity).
  rewrite B. unfold convert, gnumber. destruct t; destruct (fst D); reflexivity.
Qed.

(** ** Without the options *)
Lemma amins {A} (f g : A -> R) l k : amin (map f l) = Ok k -> exists b c d, amax (map f l) = Ok b /\ amin (map g l) = Ok c /\ amax (map g l) = Ok d.
Proof. destruct l as [|a l]; [discriminate|]. intros _. cbn [map amin amax]. do 3 eexists. split; [reflexivity|]. split; reflexivity. Qed.
Lemma amin_none {A} (f g : A -> R) l e : amin (map f l) = Err e -> l = [].
Proof. destruct l as [|a l]; [reflexivity|]. discriminate. Qed.
Definition plain_from (w : way) (t : variable) (sc : R) (d : R) (lon lat : list R) (h : list (list (gcell R))) (files : list tide_file) (pts : list (R * R)) : res AtlasNcModel.answer :=
  let glob := isclose (last lon 0 - hd 0 lon) (360 - d) in
  do xi <- (if glob then extend_axis lon d else Ok lon) ;;
  do b <- extend_if glob h ;;
  do inv <- mapM (outside_axes xi lat) pts ;;
  do ds <- mapM (bed_by w xi lat b) pts ;;
  do out <- mapM (fun f =>
      do r <- read_netcdf_file t f ;;
      do e <- extend_if glob (fst r) ;;
      do hc <- remask b e ;;
      do cs <- mapM (fun p => do k <- number_by w xi lat hc (fst p) ;; Ok (atlas_value t sc (snd (snd p)) (fst (snd p)) k)) (combine pts (combine inv ds)) ;;
      Ok (cs, snd r)) files ;;
  Ok (Answer (map fst out) ds (map snd out)).
Lemma plain_off w t sc d lon lat h files pts : reef_from w t sc None d lon lat h (fun hc => Ok hc) files pts = plain_from w t sc d lon lat h files pts.
Proof.
  unfold reef_from, plain_from. set (glob := isclose _ _). destruct (if glob then extend_axis lon d else Ok lon) as [xi|]; [|reflexivity]. cbn [bind].
  destruct (extend_if glob h) as [b|]; [|reflexivity]. cbn [bind]. destruct (mapM (outside_axes xi lat) pts) as [inv|]; [|reflexivity]. cbn [bind].
  destruct (mapM (bed_by w xi lat b) pts) as [ds|]; [|reflexivity]. cbn [bind]. f_equal. apply mapM_same. intros f. destruct (read_netcdf_file t f) as [r|]; [|reflexivity]. cbn [bind].
  destruct (extend_if glob (fst r)) as [e|]; [|reflexivity]. cbn [bind]. destruct (remask b e) as [hc|]; [|reflexivity]. cbn [bind]. rewrite reef_points. f_equal. apply mapM_same.
  intros p. destruct (number_by w xi lat hc (fst p)) as [k|]; [|reflexivity]. cbn [bind]. rewrite reef_atlas. reflexivity.
Qed.
Definition uncropped (crop : bool) (bounds : option limits) (pts : list (R * R)) : Prop :=
  crop = false \/ (match bounds with Some b => any_limit b = false | None => forall p, In p pts -> p = (0, 0) end).
Lemma amin_zero l : l <> [] -> (forall x, In x l -> x = 0) -> amin l = Ok 0 /\ amax l = Ok 0.
Proof.
  intros N H. destruct l as [|a l]; [congruence|]. split.
  - destruct (amin (a :: l)) as [m|] eqn:E; [|discriminate]. apply amin_least in E as [I _]. f_equal. now apply H.
  - destruct (amax (a :: l)) as [m|] eqn:E; [|discriminate]. apply amax_most in E as [I _]. f_equal. now apply H.
Qed.
Lemma reef_off w t sc ex crop bounds buffer g files pts : uncropped crop bounds pts ->
  extract_reef w t sc ex crop bounds buffer g files pts =
  do n <- read_netcdf_grid t g ;; let '(lon, lat, h) := n in
  do _ <- amin (map fst pts) ;; do d <- spacing lon ;; do pts' <- adjust lon pts ;; reef_from w t sc ex d lon lat h (fun hc => Ok hc) files pts'.
Proof.
  intros U. unfold extract_reef. destruct (read_netcdf_grid t g) as [[[lon lat] h]|]; [|reflexivity]. cbn [bind].
  destruct (amin (map fst pts)) as [xl|e] eqn:E1; [|reflexivity]. cbn [bind]. destruct (amins fst snd pts xl E1) as (xh & yl & yh & E2 & E3 & E4). rewrite E2, E3, E4. cbn [bind].
  destruct (spacing lon) as [d|]; [|reflexivity]. cbn [bind].
  match goal with |- (if ?c then _ else _) = _ => replace c with false; [reflexivity|] end. symmetry. apply andb_false_iff. destruct U as [->|U]; [now left|]. right. destruct bounds as [b|]; [exact U|].
  assert (Ne : pts <> []) by (intros ->; discriminate). assert (Ne1 : map fst pts <> []) by (destruct pts; [congruence | discriminate]). assert (Ne2 : map snd pts <> []) by (destruct pts; [congruence | discriminate]).
  destruct (amin_zero (map fst pts) Ne1) as [Z1 Z2]; [intros x I; apply in_map_iff in I as (p & <- & I); now rewrite (U p I)|].
  destruct (amin_zero (map snd pts) Ne2) as [Z3 Z4]; [intros x I; apply in_map_iff in I as (p & <- & I); now rewrite (U p I)|].
  rewrite E1 in Z1. rewrite E2 in Z2. rewrite E3 in Z3. rewrite E4 in Z4. apply Ok_inj in Z1, Z2, Z3, Z4. subst. unfold any_limit. cbn [x_min x_max y_min y_max]. unfold req. destruct (Req_EM_T 0 0); [reflexivity | congruence].
Qed.
Lemma atlas_quick me t sc g files pts : extract_atlas me t sc g files pts =
  do n <- read_netcdf_grid t g ;; let '(lon, lat, h) := n in
  do _ <- amin (map fst pts) ;; do d <- spacing lon ;; do pts' <- adjust lon pts ;; plain_from (Quick me) t sc d lon lat h files pts'.
Proof.
  unfold extract_atlas. destruct (read_netcdf_grid t g) as [[[lon lat] h]|]; [|reflexivity]. cbn [bind]. destruct (amin (map fst pts)); [|reflexivity]. cbn [bind]. destruct (spacing lon) as [d|]; [|reflexivity]. cbn [bind].
  destruct (adjust lon pts) as [pts'|]; [|reflexivity]. cbn [bind]. unfold plain_from. set (glob := isclose _ _). destruct (if glob then extend_axis lon d else Ok lon) as [xi|]; [|reflexivity]. cbn [bind].
  destruct (extend_if glob h) as [b|]; [|reflexivity]. cbn [bind]. destruct (mapM (outside_axes xi lat) pts') as [inv|]; [|reflexivity]. cbn [bind]. change (bed_by (Quick me) xi lat b) with (sounding me xi lat b).
  destruct (mapM (sounding me xi lat b) pts') as [ds|]; [|reflexivity]. cbn [bind]. f_equal. apply mapM_same. intros f. destruct (read_netcdf_file t f) as [r|]; [|reflexivity]. cbn [bind].
  destruct (extend_if glob (fst r)) as [e|]; [|reflexivity]. cbn [bind]. destruct (remask b e) as [hc|]; [|reflexivity]. cbn [bind]. f_equal. apply mapM_same. intros [q [i D]]. cbn [fst snd]. unfold atlas_constant. destruct me; reflexivity.
Qed.
Lemma atlas_regularly me t sc g files pts : extract_atlas_regular me t sc g files pts =
  do n <- read_netcdf_grid t g ;; let '(lon, lat, h) := n in
  do _ <- amin (map fst pts) ;; do d <- spacing lon ;; do pts' <- adjust lon pts ;; plain_from (Regular me) t sc d lon lat h files pts'.
Proof.
  unfold extract_atlas_regular. destruct (read_netcdf_grid t g) as [[[lon lat] h]|]; [|reflexivity]. cbn [bind]. destruct (amin (map fst pts)); [|reflexivity]. cbn [bind]. destruct (spacing lon) as [d|]; [|reflexivity]. cbn [bind].
  destruct (adjust lon pts) as [pts'|]; [|reflexivity]. cbn [bind]. unfold plain_from. set (glob := isclose _ _). destruct (if glob then extend_axis lon d else Ok lon) as [xi|]; [|reflexivity]. cbn [bind].
  destruct (extend_if glob h) as [b|]; [|reflexivity]. cbn [bind]. destruct (mapM (outside_axes xi lat) pts') as [inv|]; [|reflexivity]. cbn [bind]. change (bed_by (Regular me) xi lat b) with (rregular me xi lat b).
  destruct (mapM (rregular me xi lat b) pts') as [ds|]; [|reflexivity]. cbn [bind]. f_equal. apply mapM_same. intros f. destruct (read_netcdf_file t f) as [r|]; [|reflexivity]. cbn [bind].
  destruct (extend_if glob (fst r)) as [e|]; [|reflexivity]. cbn [bind]. destruct (remask b e) as [hc|]; [|reflexivity]. cbn [bind]. f_equal. apply mapM_same. intros [q [i D]]. cbn [fst snd]. unfold atlas_regular. reflexivity.
Qed.

(** ** Everything computed for a point, on a model that is even *)
(** the array has the cells c of a rectangle *)
Definition cells {V} (d : V) (ny nx : nat) (c : nat -> nat -> V) (m : list (list V)) : Prop :=
  rect ny nx m /\ forall j i, (j < ny)%nat -> (i < nx)%nat -> entry d m j i = c j i.
Definition built {V} (ny nx : nat) (c : nat -> nat -> V) : list (list V) := map (fun j => map (fun i => c j i) (seq 0 nx)) (seq 0 ny).
Lemma built_cells {V} (d : V) ny nx c : cells d ny nx c (built ny nx c).
Proof.
  split.
  - split; [unfold built; now rewrite map_length, seq_length|]. intros r Hr. unfold built in Hr. apply in_map_iff in Hr as (j & <- & _). now rewrite map_length, seq_length.
  - intros j i Hj Hi. unfold entry, built. rewrite (nth_indep _ [] (map (fun i => c 0%nat i) (seq 0 nx))) by (rewrite map_length, seq_length; lia).
    rewrite (map_nth (fun j => map (fun i => c j i) (seq 0 nx)) (seq 0 ny) 0%nat j). rewrite seq_nth by auto. cbn [Nat.add]. rewrite (nth_indep _ d (c j 0%nat)) by (rewrite map_length, seq_length; lia).
    rewrite (map_nth (fun i => c j i) (seq 0 nx) 0%nat i), seq_nth by auto. reflexivity.
Qed.
Lemma cells_ext {V} (d : V) ny nx c m m' : cells d ny nx c m -> cells d ny nx c m' -> m = m'.
Proof.
  intros [[L R1] E] [[L' R1'] E']. apply (nth_ext _ _ [] []); [lia|]. intros j Hj. rewrite L in Hj.
  assert (A : length (nth j m []) = nx) by (apply R1, nth_In; lia). assert (A' : length (nth j m' []) = nx) by (apply R1', nth_In; lia).
  apply (nth_ext _ _ d d); [lia|]. intros i Hi. rewrite A in Hi. specialize (E j i Hj Hi). specialize (E' j i Hj Hi). unfold entry in E, E'. congruence.
Qed.
Section From.
  Variables (w : way) (t : variable) (sc : R) (ex : option bound) (x0 dx y0 dy : R) (nx ny : nat) (lon lat : list R) (h : list (list (gcell R))) (fields : field -> res field).
  Variables (dep : nat -> nat -> R) (num : nat -> nat -> option (R * R)).
  Hypothesis Hx : evenly x0 dx nx lon.
  Hypothesis Hy : evenly y0 dy ny lat.
  Hypothesis Nx : (2 <= nx)%nat.
  Hypothesis Ny : (2 <= ny)%nat.
  Hypothesis Hh : cells (None, true) ny nx (fun j i => depth_at (dep j i)) h.
  Let glob := isclose (INR (nx - 1) * dx) (360 - dx).
  Definition from_depth (j i : nat) : option R := if Req_EM_T (dep j i) 0 then None else Some (dep j i).
  Definition from_constant (j i : nat) : option (R * R) := match from_depth j i with Some _ => num j i | None => None end.
  Lemma from_inv files pts out c f n q r : reef_from w t sc ex dx lon lat h fields files pts = Ok out ->
    nth_error files c = Some f -> nth_error pts n = Some q -> read_netcdf_file t f = Ok (r, read_name f) ->
    (exists u, fields r = Ok u /\ cells (None, true) ny nx (fun j i => (num j i, false)) u) ->
    exists xi b hc inv D k cs v,
      evenly (x0 - INR (bef glob) * dx) dx (bef glob + nx + aft FES glob) xi /\ rect ny (bef glob + nx + aft FES glob) b /\ rect ny (bef glob + nx + aft FES glob) hc /\
      (forall j i, (j < ny)%nat -> within (bef glob) (aft FES glob) nx i -> entry (None, true) b j (ec (bef glob) i) = depth_at (dep j (column nx i))) /\
      (forall j i, (j < ny)%nat -> within (bef glob) (aft FES glob) nx i -> entry (None, true) hc j (ec (bef glob) i) = (num j (column nx i), snd (depth_at (dep j (column nx i))))) /\
      outside_axes xi lat q = Ok inv /\ bed_by w xi lat b q = Ok D /\ number_by w xi lat hc q = Ok k /\
      nth_error (adepth out) n = Some D /\ length (adepth out) = length pts /\ nth_error (anames out) c = Some (read_name f) /\
      length (aconst out) = length files /\ nth_error (aconst out) c = Some cs /\ length cs = length pts /\ nth_error cs n = Some v /\
      (ex = None -> v = reef_value t sc w inv D (k, concealed D k)) /\
      forall co, ex = Some co -> exists near queries,
        near = filter (fun n => sound (snd n) && in_bounds coords3 co queries (fst n)) (nodes_of (Sheet xi lat (map (map wiped) hc))) /\ (concealed D k = true -> In (on_ellipsoid q) queries) /\
        v = reef_value t sc w inv D (if concealed D k then ShoreProofs.answer co q near else (k, false)).
  Proof.
    intros H Hc Hq Hr (u & Hu & Ru & Eu). destruct Hh as [Rh Eh]. unfold reef_from in H. rewrite (evenly_span x0 dx nx) in H by auto. fold glob in H.
    assert (exists xi, (if glob then extend_axis lon dx else Ok lon) = Ok xi /\ evenly (x0 - INR (bef glob) * dx) dx (bef glob + nx + aft FES glob) xi) as (xi & Exi & Hxi).
    { destruct glob; unfold bef, aft.
      - destruct (extend_axis_evenly x0 dx nx _ Hx Nx) as (l & El & Hl). exists l. split; auto. replace (1 + nx + 1)%nat with (nx + 2)%nat by lia. replace (x0 - INR 1 * dx) with (x0 - dx) by (cbn [INR]; ring). exact Hl.
      - exists lon. split; auto. cbn [INR]. replace (x0 - 0 * dx) with x0 by ring. replace (0 + nx + 0)%nat with nx by lia. exact Hx. }
    rewrite Exi in H. cbn [bind] in H. destruct (longer_entries (A := gcell R) (None, true) glob ny nx h Rh Nx) as (b & Eb & Rb & Nb). rewrite Eb in H. cbn [bind] in H.
    destruct (mapM (outside_axes xi lat) pts) as [invs|] eqn:Ei; [|discriminate]. cbn [bind] in H. destruct (mapM (bed_by w xi lat b) pts) as [ds|] eqn:Ed; [|discriminate]. cbn [bind] in H.
    match type of H with bind ?m _ = _ => destruct m as [o|] eqn:Eo; [|discriminate] end. cbn [bind] in H. apply Ok_inj in H as <-. cbn [adepth anames aconst].
    destruct (mapM_nth _ _ _ _ _ Ei Hq) as (inv & E1 & N1). destruct (mapM_nth _ _ _ _ _ Ed Hq) as (D & E2 & N2). destruct (mapM_nth _ _ _ _ _ Eo Hc) as (oc & E3 & N3).
    rewrite Hr in E3. cbn [bind fst snd] in E3. rewrite Hu in E3. cbn [bind] in E3.
    destruct (longer_entries (A := gcell cpx) (None, true) glob ny nx u Ru Nx) as (e & Ee & Re & Ne). rewrite Ee in E3. cbn [bind] in E3.
    destruct (remask_entries b ny _ e Rb Re) as (hc & Ehc & Rhc & Nhc). rewrite Ehc in E3. cbn [bind] in E3.
    match type of E3 with bind ?m _ = _ => destruct m as [cs|] eqn:Ec; [|discriminate] end. cbn [bind] in E3. apply Ok_inj in E3 as <-.
    assert (L1 := mapM_len _ _ _ Ei). assert (L2 := mapM_len _ _ _ Ed). assert (L3 := mapM_len _ _ _ Eo).
    assert (Hz : nth_error (combine pts (combine invs ds)) n = Some (q, (inv, D))) by now repeat apply nth_error_combine.
    destruct (reef_constituent_nth _ _ _ _ _ _ _ _ _ _ _ _ _ Ec Hz) as (k & Ek & V0 & V1).
    assert (Lc := reef_constituent_len _ _ _ _ _ _ _ _ _ Ec). rewrite !combine_length in Lc.
    assert (Hv : exists v, nth_error cs n = Some v). { destruct (nth_error cs n) eqn:En; eauto. apply nth_error_None in En. assert (n < length pts)%nat by (apply nth_error_Some; congruence). lia. }
    destruct Hv as [v Hv]. exists xi, b, hc, inv, D, k, cs, v. split; [exact Hxi|]. split; [exact Rb|]. split; [exact Rhc|].
    assert (Nb' : forall j i, (j < ny)%nat -> within (bef glob) (aft FES glob) nx i -> entry (None, true) b j (ec (bef glob) i) = depth_at (dep j (column nx i))).
    { intros j i Hj Hi. rewrite Nb by auto. apply Eh; auto. now apply column_lt. }
    split; [exact Nb'|]. split.
    { intros j i Hj Hi. rewrite Nhc by (auto; now apply ec_lt). rewrite Nb' by auto. rewrite Ne by auto. rewrite Eu by (auto; now apply column_lt). reflexivity. }
    repeat (split; [assumption|]). split; [exact (map_nth_error snd c o N3)|]. split; [now rewrite map_length|]. split; [exact (map_nth_error fst c o N3)|]. split; [lia|]. split; [exact Hv|]. split.
    - intros En. specialize (V0 En). congruence.
    - intros co Eco. destruct (V1 co Eco) as (near & queries & V2 & V3 & V4). exists near, queries. split; [exact V2|]. split; [exact V3|]. congruence.
  Qed.
End From.
