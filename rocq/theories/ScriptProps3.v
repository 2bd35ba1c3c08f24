(** C94: the lines of a csv file, and more of where the programs fail. *)
From Coq Require Import Reals String List Bool ZArith Arith Lia Lra.
From Verif Require Import PyBase RBase StrBase MathModel AstroModel GeoModel DatumModel EarthModel
  PredictModel InferModel UtilModel ComputeModel ComputeSpec ComputeProofs ComputeProps ComputeProps3 ScriptModel ScriptSpec ScriptProofs ScriptProps ScriptProps2.
From Verif Require CrsModel CrsSpec CrsProofs.
Import ListNotations.
Open Scope R_scope.

Lemma csv_track {A E} (place : R * R -> R * R) (clock : E -> string -> R -> stamp) dates e s STD (pts : list (R * R * R))
    (library : option string -> coords -> coords -> list R -> res (out A)) f result :
  let xs := map (fun p => fst (fst p)) pts in
  let ys := map (fun p => snd (fst p)) pts in
  let t := library_times s STD (map snd pts) in
  same_track place with_values result library (map (library_clock clock dates e STD) t) xs ys t ->
  drift_returns as_written (fun T => library (Some T)) f -> pts <> [] ->
  exists w, result = Ok w /\ csv_lines w = Ok (track_lines place clock dates e s STD f pts).
Proof.
  intros xs ys t H R N.
  assert (ET : t = map (fun p => library_time s STD (snd p)) pts).
  { unfold t, library_times, library_time. destruct (String.eqb (lower STD) "datetime"); [reflexivity|]. rewrite map_map. reflexivity. }
  set (pts' := map (fun p => (fst p, library_time s STD (snd p))) pts).
  assert (N' : pts' <> []) by (unfold pts'; destruct pts; [contradiction|discriminate]).
  specialize (R "drift"%string pts' eq_refl N'). cbv beta in R.
  replace (map (fun p => fst (fst p)) pts') with xs in R by (unfold pts', xs; rewrite map_map; reflexivity).
  replace (map (fun p => snd (fst p)) pts') with ys in R by (unfold pts', ys; rewrite map_map; reflexivity).
  replace (map snd pts') with t in R by (rewrite ET; unfold pts'; rewrite map_map; reflexivity).
  assert (L : List.length xs = List.length ys) by (unfold xs, ys; rewrite !map_length; reflexivity).
  specialize (H L). rewrite R in H. cbn [with_values] in H. eexists. split; [exact H|].
  unfold csv_lines. cbn [w_points w_values w_times].
  assert (LT : List.length t = List.length pts) by (rewrite ET; apply map_length).
  assert (LP : List.length (map place (combine xs ys)) = List.length pts).
  { rewrite map_length, combine_length. unfold xs, ys. rewrite !map_length. lia. }
  rewrite LP. unfold pts'. rewrite !map_length, LT, !Nat.eqb_refl. cbn [andb]. f_equal.
  rewrite ET. unfold xs, ys, track_lines. clear. induction pts as [|[[x y] v] l IH]; [reflexivity|].
  cbn [map combine fst snd]. rewrite IH. reflexivity.
Qed.

Ltac peel H :=
  repeat match type of H with
  | bind (bind ?r _) _ = Ok _ => destruct r; cbn [bind] in H; [|discriminate H]
  | bind ?r _ = Ok _ => destruct r; cbn [bind] in H; [|discriminate H]
  end.

Section C94.
  Context {D C P E : Type} (lib : CrsModel.pyproj D C P).
  Variable place : C -> R * R -> R * R.
  Variable parse_units : string -> res (E * R).
  Variable clock : E -> string -> R -> stamp.
  Variable dates : R -> stamp.
  Variable reader : format -> list string -> res (input (D := D)).
  Variable pole_at : string -> R -> R -> pole.
  Variable desai : string -> R * R -> cpx * cpx * cpx.
  Variable sun moon : string -> R -> vec.
  Variable A : tide_args.
  Variable B : minor_args.
  Variable freq : string -> R.
  Variable gam : R -> R.

  (** a track: every point has one line, in the order of the file, and its value depends on its
      own place and time only *)
Theorem C94_csv_lines : forall c e STANDARD ELLIPSOID CONVENTION METHOD SYSTEM EPHEMERIDES,
    In (lower STANDARD) ["gps"; "loran"; "tai"; "utc"; "datetime"]%string ->
    In (upper ELLIPSOID) ellipsoid_names -> In CONVENTION ["2003"; "2010"; "2015"; "2018"]%string ->
    In (lower METHOD) ["bilinear"; "spline"; "linear"; "nearest"]%string ->
    In (lower SYSTEM) ["mean_tide"; "tide_free"]%string -> In (lower EPHEMERIDES) ["approximate"; "jpl"]%string ->
    let lines (program : arguments (D := D) -> res (written R)) := exists f, forall q s pts,
      work lib parse_units reader q c e s (map (fun p => fst (fst p)) pts) (map (fun p => snd (fst p)) pts) (map snd pts) ->
      TYPE q = "drift"%string -> TIME_STANDARD q = STANDARD -> pts <> [] ->
      exists w, program q = Ok w /\ csv_lines w = Ok (track_lines (place c) clock dates e s STANDARD f pts) in
    lines (equilibrium_script lib place parse_units clock dates reader)
    /\ lines (load_pole_script lib place parse_units clock dates reader pole_at ELLIPSOID CONVENTION)
    /\ lines (ocean_pole_script lib place parse_units clock dates reader pole_at desai ELLIPSOID CONVENTION METHOD)
    /\ lines (solid_earth_script lib place parse_units clock dates reader sun moon ELLIPSOID SYSTEM EPHEMERIDES).
  Proof.
    intros c e STANDARD ELLIPSOID CONVENTION METHOD SYSTEM EPHEMERIDES HS HE HC HM HY HP lines. unfold lines.
    split; [|split; [|split]].
    - destruct (C46_long_period (place c) (library_clock clock dates e) STANDARD HS) as (f & DR & _). exists f.
      intros q s pts W T ST N. subst STANDARD.
      apply (csv_track (place c) clock dates e s (TIME_STANDARD q) pts _ f _
        (proj1 (C94_long_period lib place parse_units clock dates reader q c e s _ _ _ W HS) T) DR N).
    - destruct (C46_load_pole (place c) (library_clock clock dates e) pole_at ELLIPSOID CONVENTION STANDARD HS HE HC) as (f & DR & _). exists f.
      intros q s pts W T ST N. subst STANDARD.
      apply (csv_track (place c) clock dates e s (TIME_STANDARD q) pts _ f _
        (proj1 (C94_load_pole lib place parse_units clock dates reader pole_at q c e s _ _ _ W HS ELLIPSOID CONVENTION HE HC) T) DR N).
    - destruct (C46_ocean_pole (place c) (library_clock clock dates e) pole_at desai ELLIPSOID CONVENTION METHOD STANDARD HS HE HC HM) as (f & DR & _). exists f.
      intros q s pts W T ST N. subst STANDARD.
      apply (csv_track (place c) clock dates e s (TIME_STANDARD q) pts _ f _
        (proj1 (C94_ocean_pole lib place parse_units clock dates reader pole_at desai q c e s _ _ _ W HS ELLIPSOID CONVENTION METHOD HE HC HM) T) DR N).
    - destruct (C46_solid_earth_partial (place c) (library_clock clock dates e) sun moon ELLIPSOID SYSTEM EPHEMERIDES STANDARD HS HE HY HP) as (f & DR & _). exists f.
      intros q s pts W T ST N. subst STANDARD.
      assert (NG : TYPE q = "grid"%string -> List.length (map (fun p : R * R * R => fst (fst p)) pts) = 1%nat /\ List.length (map (fun p : R * R * R => snd (fst p)) pts) = 1%nat)
        by (rewrite T; discriminate).
      apply (csv_track (place c) clock dates e s (TIME_STANDARD q) pts _ f _
        (proj1 (C94_solid_earth lib place parse_units clock dates reader sun moon q c e s _ _ _ W HS ELLIPSOID SYSTEM EPHEMERIDES HY HP NG) T) DR N).
  Qed.

  (** and so have tidal elevations, if one point has a tide at all; a masked value stands where the
      model has none *)
Theorem C94_csv_elevations : forall c e STANDARD m METHOD CORRECTIONS INFER_MINOR MINOR x0 y0 t0 v,
    In (lower STANDARD) ["gps"; "loran"; "tai"; "utc"; "datetime"]%string ->
    In (lower METHOD) ["bilinear"; "spline"; "linear"; "nearest"]%string ->
    (forall p, List.length (tm_constants m p) = List.length (tm_names m)) ->
    tide_elevations (place c) (library_clock clock dates e) A B freq gam m true METHOD STANDARD CORRECTIONS INFER_MINOR MINOR
      (Some "drift"%string) (C1 [x0]) (C1 [y0]) [t0] = Ok v ->
    exists f, (forall x y t, snd (f x y t) = existsb snd (tm_constants m (place c (x, y)))) /\
    (forall x y t, fst (f x y t) = None <-> snd (f x y t) = true) /\
    forall q s pts,
      work lib parse_units reader q c e s (map (fun p => fst (fst p)) pts) (map (fun p => snd (fst p)) pts) (map snd pts) ->
      TYPE q = "drift"%string -> TIME_STANDARD q = STANDARD -> pts <> [] ->
      exists w, tidal_elevations lib place parse_units clock dates reader A B freq gam m CORRECTIONS INFER_MINOR MINOR q = Ok w
        /\ csv_lines w = Ok (track_lines (place c) clock dates e s STANDARD f pts).
  Proof.
    intros c e STANDARD m METHOD CORRECTIONS INFER_MINOR MINOR x0 y0 t0 v HS HM HL HV.
    destruct (C46_tide_elevations (place c) (library_clock clock dates e) A B freq gam m METHOD STANDARD CORRECTIONS INFER_MINOR MINOR x0 y0 t0 v HL HV)
      as (f & (DR & _) & MK & NN & _).
    exists f. split; [exact MK|]. split; [exact NN|]. intros q s pts W T ST N. subst STANDARD.
    apply (csv_track (place c) clock dates e s (TIME_STANDARD q) pts _ f _
      (proj1 (C94_elevations lib place parse_units clock dates reader A B freq gam q c e s _ _ _ W HS m METHOD CORRECTIONS INFER_MINOR MINOR HM) T)
      (fun T pts E N => DR T pts (f_equal lower E) N) N).
  Qed.

  (** grids and stations cannot be written to a csv file *)
Theorem C94_csv_refuted : forall q c e s xs ys ts m CORRECTIONS INFER_MINOR MINOR ELLIPSOID CONVENTION METHOD SYSTEM EPHEMERIDES,
    work lib parse_units reader q c e s xs ys ts -> In (TYPE q) ["grid"; "time series"]%string ->
    (forall w, tidal_elevations lib place parse_units clock dates reader A B freq gam m CORRECTIONS INFER_MINOR MINOR q = Ok w -> csv_lines w = Err ValueError)
    /\ (forall w, equilibrium_script lib place parse_units clock dates reader q = Ok w -> csv_lines w = Err ValueError)
    /\ (forall w, load_pole_script lib place parse_units clock dates reader pole_at ELLIPSOID CONVENTION q = Ok w -> csv_lines w = Err ValueError)
    /\ (forall w, ocean_pole_script lib place parse_units clock dates reader pole_at desai ELLIPSOID CONVENTION METHOD q = Ok w -> csv_lines w = Err ValueError)
    /\ (forall w, solid_earth_script lib place parse_units clock dates reader sun moon ELLIPSOID SYSTEM EPHEMERIDES q = Ok w -> csv_lines w = Err ValueError).
  Proof.
    intros q c e s xs ys ts m CORRECTIONS INFER_MINOR MINOR ELLIPSOID CONVENTION METHOD SYSTEM EPHEMERIDES W T.
    destruct T as [T|[T|[]]]; symmetry in T.
    - unfold tidal_elevations, equilibrium_script, load_pole_script, ocean_pole_script, solid_earth_script.
      rewrite !(start_grid lib place parse_units clock dates reader true q c e s xs ys ts W T),
        (start_grid lib place parse_units clock dates reader false q c e s xs ys ts W T).
      cbn [bind fst snd shaped points_of]. cbv zeta.
      (split; [|split; [|split; [|split]]]); intros w H; peel H; apply Ok_inj in H as <-; reflexivity.
    - destruct (Nat.eq_dec (List.length xs) (List.length ys)) as [L|L].
      + unfold tidal_elevations, equilibrium_script, load_pole_script, ocean_pole_script, solid_earth_script, predicted.
        rewrite !(start_stations lib place parse_units clock dates reader true q c e s xs ys ts W T L),
          (start_stations lib place parse_units clock dates reader false q c e s xs ys ts W T L).
        cbn [bind fst snd shaped points_of]. cbv zeta.
        (split; [|split; [|split; [|split]]]); intros w H; peel H; apply Ok_inj in H as <-; reflexivity.
      + destruct (C94_lengths lib place parse_units clock dates reader pole_at desai sun moon A B freq gam q c e s xs ys ts W
          m CORRECTIONS INFER_MINOR MINOR ELLIPSOID CONVENTION METHOD SYSTEM EPHEMERIDES [] ltac:(rewrite T; right; left; reflexivity) L)
          as (-> & _ & -> & -> & -> & ->).
        repeat split; discriminate.
  Qed.

  (** a format that is not known ends with a NameError *)
Theorem C94_formats : forall q m components CORRECTIONS INFER_MINOR MINOR ELLIPSOID CONVENTION METHOD SYSTEM EPHEMERIDES,
    ~ In (FORMAT q) ["csv"; "netCDF4"; "HDF5"; "GTiff"; "cog"; "parquet"]%string ->
    tidal_elevations lib place parse_units clock dates reader A B freq gam m CORRECTIONS INFER_MINOR MINOR q = Err NameError
    /\ tidal_currents lib place parse_units clock dates reader A B freq gam components CORRECTIONS INFER_MINOR MINOR q = Err NameError
    /\ equilibrium_script lib place parse_units clock dates reader q = Err NameError
    /\ load_pole_script lib place parse_units clock dates reader pole_at ELLIPSOID CONVENTION q = Err NameError
    /\ ocean_pole_script lib place parse_units clock dates reader pole_at desai ELLIPSOID CONVENTION METHOD q = Err NameError
    /\ solid_earth_script lib place parse_units clock dates reader sun moon ELLIPSOID SYSTEM EPHEMERIDES q = Err NameError.
  Proof.
    intros q m components CORRECTIONS INFER_MINOR MINOR ELLIPSOID CONVENTION METHOD SYSTEM EPHEMERIDES N.
    unfold tidal_elevations, tidal_currents, equilibrium_script, load_pole_script, ocean_pole_script, solid_earth_script, start.
    rewrite (format_unknown (FORMAT q) N). repeat split.
  Qed.

  (** the names of columns used when none are given, time, lat, lon and data, are not those the
      programs look for in a csv file *)
Theorem C94_columns_refuted : forall q i c m components CORRECTIONS INFER_MINOR MINOR ELLIPSOID CONVENTION METHOD SYSTEM EPHEMERIDES,
    FORMAT q = "csv"%string -> VARIABLES q = ["time"; "lat"; "lon"; "data"]%string ->
    reader Csv (VARIABLES q) = Ok i -> map fst (i_vars i) = VARIABLES q ->
    system lib (i_projection i) (PROJECTION q) c -> In (TYPE q) ["grid"; "drift"; "time series"]%string ->
    tidal_elevations lib place parse_units clock dates reader A B freq gam m CORRECTIONS INFER_MINOR MINOR q = Err KeyError
    /\ tidal_currents lib place parse_units clock dates reader A B freq gam components CORRECTIONS INFER_MINOR MINOR q = Err KeyError
    /\ equilibrium_script lib place parse_units clock dates reader q = Err KeyError
    /\ load_pole_script lib place parse_units clock dates reader pole_at ELLIPSOID CONVENTION q = Err KeyError
    /\ ocean_pole_script lib place parse_units clock dates reader pole_at desai ELLIPSOID CONVENTION METHOD q = Err KeyError
    /\ solid_earth_script lib place parse_units clock dates reader sun moon ELLIPSOID SYSTEM EPHEMERIDES q = Err KeyError.
  Proof.
    intros q i c m components CORRECTIONS INFER_MINOR MINOR ELLIPSOID CONVENTION METHOD SYSTEM EPHEMERIDES F V I M Y T.
    assert (G : forall a, start lib place parse_units clock dates reader a q = Err KeyError).
    { intros a. unfold start. rewrite F. change (format_of "csv") with (Ok Csv). cbn [bind]. rewrite I. cbn [bind]. cbv zeta.
      rewrite (system_get lib _ _ _ Y).
      set (vars := match TIME q with None => i_vars i | Some t => ("time"%string, t) :: i_vars i end).
      assert (KX : lookup "x" vars = Err KeyError).
      { unfold vars. destruct (TIME q); [rewrite lookup_skip by discriminate|]; apply lookup_missing; rewrite M, V; cbn; intuition discriminate. }
      assert (KY : lookup "y" vars = Err KeyError).
      { unfold vars. destruct (TIME q); [rewrite lookup_skip by discriminate|]; apply lookup_missing; rewrite M, V; cbn; intuition discriminate. }
      unfold spread. rewrite KX, KY. destruct T as [<-|[<-|[<-|[]]]]; destruct a; reflexivity. }
    unfold tidal_elevations, tidal_currents, equilibrium_script, load_pole_script, ocean_pole_script, solid_earth_script.
    rewrite !G. repeat split.
  Qed.

  (** times given as argument are read in the unit of the file, whatever unit is given as argument *)
  Definition with_unit (u : string) (q : arguments (D := D)) : arguments (D := D) :=
    Arguments_ (FORMAT q) (VARIABLES q) (TYPE q) u (TIME q) (TIME_STANDARD q) (PROJECTION q).
Theorem C94_unit_refuted : forall q f i a e s u m components CORRECTIONS INFER_MINOR MINOR ELLIPSOID CONVENTION METHOD SYSTEM EPHEMERIDES,
    In (FORMAT q, f) formats -> reader f (VARIABLES q) = Ok i -> i_units i = Some a -> parse_units a = Ok (e, s) ->
    let q' := with_unit u q in
    tidal_elevations lib place parse_units clock dates reader A B freq gam m CORRECTIONS INFER_MINOR MINOR q'
      = tidal_elevations lib place parse_units clock dates reader A B freq gam m CORRECTIONS INFER_MINOR MINOR q
    /\ tidal_currents lib place parse_units clock dates reader A B freq gam components CORRECTIONS INFER_MINOR MINOR q'
      = tidal_currents lib place parse_units clock dates reader A B freq gam components CORRECTIONS INFER_MINOR MINOR q
    /\ equilibrium_script lib place parse_units clock dates reader q' = equilibrium_script lib place parse_units clock dates reader q
    /\ load_pole_script lib place parse_units clock dates reader pole_at ELLIPSOID CONVENTION q'
      = load_pole_script lib place parse_units clock dates reader pole_at ELLIPSOID CONVENTION q
    /\ ocean_pole_script lib place parse_units clock dates reader pole_at desai ELLIPSOID CONVENTION METHOD q'
      = ocean_pole_script lib place parse_units clock dates reader pole_at desai ELLIPSOID CONVENTION METHOD q
    /\ solid_earth_script lib place parse_units clock dates reader sun moon ELLIPSOID SYSTEM EPHEMERIDES q'
      = solid_earth_script lib place parse_units clock dates reader sun moon ELLIPSOID SYSTEM EPHEMERIDES q.
  Proof.
    intros q f i a e s u m components CORRECTIONS INFER_MINOR MINOR ELLIPSOID CONVENTION METHOD SYSTEM EPHEMERIDES F I U PU q'.
    assert (G : forall b, start lib place parse_units clock dates reader b q' = start lib place parse_units clock dates reader b q).
    { intros b. unfold start, q', with_unit. cbn [FORMAT VARIABLES TYPE TIME_UNITS TIME TIME_STANDARD PROJECTION].
      rewrite (format_named _ _ F). cbn [bind]. rewrite I. cbn [bind]. unfold unit_of. rewrite U, PU. reflexivity. }
    unfold tidal_elevations, tidal_currents, equilibrium_script, load_pole_script, ocean_pole_script, solid_earth_script.
    rewrite !G. repeat split.
  Qed.
End C94.
Print Assumptions C94_csv_lines.
Print Assumptions C94_csv_elevations.
Print Assumptions C94_csv_refuted.
Print Assumptions C94_formats.
Print Assumptions C94_columns_refuted.
Print Assumptions C94_unit_refuted.
