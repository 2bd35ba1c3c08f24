(** Model of the command line programs that compute corrections for the points of a file:
    scripts/compute_tidal_elevations.py, compute_tidal_currents.py, compute_LPET_elevations.py,
    compute_LPT_displacements.py, compute_OPT_displacements.py, compute_SET_displacements.py.
    Simplifications:
    - the readers of pyTMD.spatial are a parameter ([reader]): the one-dimensional arrays of
      numbers they give by name, and the attributes projection and units of time;
    - pyproj is the parameter of CrsModel; the transformation to longitude and latitude is a
      function of one point ([place]) that refuses arrays of different lengths (OtherError);
      CRSError and exceptions of its own are OtherError;
    - timescale.time.parse_date_string ([parse_units]), from_deltatime ([clock]) and from_datetime
      ([dates]) are parameters, one time at a time; a datetime is a number;
    - the predictors, the tide model, polar motion, the ephemerides, the map of Desai, the masks
      and the fill value are those of ComputeModel;
    - what is written is the dictionary of longitudes, latitudes, times and values; of the writers
      only the shapes required by to_ascii are modelled, for files with some points and times;
      attributes, permissions and the parsing of arguments are left out. *)
From Coq Require Import Reals String List Bool ZArith Arith.
From Verif Require Import PyBase RBase StrBase MathModel AstroModel GeoModel DatumModel EarthModel
  PredictModel InferModel UtilModel ComputeModel.
From Verif Require CrsModel.
Import ListNotations.
Open Scope R_scope.

(** the format of a file: compute_tidal_elevations.py:260-281 (and 260-281 of compute_tidal_currents.py
    and so on) *)
Inductive format := Csv | NetCDF | HDF5 | Tiff | Parquet.
(** an unknown format leaves dinput without a value *)
Definition format_of (FORMAT : string) : res format :=
  if String.eqb FORMAT "csv" then Ok Csv
  else if String.eqb FORMAT "netCDF4" then Ok NetCDF
  else if String.eqb FORMAT "HDF5" then Ok HDF5
  else if mem_str FORMAT ["GTiff"; "cog"]%string then Ok Tiff
  else if String.eqb FORMAT "parquet" then Ok Parquet
  else Err NameError.

(** the points: of a grid (with ny and nx), along a track, stations; [Unbound] where no branch
    gives lon and lat a value *)
Inductive layout :=
| Grid (ny nx : nat) (rows : list (list (R * R)))
| Track (l : list (R * R))
| Stations (n : nat) (l : list (R * R))
| Unbound.

(** the dictionary written: (lon, lat), times, values *)
Record written (A : Type) := Written { w_points : out (R * R); w_times : list stamp; w_values : out A }.
Arguments Written {A}. Arguments w_points {A}. Arguments w_times {A}. Arguments w_values {A}.

Section Script.
  Context {D C P E : Type} (lib : CrsModel.pyproj D C P).
  Variable place : C -> R * R -> R * R.
  Variable parse_units : string -> res (E * R).
  Variable clock : E -> string -> R -> stamp.
  Variable dates : R -> stamp.

  (** what a reader gives: variables, attributes['projection'], attributes['time']['units'] *)
  Record input := Input { i_vars : list (string * list R); i_projection : option (CrsModel.given D); i_units : option string }.
  Variable reader : format -> list string -> res input.

  (** the arguments common to the programs *)
  Record arguments := Arguments_ { FORMAT : string; VARIABLES : list string; TYPE : string; TIME_UNITS : string;
    TIME : option (list R); TIME_STANDARD : string; PROJECTION : CrsModel.given D }.

  (** get_projection: compute_tidal_elevations.py:207-224 *)
  Definition get_projection (attribute : option (CrsModel.given D)) (PROJECTION : CrsModel.given D) : CrsModel.out C :=
    let second (_ : unit) :=
      CrsModel.otherwise (CrsModel.from_input lib PROJECTION) (fun _ => CrsModel.Bad CrsModel.CrsFault) in
    match attribute with
    | None => second tt
    | Some a => CrsModel.otherwise (CrsModel.from_input lib a) second
    end.
  Definition raised (e : CrsModel.fault) : exn :=
    match e with
    | CrsModel.ValueFault => ValueError | CrsModel.CrsFault => OtherError | CrsModel.TypeFault => TypeError
    | CrsModel.IndexFault => IndexError | CrsModel.AttributeFault => AttributeError | CrsModel.Foreign _ => OtherError
    end.

  (** dinput[k] *)
  Fixpoint lookup (k : string) (l : list (string * list R)) : res (list R) :=
    match l with [] => Err KeyError | (k', v) :: l => if String.eqb k k' then Ok v else lookup k l end.

  (** transformer.transform(x, y) of one-dimensional arrays *)
  Definition transform (c : C) (x y : list R) : res (list (R * R)) :=
    if (List.length x =? List.length y)%nat then Ok (map (place c) (combine x y)) else Err OtherError.

  (** compute_tidal_elevations.py:289-298; [asserted]: with the assertion of line 289 (all but
      compute_OPT_displacements.py) *)
  Definition spread (asserted : bool) (c : C) (TYPE : string) (vars : list (string * list R)) : res layout :=
    do _ <- (if asserted then check (mem_str (lower TYPE) type_names) else Ok tt) ;;
    if String.eqb TYPE "grid" then
      do y <- lookup "y" vars ;; do x <- lookup "x" vars ;;
      Ok (Grid (List.length y) (List.length x) (map (fun v => map (fun u => place c (u, v)) x) y))
    else if String.eqb TYPE "drift" then
      do x <- lookup "x" vars ;; do y <- lookup "y" vars ;;
      do l <- transform c x y ;; Ok (Track l)
    else if String.eqb TYPE "time series" then
      do y <- lookup "y" vars ;; do x <- lookup "x" vars ;;
      do l <- transform c x y ;; Ok (Stations (List.length y) l)
    else Ok Unbound.

  (** lines 300-305: except (TypeError, KeyError, ValueError) *)
  Definition unit_of (attribute : option string) (TIME_UNITS : string) : res (E * R) :=
    match attribute with
    | None => parse_units TIME_UNITS
    | Some s => match parse_units s with
                | Err (TypeError | KeyError | ValueError) => parse_units TIME_UNITS
                | r => r
                end
    end.
  (** lines 307-315 *)
  Definition stamps (u : E * R) (STANDARD : string) (t : list R) : list stamp :=
    if String.eqb (lower STANDARD) "datetime" then map dates t
    else map (fun v => clock (fst u) STANDARD (snd u * v)) t.

  (** lines 260-315 (278-290 of TIME: the variable time is replaced) *)
  Definition start (asserted : bool) (q : arguments) : res (layout * list stamp) :=
    do f <- format_of (FORMAT q) ;;
    do i <- reader f (VARIABLES q) ;;
    let vars := match TIME q with None => i_vars i | Some t => ("time"%string, t) :: i_vars i end in
    match get_projection (i_projection i) (PROJECTION q) with
    | CrsModel.Bad e => Err (raised e)
    | CrsModel.Good c =>
        do l <- spread asserted c (TYPE q) vars ;;
        do u <- unit_of (i_units i) (TIME_UNITS q) ;;
        do t <- lookup "time" vars ;;
        Ok (l, stamps u (TIME_STANDARD q) t)
    end.

  (** np.ravel(lon), np.ravel(lat); NameError without a value *)
  Definition points_of (l : layout) : res (list (R * R)) :=
    match l with Grid _ _ rows => Ok (concat rows) | Track l | Stations _ l => Ok l | Unbound => Err NameError end.
  (** lon and lat as they are written *)
  Definition shaped (l : layout) : out (R * R) :=
    match l with Grid _ _ rows => A2 rows | Track l | Stations _ l => A1 l | Unbound => A1 [] end.

  (** ** compute_tidal_elevations.py:319-388 *)
  Section Tides.
    Variable A : tide_args.
    Variable B : minor_args.
    Variable freq : string -> R.
    Variable gam : R -> R.

    (** lines 330-388: nodal corrections, times and values *)
    Definition predicted (m : tide_model) (CORRECTIONS : option string) (INFER_MINOR : bool) (MINOR : option (list string))
        (l : layout) (sts : list stamp) : res (out (option R * bool)) :=
      do pts <- points_of l ;;
      let hc := map (fun p => map oscillation (tm_constants m p)) pts in
      let c := tm_names m in
      let nodal_corrections := or_string CORRECTIONS (tm_corrections m) in
      let minor_constituents := or_list MINOR (tm_minor m) in
      let nc := List.length (hd [] hc) in
      let ts := map (tide_time nodal_corrections) sts in
      match l with
      | Grid ny nx _ =>
          do layers <- mapM (fun tm =>
            do TIDE <- predict_map A nodal_corrections tm hc c ;;
            do MINOR <- (if INFER_MINOR then minor_values A B freq gam nodal_corrections c nc hc [tm] minor_constituents
                         else Ok (map (fun _ => (0, false)) TIDE)) ;;
            reshape ny nx (map fill (add_masked TIDE MINOR))) ts ;;
          Ok (A3 (cube (Some 0, false) ny nx layers))
      | Track _ =>
          let mask := cycle (List.length ts) (map (existsb snd) hc) in
          do TIDE <- predict_drift A nodal_corrections ts hc c ;;
          do data <- (if INFER_MINOR
                      then do minor <- minor_values A B freq gam nodal_corrections c nc hc ts minor_constituents ;;
                           Ok (map (fun p => fst (fst p) + fst (snd p)) (combine TIDE minor))
                      else Ok (map fst TIDE)) ;;
          Ok (A1 (map fill (combine data mask)))
      | Stations n _ =>
          do rows <- mapM (fun s =>
            do HC <- item hc s ;;
            do TIDE <- predict_time_series A nodal_corrections ts [HC] c ;;
            do MINOR <- (if INFER_MINOR then minor_values A B freq gam nodal_corrections c nc [HC] ts minor_constituents
                         else Ok (map (fun _ => (0, false)) TIDE)) ;;
            Ok (map fill (add_masked TIDE MINOR))) (seq 0 n) ;;
          Ok (A2 rows)
      | Unbound => Err NameError
      end.

    Definition tidal_elevations (m : tide_model) (CORRECTIONS : option string) (INFER_MINOR : bool)
        (MINOR : option (list string)) (q : arguments) : res (written (option R * bool)) :=
      do s <- start true q ;;
      do v <- predicted m CORRECTIONS INFER_MINOR MINOR (fst s) (snd s) ;;
      Ok (Written (shaped (fst s)) (snd s) v).

    (** compute_tidal_currents.py:314-382: one entry for each of model.type *)
    Definition tidal_currents (components : list (string * tide_model)) (CORRECTIONS : option string) (INFER_MINOR : bool)
        (MINOR : option (list string)) (q : arguments) : res (list (string * written (option R * bool))) :=
      do s <- start true q ;;
      mapM (fun c =>
        do v <- predicted (snd c) CORRECTIONS INFER_MINOR MINOR (fst s) (snd s) ;;
        Ok (fst c, Written (shaped (fst s)) (snd s) v)) components.
  End Tides.

  (** ** compute_LPET_elevations.py:201-238 (line 202: the latitudes are flattened before the
      times are read, which matters only for which of two exceptions is raised) *)
  Definition equilibrium_script (q : arguments) : res (written R) :=
    do s <- start true q ;;
    do pts <- points_of (fst s) ;;
    let phi := map snd pts in
    let tt := map (fun st => (st_tide st + st_tt_ut1 st, 0)) (snd s) in
    do v <- match fst s with
      | Grid ny nx _ =>
          do layers <- mapM (fun t => reshape ny nx (rows_of (equilibrium_tide [t] phi "OTIS" Default))) tt ;;
          Ok (A3 (cube 0 ny nx layers))
      | Track _ => Ok (match equilibrium_tide tt phi "OTIS" Default with Flat l => A1 l | Outer rows => A2 rows end)
      | Stations n _ =>
          do rows <- mapM (fun k => do y <- item phi k ;; Ok (rows_of (equilibrium_tide tt [y] "OTIS" Default))) (seq 0 n) ;;
          Ok (A2 rows)
      | Unbound => Err NameError
      end ;;
    Ok (Written (shaped (fst s)) (snd s) v).

  (** ** compute_LPT_displacements.py:240-343 *)
  Variable pole_at : string -> R -> R -> pole.
  Definition load_pole_script (ELLIPSOID CONVENTION : string) (q : arguments) : res (written R) :=
    do s <- start true q ;;
    let sts := snd s in
    let nt := List.length sts in
    do u <- make (Kw ELLIPSOID "MKS" None None None None) ;;
    do pts <- points_of (fst s) ;;
    let XYZ := map (position u) pts in
    let g := map (fun p => gamma_0 u (colatitude u p)) pts in
    let M := map (fun p => to_local (colatitude u p) (dtr * fst p)) pts in
    let pole st := pole_at CONVENTION (st_tide st) (st_tt_ut1 st) in
    do v <- match fst s with
      | Grid ny nx _ =>
          do layers <- mapM (fun st =>
            do dxi <- load_pole_tide_at [pole st] XYZ g (d_omega u) 0.6207 0.0836 ;;
            do S <- rotate_rows dxi M ;;
            reshape ny nx (map vz S)) sts ;;
          Ok (A3 (cube 0 ny nx layers))
      | Track _ =>
          do dxi <- load_pole_tide_at (map pole sts) XYZ g (d_omega u) 0.6207 0.0836 ;;
          do S <- rotate_rows dxi M ;;
          do v <- store nt (map vz S) ;; Ok (A1 v)
      | Stations n _ =>
          do rows <- mapM (fun k =>
            do p <- item XYZ k ;; do gs <- item g k ;; do Ms <- item M k ;;
            do dxi <- load_pole_tide_at (map pole sts) (repeat p nt) [gs] (d_omega u) 0.6207 0.0836 ;;
            store nt (map (fun d => vz (mapply Ms d)) dxi)) (seq 0 n) ;;
          Ok (A2 rows)
      | Unbound => Err NameError
      end ;;
    Ok (Written (shaped (fst s)) (snd s) v).

  (** ** compute_OPT_displacements.py:229-371 *)
  Variable desai : string -> R * R -> cpx * cpx * cpx.
  Definition ocean_pole_script (ELLIPSOID CONVENTION METHOD : string) (q : arguments) : res (written R) :=
    do s <- start false q ;;
    let sts := snd s in
    let nt := List.length sts in
    do u <- make (Kw ELLIPSOID "MKS" None None None None) ;;
    do pts <- points_of (fst s) ;;
    let XYZ := map (position u) pts in
    let M p := from_local (colatitude u p) (dtr * fst p) in
    let U := map (fun p => map_vector (M p) (desai METHOD (fst p, geocentric (position u p) / dtr))) pts in
    let Minv := map (fun p => inv3 (M p)) pts in
    let pole st := pole_at CONVENTION (st_tide st) (st_tt_ut1 st) in
    let tide qs XYZ U := ocean_pole_tide qs XYZ U 9.7803278 (d_a u) (d_GM u) (d_omega u) 1025 (0.6870, 0.0036) in
    do v <- match fst s with
      | Grid ny nx _ =>
          do layers <- mapM (fun st =>
            do dxi <- tide [pole st] XYZ U ;;
            do S <- rotate_rows dxi Minv ;;
            reshape ny nx (map vz S)) sts ;;
          Ok (A3 (cube 0 ny nx layers))
      | Track _ =>
          do dxi <- tide (map pole sts) XYZ U ;;
          do S <- rotate_rows dxi Minv ;;
          do v <- store nt (map vz S) ;; Ok (A1 v)
      | Stations n _ =>
          do rows <- mapM (fun k =>
            do p <- item XYZ k ;; do us <- item U k ;; do Ms <- item Minv k ;;
            do dxi <- tide (map pole sts) (repeat p nt) (repeat us nt) ;;
            store nt (map (fun d => vz (mapply Ms d)) dxi)) (seq 0 n) ;;
          Ok (A2 rows)
      | Unbound => Err NameError
      end ;;
    Ok (Written (shaped (fst s)) (snd s) v).

  (** ** compute_SET_displacements.py:239-321 *)
  Variable sun moon : string -> R -> vec.
  (** [R[:,i,j] = v] for R with n rows and an array v of two dimensions: numpy drops leading
      dimensions of length one only *)
  Definition store_rows {A} (n : nat) (rows : list (list A)) : res (list A) :=
    match rows with [r] => bcast_to n r | _ => Err ValueError end.
  Definition solid_earth_script (ELLIPSOID TIDE_SYSTEM EPHEMERIDES : string) (q : arguments) : res (written R) :=
    do s <- start true q ;;
    let sts := snd s in
    let nt := List.length sts in
    let SXYZ := map (fun st => sun EPHEMERIDES (st_mjd st)) sts in
    let LXYZ := map (fun st => moon EPHEMERIDES (st_mjd st)) sts in
    let time st := st_tide st + st_tt_ut1 st in
    let local v := to_local (PI / 2 - geocentric v) (atan2 (vy v) (vx v)) in
    do u <- make (Kw ELLIPSOID "MKS" None None None None) ;;
    do v <- match fst s with
      | Grid ny nx rows =>
          (* lines 247-271: the coordinates have two dimensions and npts is their number of rows *)
          do M <- store_rows ny (map (map (fun p => local (position u p))) rows) ;;
          let n := (ny * nx)%nat in
          let XYZ := map (position u) (concat rows) in
          do layers <- mapM (fun st =>
            do dxi <- solid_earth_tide (map (fun one => time st + one) (repeat 1 n)) XYZ
              (repeat (sun EPHEMERIDES (st_mjd st)) n) (repeat (moon EPHEMERIDES (st_mjd st)) n) (d_a u) TIDE_SYSTEM default_love ;;
            do S <- rotate_rows dxi M ;;
            reshape ny nx (map vz S)) sts ;;
          Ok (A3 (cube 0 ny nx layers))
      | Track l =>
          let XYZ := map (position u) l in
          do dxi <- solid_earth_tide (map time sts) XYZ SXYZ LXYZ (d_a u) TIDE_SYSTEM default_love ;;
          do S <- rotate_rows dxi (map local XYZ) ;;
          Ok (A1 (map vz S))
      | Stations n l =>
          let XYZ := map (position u) l in
          let M := map local XYZ in
          do rows <- mapM (fun k =>
            do p <- item XYZ k ;; do Ms <- item M k ;;
            do dxi <- solid_earth_tide (map time sts) (repeat p nt) SXYZ LXYZ (d_a u) TIDE_SYSTEM default_love ;;
            store nt (map (fun d => vz (mapply Ms d)) dxi)) (seq 0 n) ;;
          Ok (A2 rows)
      | Unbound => Err NameError
      end ;;
    Ok (Written (shaped (fst s)) (snd s) v).

  (** ** what a csv file gets: np.c_ of the columns time, lat, lon and value (spatial.py:836-837),
      whose shapes must agree and be of one dimension; a line is time, latitude, longitude, value *)
  Definition csv_lines {A} (w : written A) : res (list (stamp * R * R * A)) :=
    match w_points w, w_values w with
    | A1 l, A1 v =>
        if (List.length (w_times w) =? List.length l)%nat && (List.length (w_times w) =? List.length v)%nat
        then Ok (map (fun r => (fst (fst r), snd (snd (fst r)), fst (snd (fst r)), snd r)) (combine (combine (w_times w) l) v))
        else Err ValueError
    | _, _ => Err ValueError
    end.
End Script.
