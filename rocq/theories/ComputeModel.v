(** Model of pyTMD/compute.py: the routines that package a request (drift, grid
    or time series), call the predictors and shape the output.
    Simplifications:
    - exact real arithmetic without NaN: the masks made with np.isnan (lines 1053,
      1070, 1091, 1277, 1296, 1320) are always False and are left out;
    - the coordinate transformation of pyproj is a function of one point
      ([proj]); pyproj refuses arrays of different sizes (OtherError);
    - delta_time is a one-dimensional array (a scalar is the array of one time)
      and the timescale package converts times one by one ([clock]);
    - the tide model gives the constants of each location by itself
      ([tm_constants]; no cropping to the batch);
    - polar motion ([pole_at]), the ephemerides ([sun], [moon]) and the ocean pole
      tide map ([desai]) are functions of one time or one location;
    - a masked array is a list of values with mask bits and the fill value is
      written [None]. *)
From Coq Require Import Reals String List Bool ZArith Arith.
From Verif Require Import PyBase RBase StrBase MathModel AstroModel GeoModel DatumModel EarthModel
  PredictModel InferModel UtilModel.
Import ListNotations.
Open Scope R_scope.

(** ** Arrays *)

(** An array of coordinates with 0, 1 or 2 dimensions (rows of equal length) *)
Inductive coords := C0 (v : R) | C1 (l : list R) | C2 (rows : list (list R)).
Definition flatten (c : coords) : list R :=
  match c with C0 v => [v] | C1 l => l | C2 rows => concat rows end.
Definition size (c : coords) : nat := List.length (flatten c).
Definition ndim (c : coords) : nat := match c with C0 _ => 0 | C1 _ => 1 | C2 _ => 2 end.
Definition atleast_1d (c : coords) : coords := match c with C0 v => C1 [v] | _ => c end.
Definition atleast_2d (c : coords) : coords :=
  match c with C0 v => C2 [[v]] | C1 l => C2 [l] | C2 rows => C2 rows end.
(** np.meshgrid of the flattened arrays *)
Definition meshgrid (x y : coords) : coords * coords :=
  (C2 (map (fun _ => flatten x) (flatten y)), C2 (map (fun v => map (fun _ => v) (flatten x)) (flatten y))).
(** [len(x)] of an array with at least one dimension *)
Definition len (c : coords) : nat := match c with C0 _ => 0 | C1 l => List.length l | C2 rows => List.length rows end.
(** [ny,nx = np.shape(x)]; ValueError unless there are two dimensions *)
Definition shape2 (c : coords) : res (nat * nat) :=
  match c with C2 rows => Ok (List.length rows, List.length (hd [] rows)) | _ => Err ValueError end.

(** np.reshape(l, (ny,nx)) *)
Fixpoint chunks {A} (ny nx : nat) (l : list A) : list (list A) :=
  match ny with O => [] | S n => firstn nx l :: chunks n nx (skipn nx l) end.
Definition reshape {A} (ny nx : nat) (l : list A) : res (list (list A)) :=
  if (List.length l =? ny * nx)%nat then Ok (chunks ny nx l) else Err ValueError.
(** [out = np.zeros((ny,nx,nt)); out[:,:,i] = layers[i]] *)
Definition cube {A} (zero : A) (ny nx : nat) (layers : list (list (list A))) : list (list (list A)) :=
  map (fun r => map (fun c => map (fun layer => nth c (nth r layer []) zero) layers) (seq 0 nx)) (seq 0 ny).

(** Output array of 1, 2 or 3 dimensions *)
Inductive out (A : Type) := A1 (l : list A) | A2 (l : list (list A)) | A3 (l : list (list (list A))).
Arguments A1 {A}. Arguments A2 {A}. Arguments A3 {A}.

(** [a[s]] *)
Definition item {A} (l : list A) (s : nat) : res A :=
  match nth_error l s with Some a => Ok a | None => Err IndexError end.

(** A time: days since 1992-01-01 (UT1), TT - UT1 in days, and MJD *)
Record stamp := Stamp { st_tide : R; st_tt_ut1 : R; st_mjd : R }.

Definition time_names : list string := ["gps"; "loran"; "tai"; "utc"; "datetime"]%string.
Definition method_names : list string := ["bilinear"; "spline"; "linear"; "nearest"]%string.
Definition type_names : list string := ["grid"; "drift"; "time series"]%string.
(** timescale.eop._conventions *)
Definition conventions : list string := ["2003"; "2010"; "2015"; "2018"]%string.
Definition check (b : bool) : res unit := if b then Ok tt else Err AssertionError.

(** [a or b] for a keyword that may be None *)
Definition or_string (a : option string) (b : string) : string :=
  match a with None | Some EmptyString => b | Some s => s end.
Definition or_list (a b : option (list string)) : option (list string) :=
  match a with None | Some [] => b | Some l => Some l end.

Section Compute.
  Variable proj : R * R -> R * R.
  Variable clock : string -> R -> stamp.

  (** The common part: compute.py lines 333-346 (and 553-566, 845-858, 965-978,
      1173-1186, 1394-1407): type of the data and shape of the coordinates *)
  Definition data_kind (TYPE : option string) (x y : coords) (t : list R) : res string :=
    match TYPE with
    | None | Some EmptyString => data_type (size x) (size y) (List.length t) (ndim x)
    | Some s => Ok s
    end.
  Definition reform (TYPE : string) (x y : coords) : coords * coords :=
    if String.eqb (lower TYPE) "grid" && negb (size x =? size y)%nat then meshgrid x y
    else if String.eqb (lower TYPE) "grid" then (atleast_2d x, atleast_2d y)
    else (atleast_1d x, atleast_1d y).
  (** lines 348-352 (and 568-572, 860-864, 980-984, 1188-1192, 1409-1413) *)
  Definition locations (x y : coords) : res (list (R * R)) :=
    if (size x =? size y)%nat then Ok (map proj (combine (flatten x) (flatten y))) else Err OtherError.

  (** Resolved type, array of x coordinates, (lon,lat) of the points, times;
      the conversion of times: lines 354-362 (and 574-582, 866-874, 986-994,
      1194-1202, 1415-1423) *)
  Definition prepare (TYPE : option string) (TIME : string) (x y : coords) (t : list R)
    : res (string * coords * list (R * R) * list stamp) :=
    do T <- data_kind TYPE x y t ;;
    do _ <- check (mem_str (lower T) type_names) ;;
    let xy := reform T x y in
    do ll <- locations (fst xy) (snd xy) ;;
    Ok (T, fst xy, ll, map (clock TIME) t).

  (** ** Tide models *)
  Section Tides.
    Variable A : tide_args.
    Variable B : minor_args.
    Variable freq : string -> R.
    Variable gam : R -> R.

    (** What a tide model provides: amplitude, phase (degrees) and mask of every
        constituent at a location, the names, corrections and minor constituents *)
    Record tide_model := TM { tm_constants : R * R -> list (R * R * bool); tm_names : list string;
      tm_corrections : string; tm_minor : option (list string) }.

    (** lines 371-374 (and 594-597): hc = amp*exp(-i ph) *)
    Definition oscillation (a : R * R * bool) : cpx * bool :=
      (cscale (fst (fst a)) (cexp (- snd (fst a) * PI / 180)), snd a).

    (** lines 376-386 (and 599-609) *)
    Definition tide_time (corr : string) (st : stamp) : R * R :=
      (st_tide st, if mem_str corr ["OTIS"; "ATLAS"; "TMD3"; "netcdf"]%string then 0 else st_tt_ut1 st).

    (** The result of infer_minor is the python number 0.0 when nothing is
        inferred: it has neither [data] nor [mask] *)
    Definition minor_values (corr : string) (cs : list string) (nc : nat) (hc : list (list (cpx * bool)))
        (ts : list (R * R)) (minor : option (list string)) : res (list (R * bool)) :=
      do d <- infer_minor A B freq gam corr "linear" cs nc hc ts minor false ;;
      match d with Scalar0 => Err AttributeError | Arr l => Ok l end.

    Definition add_masked (a b : list (R * bool)) : list (R * bool) :=
      map (fun p => (fst (fst p) + fst (snd p), snd (fst p) || snd (snd p))) (combine a b).
    (** [tide.mask = m]: the mask is filled repeating m *)
    Definition cycle (n : nat) (m : list bool) : list bool :=
      map (fun i => nth (i mod List.length m) m false) (seq 0 n).
    (** line 436 (and 659) *)
    Definition fill (v : R * bool) : option R * bool := (if snd v then None else Some (fst v), snd v).

    (** lines 388-436 (and 611-659) *)
    Definition tide_values (corr : string) (cs : list string) (minor : option (list string)) (infer : bool)
        (TYPE : string) (x : coords) (hc : list (list (cpx * bool))) (sts : list stamp) : res (out (option R * bool)) :=
      let nc := List.length (hd [] hc) in
      let ts := map (tide_time corr) sts in
      if String.eqb (lower TYPE) "grid" then
        do sh <- shape2 x ;;
        do layers <- mapM (fun tm =>
          do TIDE <- predict_map A corr tm hc cs ;;
          do MINOR <- (if infer then minor_values corr cs nc hc [tm] minor else Ok (map (fun _ => (0, false)) TIDE)) ;;
          reshape (fst sh) (snd sh) (map fill (add_masked TIDE MINOR))) ts ;;
        Ok (A3 (cube (Some 0, false) (fst sh) (snd sh) layers))
      else if String.eqb (lower TYPE) "drift" then
        let mask := cycle (List.length ts) (map (existsb snd) hc) in
        do TIDE <- predict_drift A corr ts hc cs ;;
        do data <- (if infer
                    then do minor <- minor_values corr cs nc hc ts minor ;;
                         Ok (map (fun p => fst (fst p) + fst (snd p)) (combine TIDE minor))
                    else Ok (map fst TIDE)) ;;
        Ok (A1 (map fill (combine data mask)))
      else if String.eqb (lower TYPE) "time series" then
        do rows <- mapM (fun s =>
          do HC <- item hc s ;;
          do TIDE <- predict_time_series A corr ts [HC] cs ;;
          do MINOR <- (if infer then minor_values corr cs nc [HC] ts minor else Ok (map (fun _ => (0, false)) TIDE)) ;;
          Ok (map fill (add_masked TIDE MINOR))) (seq 0 (len x)) ;;
        Ok (A2 rows)
      else Err NameError.

    (** compute.py:214-439 tide_elevations *)
    Definition tide_elevations (m : tide_model) (directory_exists : bool) (METHOD TIME : string)
        (CORRECTIONS : option string) (INFER_MINOR : bool) (MINOR_CONSTITUENTS : option (list string))
        (TYPE : option string) (x y : coords) (t : list R) : res (out (option R * bool)) :=
      if negb directory_exists then Err FileNotFoundError
      else
        do _ <- check (mem_str (lower TIME) time_names) ;;
        do _ <- check (mem_str (lower METHOD) method_names) ;;
        do q <- prepare TYPE TIME x y t ;;
        let '(T, x', ll, sts) := q in
        tide_values (or_string CORRECTIONS (tm_corrections m)) (tm_names m) (or_list MINOR_CONSTITUENTS (tm_minor m))
          INFER_MINOR T x' (map (fun p => map oscillation (tm_constants m p)) ll) sts.

    (** compute.py:442-662 tide_currents: a dictionary with one entry for each
        component of the model (u and v) *)
    Definition tide_currents (components : list (string * tide_model)) (directory_exists : bool) (METHOD TIME : string)
        (CORRECTIONS : option string) (INFER_MINOR : bool) (MINOR_CONSTITUENTS : option (list string))
        (TYPE : option string) (x y : coords) (t : list R) : res (list (string * out (option R * bool))) :=
      if negb directory_exists then Err FileNotFoundError
      else
        do _ <- check (mem_str (lower TIME) time_names) ;;
        do _ <- check (mem_str (lower METHOD) method_names) ;;
        do q <- prepare TYPE TIME x y t ;;
        let '(T, x', ll, sts) := q in
        mapM (fun c =>
          let m := snd c in
          do v <- tide_values (or_string CORRECTIONS (tm_corrections m)) (tm_names m) (or_list MINOR_CONSTITUENTS (tm_minor m))
            INFER_MINOR T x' (map (fun p => map oscillation (tm_constants m p)) ll) sts ;;
          Ok (fst c, v)) components.
  End Tides.

  (** ** Long-period equilibrium tides: compute.py:796-897 *)
  Definition rows_of (t : table) : list R := match t with Flat l => l | Outer rows => concat rows end.
  Definition LPET_elevations (TIME : string) (TYPE : option string) (x y : coords) (t : list R) : res (out R) :=
    do _ <- check (mem_str (lower TIME) time_names) ;;
    do q <- prepare TYPE TIME x y t ;;
    let '(T, x', ll, sts) := q in
    let lat := map snd ll in
    let tt := map (fun st => (st_tide st + st_tt_ut1 st, 0)) sts in
    if String.eqb T "grid" then
      do sh <- shape2 x' ;;
      do layers <- mapM (fun q => reshape (fst sh) (snd sh) (rows_of (equilibrium_tide [q] lat "OTIS" Default))) tt ;;
      Ok (A3 (cube 0 (fst sh) (snd sh) layers))
    else if String.eqb T "drift" then
      Ok (match equilibrium_tide tt lat "OTIS" Default with Flat l => A1 l | Outer rows => A2 rows end)
    else if String.eqb T "time series" then
      do rows <- mapM (fun s => do y <- item lat s ;; Ok (rows_of (equilibrium_tide tt [y] "OTIS" Default))) (seq 0 (len x')) ;;
      Ok (A2 rows)
    else Err NameError.

  (** ** Pole tides *)
  Variable pole_at : string -> R -> R -> pole.

  (** compute.py:1006-1020, 1225-1235 (SET: 1432-1445): geocentric coordinates *)
  Definition position (u : datum) (p : R * R) : vec := to_cartesian (Ell (d_a u) (d_flat u)) (fst p) (snd p) 0.
  Definition geocentric (v : vec) : R := atan (vz v / sqrt (vx v ^ 2 + vy v ^ 2)).
  Definition colatitude (u : datum) (p : R * R) : R := dtr * (90 - geocentric (position u p) / dtr).
  (** lines 1022-1031 (and 1446-1455): from Cartesian coordinates to the
      directions of colatitude, longitude and radius *)
  Definition to_local (theta phi : R) : mat :=
    Mat (cos phi * cos theta) (sin phi * cos theta) (- sin theta)
      (- sin phi) (cos phi) 0
      (cos phi * sin theta) (sin phi * sin theta) (cos theta).
  (** einsum 'ti,tji->tj' with numpy broadcasting along t *)
  Definition rotate_rows (dxi : list vec) (M : list mat) : res (list vec) :=
    let n := if (List.length dxi =? 1)%nat then List.length M else List.length dxi in
    do a <- bcast_to n dxi ;; do b <- bcast_to n M ;;
    Ok (map (fun q => mapply (snd q) (fst q)) (combine a b)).
  (** [out.data[:] = v] with nt values *)
  Definition store (nt : nat) (v : list R) : res (list R) := bcast_to nt v.

  (** compute.py:901-1097 LPT_displacements *)
  Definition LPT_displacements (ELLIPSOID CONVENTION TIME : string) (TYPE : option string) (x y : coords) (t : list R) : res (out R) :=
    do _ <- check (mem_str (lower TIME) time_names) ;;
    do _ <- check (mem_str (upper ELLIPSOID) ellipsoid_names) ;;
    do _ <- check (mem_str CONVENTION conventions) ;;
    do q <- prepare TYPE TIME x y t ;;
    let '(T, x', ll, sts) := q in
    do u <- make (Kw ELLIPSOID "MKS" None None None None) ;;
    let XYZ := map (position u) ll in
    let g := map (fun p => gamma_0 u (colatitude u p)) ll in
    let M := map (fun p => to_local (colatitude u p) (dtr * fst p)) ll in
    let pole st := pole_at CONVENTION (st_tide st) (st_tt_ut1 st) in
    let nt := List.length sts in
    if String.eqb T "grid" then
      do sh <- shape2 x' ;;
      do layers <- mapM (fun st =>
        do dxi <- load_pole_tide_at [pole st] XYZ g (d_omega u) 0.6207 0.0836 ;;
        do S <- rotate_rows dxi M ;;
        reshape (fst sh) (snd sh) (map vz S)) sts ;;
      Ok (A3 (cube 0 (fst sh) (snd sh) layers))
    else if String.eqb T "drift" then
      do dxi <- load_pole_tide_at (map pole sts) XYZ g (d_omega u) 0.6207 0.0836 ;;
      do S <- rotate_rows dxi M ;;
      do v <- store nt (map vz S) ;; Ok (A1 v)
    else if String.eqb T "time series" then
      do rows <- mapM (fun s =>
        do p <- item XYZ s ;; do gs <- item g s ;; do Ms <- item M s ;;
        do dxi <- load_pole_tide_at (map pole sts) (repeat p nt) [gs] (d_omega u) 0.6207 0.0836 ;;
        store nt (map (fun d => vz (mapply Ms d)) dxi)) (seq 0 (len x')) ;;
      Ok (A2 rows)
    else Err NameError.

  (** Ocean pole tide map of Desai at (lon, geocentric latitude): ur, un, ue *)
  Variable desai : string -> R * R -> cpx * cpx * cpx.

  (** np.linalg.inv of a 3x3 matrix (adjugate over determinant) *)
  Definition det3 (m : mat) : R :=
    m00 m * (m11 m * m22 m - m12 m * m21 m) - m01 m * (m10 m * m22 m - m12 m * m20 m)
    + m02 m * (m10 m * m21 m - m11 m * m20 m).
  Definition inv3 (m : mat) : mat :=
    let d := det3 m in
    Mat ((m11 m * m22 m - m12 m * m21 m) / d) ((m02 m * m21 m - m01 m * m22 m) / d) ((m01 m * m12 m - m02 m * m11 m) / d)
      ((m12 m * m20 m - m10 m * m22 m) / d) ((m00 m * m22 m - m02 m * m20 m) / d) ((m02 m * m10 m - m00 m * m12 m) / d)
      ((m10 m * m21 m - m11 m * m20 m) / d) ((m01 m * m20 m - m00 m * m21 m) / d) ((m00 m * m11 m - m01 m * m10 m) / d).
  (** compute.py:1239-1249 *)
  Definition from_local (theta phi : R) : mat :=
    Mat (cos phi * cos theta) (- sin phi) (cos phi * sin theta)
      (sin phi * cos theta) (cos phi) (sin phi * sin theta)
      (- sin theta) 0 (cos theta).
  (** compute.py:1251-1253: rows (un, ue, ur) of complex numbers, real and imaginary parts *)
  Definition map_vector (M : mat) (c : cpx * cpx * cpx) : vec * vec :=
    let '(ur, un, ue) := c in
    (mapply M (Vec (cre un) (cre ue) (cre ur)), mapply M (Vec (cim un) (cim ue) (cim ur))).

  (** compute.py:1101-1326 OPT_displacements *)
  Definition OPT_displacements (ELLIPSOID CONVENTION METHOD TIME : string) (TYPE : option string) (x y : coords) (t : list R) : res (out R) :=
    do _ <- check (mem_str (lower TIME) time_names) ;;
    do _ <- check (mem_str (upper ELLIPSOID) ellipsoid_names) ;;
    do _ <- check (mem_str CONVENTION conventions) ;;
    do _ <- check (mem_str (lower METHOD) method_names) ;;
    do q <- prepare TYPE TIME x y t ;;
    let '(T, x', ll, sts) := q in
    do u <- make (Kw ELLIPSOID "MKS" None None None None) ;;
    let XYZ := map (position u) ll in
    let M p := from_local (colatitude u p) (dtr * fst p) in
    let U := map (fun p => map_vector (M p) (desai METHOD (fst p, geocentric (position u p) / dtr))) ll in
    let Minv := map (fun p => inv3 (M p)) ll in
    let pole st := pole_at CONVENTION (st_tide st) (st_tt_ut1 st) in
    let tide qs XYZ U := ocean_pole_tide qs XYZ U 9.7803278 (d_a u) (d_GM u) (d_omega u) 1025 (0.6870, 0.0036) in
    let nt := List.length sts in
    if String.eqb T "grid" then
      do sh <- shape2 x' ;;
      do layers <- mapM (fun st =>
        do dxi <- tide [pole st] XYZ U ;;
        do S <- rotate_rows dxi Minv ;;
        reshape (fst sh) (snd sh) (map vz S)) sts ;;
      Ok (A3 (cube 0 (fst sh) (snd sh) layers))
    else if String.eqb T "drift" then
      do dxi <- tide (map pole sts) XYZ U ;;
      do S <- rotate_rows dxi Minv ;;
      do v <- store nt (map vz S) ;; Ok (A1 v)
    else if String.eqb T "time series" then
      do rows <- mapM (fun s =>
        do p <- item XYZ s ;; do us <- item U s ;; do Ms <- item Minv s ;;
        do dxi <- tide (map pole sts) (repeat p nt) (repeat us nt) ;;
        store nt (map (fun d => vz (mapply Ms d)) dxi)) (seq 0 (len x')) ;;
      Ok (A2 rows)
    else Err NameError.

  (** ** Solid earth tides: compute.py:1329-1509 *)
  Variable sun moon : string -> R -> vec.
  Definition SET_displacements (ELLIPSOID TIDE_SYSTEM EPHEMERIDES TIME : string) (TYPE : option string)
      (x y : coords) (t : list R) : res (out R) :=
    do _ <- check (mem_str (lower TIME) time_names) ;;
    do _ <- check (mem_str (lower TIDE_SYSTEM) ["mean_tide"; "tide_free"]%string) ;;
    do _ <- check (mem_str (lower EPHEMERIDES) ["approximate"; "jpl"]%string) ;;
    do q <- prepare TYPE TIME x y t ;;
    let '(T, x', ll, sts) := q in
    do u <- make (Kw ELLIPSOID "MKS" None None None None) ;;
    let XYZ := map (position u) ll in
    let SXYZ := map (fun st => sun EPHEMERIDES (st_mjd st)) sts in
    let LXYZ := map (fun st => moon EPHEMERIDES (st_mjd st)) sts in
    let M := map (fun v => to_local (PI / 2 - geocentric v) (atan2 (vy v) (vx v))) XYZ in
    let time st := st_tide st + st_tt_ut1 st in
    let nt := List.length sts in
    if String.eqb T "grid" then
      do sh <- shape2 x' ;;
      let n := (fst sh * snd sh)%nat in
      do layers <- mapM (fun st =>
        (* line 1465: t = tide_time[i] + np.ones((ny*nx)) *)
        do dxi <- solid_earth_tide (map (fun one => time st + one) (repeat 1 n)) XYZ
          (repeat (sun EPHEMERIDES (st_mjd st)) n) (repeat (moon EPHEMERIDES (st_mjd st)) n) (d_a u) TIDE_SYSTEM default_love ;;
        do S <- rotate_rows dxi M ;;
        reshape (fst sh) (snd sh) (map vz S)) sts ;;
      Ok (A3 (cube 0 (fst sh) (snd sh) layers))
    else if String.eqb T "drift" then
      do dxi <- solid_earth_tide (map time sts) XYZ SXYZ LXYZ (d_a u) TIDE_SYSTEM default_love ;;
      do S <- rotate_rows dxi M ;;
      Ok (A1 (map vz S))
    else if String.eqb T "time series" then
      do rows <- mapM (fun s =>
        do p <- item XYZ s ;; do Ms <- item M s ;;
        do dxi <- solid_earth_tide (map time sts) (repeat p nt) SXYZ LXYZ (d_a u) TIDE_SYSTEM default_love ;;
        store nt (map (fun d => vz (mapply Ms d)) dxi)) (seq 0 (len x')) ;;
      Ok (A2 rows)
    else Err NameError.
End Compute.

(** ** compute.py:167-211 corrections: which routine a name selects *)
Inductive routine := Tide | LPET | LPT | OPT | SET.
Definition corrections (CORRECTION : string) : res routine :=
  if mem_str (lower CORRECTION) ["ocean"; "load"]%string then Ok Tide
  else if String.eqb (upper CORRECTION) "LPET" then Ok LPET
  else if String.eqb (upper CORRECTION) "LPT" then Ok LPT
  else if String.eqb (upper CORRECTION) "OPT" then Ok OPT
  else if String.eqb (upper CORRECTION) "SET" then Ok SET
  else Err ValueError.
