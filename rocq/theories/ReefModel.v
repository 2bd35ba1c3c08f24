(** Model of the options of ATLAS.extract_constants: cropping to bounds and extrapolation
    from the nearest valid node (pyTMD/io/ATLAS.py:225-390, _crop 1261-1324, _shift
    1326-1387; pyTMD/interpolate.py: extrapolate 279-420).

    The depths are masked where they are zero only after the cropping (line 274), which is
    the same as masking them before it.  The points are not adjusted to the longitudes of
    the model when it is cropped (lines 248-263).  D.data at masked depths is the fill
    value for bilinear interpolation (line 289) and otherwise what was interpolated from
    the data with the zeros on land; the velocities are divided by it (lines 303-304, 375).
    Simplifications otherwise as in AtlasNcModel, RegularModel, CropModel and ShoreModel. *)
From Coq Require Import Reals List Bool Arith ZArith.
From Verif Require Import PyBase RBase MathModel GeoModel GridModel InterpModel ExtractModel SeriesModel AtlasNcModel RegularModel CropModel ShoreModel NarrowModel.
Import ListNotations.
Open Scope R_scope.

(** ATLAS.py:281-300 *)
Definition bed_by (w : way) (xi yi : list R) (b : list (list (gcell R))) (q : R * R) : res (gcell R) :=
  match w with Quick me => sounding me xi yi b q | Regular me => rregular me xi yi b q end.
(** ATLAS.py:338-363 *)
Definition number_by (w : way) (xi yi : list R) (hc : field) (q : R * R) : res (gcell cpx) :=
  match w with
  | Quick Bilinear => cbilinear xi yi hc q
  | Quick Spline => cspline xi yi hc q
  | Regular me => cregular me xi yi hc q
  end.
(** np.ma.default_fill_value(float) *)
Definition fill_depth : R := 10 ^ 20.
(** D.data *)
Definition bed_data (w : way) (D : gcell R) : option R :=
  match w with Quick Bilinear => if snd D then Some fill_depth else fst D | _ => fst D end.
(** ATLAS.py:302-308, 374-387; nan or masked is None *)
Definition reef_value (t : variable) (sc : R) (w : way) (inv : bool) (D : gcell R) (h : gcell cpx * bool) : option (R * R) :=
  if snd h || inv then None
  else match fst (fst h) with
       | Some z => match t with
                   | Vu | Vv => match bed_data w D with Some d => Some (cabs z / (d / 100) * sc, phase_of z) | None => None end
                   | _ => Some (cabs z * sc, phase_of z)
                   end
       | None => None
       end.
(** hci.mask |= D.mask (lines 343, 352, 362) *)
Definition concealed (D : gcell R) (h : gcell cpx) : bool := snd h || snd D.
(** hc.data[hc.mask] = nan (line 369) *)
Definition wiped (c : gcell cpx) : gcell cpx := if snd c then (None, true) else c.
(** one constituent at all points, each with its flag for outside and its depth
    (lines 338-387) *)
Definition reef_constituent (w : way) (t : variable) (sc : R) (ex : option bound) (xi yi : list R) (hc : field) (pts : list ((R * R) * (bool * gcell R))) : res (list (option (R * R))) :=
  do hs <- mapM (fun p => do h <- number_by w xi yi hc (fst p) ;; Ok (h, concealed (snd (snd p)) h)) pts ;;
  let done := match ex with Some c => fill_in c (Sheet xi yi (map (map wiped) hc)) (map fst pts) hs | None => hs end in
  Ok (map (fun p => reef_value t sc w (fst (snd (fst p))) (snd (snd (fst p))) (snd p)) (combine pts done)).
(** ATLAS.py:265-390 from the (cropped) depths on; [fields] crops the constituents *)
Definition reef_from (w : way) (t : variable) (sc : R) (ex : option bound) (d : R) (lon lat : list R) (h : list (list (gcell R)))
    (fields : field -> res field) (files : list tide_file) (pts : list (R * R)) : res answer :=
  let glob := isclose (last lon 0 - hd 0 lon) (360 - d) in
  do xi <- (if glob then extend_axis lon d else Ok lon) ;;
  do b <- extend_if glob h ;;
  do inv <- mapM (outside_axes xi lat) pts ;;
  do ds <- mapM (bed_by w xi lat b) pts ;;
  do out <- mapM (fun f =>
      do r <- read_netcdf_file t f ;;
      do c <- fields (fst r) ;;
      do e <- extend_if glob c ;;
      do hc <- remask b e ;;
      do cs <- reef_constituent w t sc ex xi lat hc (combine pts (combine inv ds)) ;;
      Ok (cs, snd r)) files ;;
  Ok (Answer (map fst out) ds (map snd out)).
(** ATLAS.py:225-390; [ex] is None without extrapolation and Some cutoff with it *)
Definition extract_reef (w : way) (t : variable) (sc : R) (ex : option bound) (crop : bool) (bounds : option limits) (buffer : option R)
    (g : grid_file) (files : list tide_file) (pts : list (R * R)) : res answer :=
  do n <- read_netcdf_grid t g ;;
  let '(lon, lat, h) := n in
  do xl <- amin (map fst pts) ;; do xh <- amax (map fst pts) ;;
  do yl <- amin (map snd pts) ;; do yh <- amax (map snd pts) ;;
  let b := match bounds with Some b => b | None => Limits xl xh yl yh end in
  do d <- spacing lon ;;
  let m := buffer_of buffer d in
  if crop && any_limit b then
    do c <- crop_matrix true b m h lon lat ;;
    reef_from w t sc ex d (snd (fst c)) (snd c) (fst (fst c)) (fun hc => do k <- crop_matrix true b m hc lon lat ;; Ok (fst (fst k))) files pts
  else
    do pts' <- adjust lon pts ;; reef_from w t sc ex d lon lat h (fun hc => Ok hc) files pts'.
