(** Model of the cropping option of ATLAS.read_constants and of the extrapolation option of
    ATLAS.interpolate_constants (pyTMD/io/ATLAS.py: read_constants 393-497,
    interpolate_constants 500-686; pyTMD/interpolate.py: extrapolate 279-420).

    interpolate_constants works on copies of the constituents (constituents.get, pyTMD/io/
    constituents.py:70-85) but on the array of the depths itself (line 585), so that what is
    left in the depths is part of the result.  hc[hc.mask] = nan before the extrapolation
    (line 665) is an assignment to the masked array and also removes the mask.
    Simplifications otherwise as in AtlasNcModel, RegularModel, CropModel and ShoreModel. *)
From Coq Require Import Reals List Bool Arith ZArith.
From Verif Require Import PyBase RBase MathModel GeoModel GridModel InterpModel ExtractModel SeriesModel AtlasNcModel RegularModel CropModel ShoreModel NarrowModel ReefModel.
Import ListNotations.
Open Scope R_scope.

(** ATLAS.py:459-497 from the (cropped) depths on; [fields] crops the constituents *)
Definition lagoon_from (t : variable) (d : R) (lon lat : list R) (h : list (list (gcell R))) (fields : field -> res field) (files : list tide_file) : res atlas_tides :=
  let glob := isclose (last lon 0 - hd 0 lon) (360 - d) in
  do xi <- (if glob then extend_axis lon d else Ok lon) ;;
  do b <- extend_if glob h ;;
  do fs <- mapM (fun f =>
      do r <- read_netcdf_file t f ;;
      do c <- fields (fst r) ;;
      do e <- extend_if glob c ;;
      do hc <- remask b e ;;
      Ok (hc, snd r)) files ;;
  Ok (AtlasTides xi lat b fs).
(** ATLAS.py:393-497: the buffer is taken as it is given, and the grid step is that of the
    cropped model *)
Definition read_lagoon (t : variable) (crop : bool) (bounds : option limits) (buffer : R) (g : grid_file) (files : list tide_file) : res atlas_tides :=
  do n <- read_netcdf_grid t g ;;
  let '(lon, lat, h) := n in
  match (if crop then bounds else None) with
  | Some b =>
      if any_limit b then
        do c <- crop_matrix true b buffer h lon lat ;;
        do d <- spacing (snd (fst c)) ;;
        lagoon_from t d (snd (fst c)) (snd c) (fst (fst c)) (fun hc => do k <- crop_matrix true b buffer hc lon lat ;; Ok (fst (fst k))) files
      else do d <- spacing lon ;; lagoon_from t d lon lat h (fun hc => Ok hc) files
  | None => do d <- spacing lon ;; lagoon_from t d lon lat h (fun hc => Ok hc) files
  end.

(** hc.data[hc.mask] = nan, or the fill value (lines 628, 637, 649) *)
Definition primed (w : way) (hc : field) : field :=
  match w with Quick Bilinear => map (map wiped) hc | _ => map (map (filled Spline)) hc end.
(** hc[hc.mask] = nan (line 665) *)
Definition unveiled (c : gcell cpx) : gcell cpx := if snd c then (None, false) else c.
(** one constituent at all points (lines 622-683) *)
Definition lagoon_constituent (w : way) (t : variable) (sc : R) (ex : option bound) (xi yi : list R) (hc : field) (pts : list ((R * R) * (bool * gcell R))) : res (list (option (R * R))) :=
  do hs <- mapM (fun p => do h <- number_by w xi yi (primed w hc) (fst p) ;; Ok (h, concealed (snd (snd p)) h)) pts ;;
  let done := match ex with Some c => fill_in c (Sheet xi yi (map (map unveiled) (primed w hc))) (map fst pts) hs | None => hs end in
  Ok (map (fun p => reef_value t sc w (fst (snd (fst p))) (snd (snd (fst p))) (snd p)) (combine pts done)).
(** bathymetry.data[bathymetry.mask] = nan (line 588) *)
Definition dredged (w : way) (b : list (list (gcell R))) : list (list (gcell R)) := match w with Quick Bilinear => map (map sunk) b | _ => b end.
(** ATLAS.py:500-686: the constants, the depths and what is left in the constituents *)
Definition interpolate_lagoon (w : way) (t : variable) (sc : R) (ex : option bound) (c : atlas_tides) (pts : list (R * R))
    : res (list (list (option (R * R))) * list (gcell R) * atlas_tides) :=
  do pts' <- adjust (alon c) pts ;;
  do inv <- mapM (outside_axes (alon c) (alat c)) pts' ;;
  let c' := AtlasTides (alon c) (alat c) (dredged w (abath c)) (afields c) in
  do ds <- mapM (bed_by w (alon c) (alat c) (abath c')) pts' ;;
  match t with
  | Vother => Err NameError
  | _ =>
      do out <- mapM (fun f => lagoon_constituent w t sc ex (alon c) (alat c) (fst f) (combine pts' (combine inv ds))) (afields c) ;;
      Ok (out, ds, c')
  end.
