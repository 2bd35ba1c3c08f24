(** Model of interpolate.regulargrid (pyTMD/interpolate.py:201-277) and of the constants
    taken from tide models with the methods linear and nearest (the last branch of
    extract_constants and interpolate_constants):
    FES.py 303-318 and 549-564, GOT.py 277-285 and 497-509, ATLAS.py 291-295, 354-363,
    598-602 and 645-658, OTIS.py 384-387, 482-491, 823-826 and 869-880.

    scipy's RegularGridInterpolator is described by its documentation: within the box of
    the grid the piecewise bilinear interpolant, or the value of the nearest node (the
    lower one at equal distance); axes that do not increase are refused.  Outside of the
    box regulargrid masks every point (the mask is interpolated with fill_value = 1), and
    what is under the mask there (the fill value, or an extrapolation) is left out.
    Simplifications otherwise as in SeriesModel, AtlasNcModel and ExtractModel. *)
From Coq Require Import Reals List Bool Arith ZArith.
From Verif Require Import PyBase RBase MathModel GeoModel GridModel InterpModel ExtractModel SeriesModel AtlasNcModel.
From Verif Require MaskModel.
Import ListNotations.
Open Scope R_scope.

(** keyword method: linear, nearest, or a name that scipy does not know *)
Inductive regular := Linear | Nearest | Unknown.

(** interpolate.py:250-277, one point, reducer = np.ceil.  MaskModel.nearer is the index
    of the nearest node of an axis *)
Section Values.
Context {V : Type} (vzero : V) (vadd : V -> V -> V) (vscale : R -> V -> V).
Definition gregular_point (me : regular) (ilon ilat : list R) (idata : list (list (gcell V))) (q : R * R) : res (gcell V) :=
  if negb (increasing_axis ilon && increasing_axis ilat) then Err ValueError else
  do out <- outside_axes ilon ilat q ;;
  match me with
  | Unknown => Err ValueError
  | Linear => if out then Ok (None, true) else gspline_point vzero vadd vscale ilon ilat idata q
  | Nearest =>
      if out then Ok (None, true) else
      do ix <- MaskModel.nearer ilon (fst q) ;; do iy <- MaskModel.nearer ilat (snd q) ;; gget2 idata iy ix
  end.
End Values.
Definition cregular := gregular_point (0, 0) cadd cscale.
Definition rregular := gregular_point 0 Rplus Rmult.
(** hci.data == hci.fill_value *)
Definition is_fill (h : gcell cpx) : bool :=
  match fst h with Some z => req (cre z) (cre fill_number) && req (cim z) (cim fill_number) | None => false end.

(** ** FES and GOT *)
(** hci.mask |= (hci.data == hci.fill_value); the amplitude is scaled *)
Definition settled_regular (sc : R) (invalid : bool) (h : gcell cpx) : option (R * R) :=
  if snd h || is_fill h || invalid then None
  else match fst h with Some z => Some (cabs z * sc, phase_of z) | None => None end.
Definition sheet_regular (src : series) (me : regular) (sc : R) (s : sheet) (q : R * R) : res (option (R * R)) :=
  do inv <- outside_sheet src (slon s) (slat s) q ;;
  do h <- cregular me (slon s) (slat s) (shc s) q ;;
  Ok (settled_regular sc inv h).
(** FES.py:242-333, GOT.py:220-301 *)
Fixpoint extract_files_regular (src : series) (me : regular) (sc : R) (files : list sheet) (pts : list (R * R)) : res (list (list (option (R * R)))) :=
  match files with
  | [] => Ok []
  | s :: rest =>
      do _ <- spacing (slon s) ;;
      do pts' <- adjust (slon s) pts ;;
      do e <- extend_sheet src s ;;
      do cs <- mapM (sheet_regular src me sc e) pts' ;;
      do out <- extract_files_regular src me sc rest pts' ;;
      Ok (cs :: out)
  end.
Definition extract_series_regular (src : series) (me : regular) (sc : R) (files : list sheet) (pts : list (R * R)) : res (list (list (option (R * R)))) :=
  do _ <- amin (map fst pts) ;; extract_files_regular src me sc files pts.
(** FES.py:549-564, GOT.py:497-509: hc.data[hc.mask] = fill_value in the copy *)
Definition tide_regular (src : series) (me : regular) (sc : R) (lon lat : list R) (f : field) (q : R * R) : res (option (R * R)) :=
  do inv <- outside_sheet src lon lat q ;;
  do h <- cregular me lon lat (map (map (filled Spline)) f) q ;;
  Ok (settled_regular sc inv h).
Definition interpolate_series_regular (src : series) (me : regular) (sc : R) (t : tides) (pts : list (R * R)) : res (list (list (option (R * R)))) :=
  match taxes t with
  | None => Err AttributeError
  | Some (lon, lat) =>
      do pts' <- adjust lon pts ;;
      mapM (fun f => mapM (tide_regular src me sc lon lat f) pts') (tfields t)
  end.

(** ** ATLAS netCDF: the masks of the depth and of the constant are joined *)
Definition atlas_regular (me : regular) (sc : R) (xi yi : list R) (t : variable) (q : R * R) (D : gcell R) (invalid : bool) (hc : field) : res (option (R * R)) :=
  do h <- cregular me xi yi hc q ;; Ok (atlas_value t sc D invalid h).
(** ATLAS.py:225-390 *)
Definition extract_atlas_regular (me : regular) (t : variable) (sc : R) (g : grid_file) (files : list tide_file) (pts : list (R * R)) : res answer :=
  do n <- read_netcdf_grid t g ;;
  let '(lon, lat, h) := n in
  do _ <- amin (map fst pts) ;;
  do d <- spacing lon ;;
  do pts' <- adjust lon pts ;;
  let glob := isclose (last lon 0 - hd 0 lon) (360 - d) in
  do xi <- (if glob then extend_axis lon d else Ok lon) ;;
  do b <- extend_if glob h ;;
  do inv <- mapM (outside_axes xi lat) pts' ;;
  do ds <- mapM (rregular me xi lat b) pts' ;;
  do out <- mapM (fun f =>
      do r <- read_netcdf_file t f ;;
      do e <- extend_if glob (fst r) ;;
      do hc <- remask b e ;;
      do cs <- mapM (fun p => let '(q, (i, D)) := p in atlas_regular me sc xi lat t q D i hc) (combine pts' (combine inv ds)) ;;
      Ok (cs, snd r)) files ;;
  Ok (Answer (map fst out) ds (map snd out)).
(** ATLAS.py:560-686: invalid values are replaced by the fill value in the copies *)
Definition interpolate_atlas_regular (me : regular) (t : variable) (sc : R) (c : atlas_tides) (pts : list (R * R))
    : res (list (list (option (R * R))) * list (gcell R)) :=
  do pts' <- adjust (alon c) pts ;;
  do inv <- mapM (outside_axes (alon c) (alat c)) pts' ;;
  do ds <- mapM (rregular me (alon c) (alat c) (abath c)) pts' ;;
  match t with
  | Vother => Err NameError
  | _ =>
      do out <- mapM (fun f =>
          mapM (fun p => let '(q, (i, D)) := p in
                atlas_regular me sc (alon c) (alat c) t q D i (map (map (filled Spline)) (fst f)))
            (combine pts' (combine inv ds))) (afields c) ;;
      Ok (out, ds)
  end.

(** ** OTIS: the mask of the constant is replaced by that of the depth (line 490, 879) *)
Definition constant_regular (me : regular) (xi yi : list R) (t : variable) (D : gcell R) (invalid : bool) (q : R * R) (hc : field) : res (option (R * R)) :=
  do h <- cregular me xi yi hc q ;;
  Ok (if is_fill h || snd D || invalid then None
      else match fst h with Some z => Some (convert t D z, phase_of z) | None => None end).
(** OTIS.py:172-521 *)
Definition extract_otis_regular (fwd : R * R -> R * R) (geo : bool) (me : regular) (t : variable)
    (g : grid) (hcs : list field) (lonlat : list (R * R)) : res (list result) :=
  do dx <- spacing (gx g) ;; do dy <- spacing (gy g) ;;
  do lo <- amin (gx g) ;; do hi <- amax (gx g) ;;
  do pts <- batch geo lo hi (map fwd lonlat) ;;
  let glob := geo && isclose (last (gx g) 0 - hd 0 (gx g)) (360 - dx) in
  do xe <- (if glob then extend_axis (gx g) dx else Ok (gx g)) ;;
  do inv <- mapM (outside_axes xe (gy g)) pts ;;
  do l <- layer glob dx dy xe (gy g) g t ;;
  let '(xi, yi, b) := l in
  do ds <- mapM (rregular me xi yi b) pts ;;
  do fs <- mapM (fun hc => do e <- extend_if glob hc ;; remask b e) hcs ;;
  mapM (fun p => let '(q, (i, D)) := p in
          do cs <- mapM (constant_regular me xi yi t D i q) fs ;; Ok (D, cs))
       (combine pts (combine inv ds)).
(** OTIS.py:870: hc.data[(hc.data == 0) | hc.mask] = fill_value in the copy (comparing
    nan with zero is false) *)
Definition fill_zero (c : gcell cpx) : gcell cpx :=
  (if snd c then Some fill_number else match fst c with Some z => if czero z then Some fill_number else Some z | None => None end, snd c).
(** OTIS.py:737-911 *)
Definition interpolate_otis_regular (fwd : R * R -> R * R) (geo : bool) (me : regular) (t : variable)
    (c : constituents) (lonlat : list (R * R)) : res (list result) :=
  do lo <- amin (cx c) ;; do hi <- amax (cx c) ;;
  do pts <- batch geo lo hi (map fwd lonlat) ;;
  do inv <- mapM (outside_axes (cx c) (cy c)) pts ;;
  do ds <- mapM (rregular me (cx c) (cy c) (cbath c)) pts ;;
  match t with
  | Vother => Err NameError
  | _ =>
      mapM (fun p => let '(q, (i, D)) := p in
          do cs <- mapM (fun f => constant_regular me (cx c) (cy c) t D i q (map (map fill_zero) f)) (cfields c) ;; Ok (D, cs))
        (combine pts (combine inv ds))
  end.
