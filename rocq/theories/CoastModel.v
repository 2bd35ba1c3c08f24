(** Model of the extrapolation option of OTIS.extract_constants: points whose interpolated
    constant is masked get the constant of the nearest valid node within the cutoff
    (pyTMD/io/OTIS.py:454-513; pyTMD/interpolate.py: extrapolate 279-420, on the ellipsoid
    for geographic and in the plane for projected coordinates).

    The constants are computed one constituent after the other for all points, as in the
    code.  np.abs(hci.data)/unit_conv with a masked depth is numpy.ma.true_divide, which
    keeps the numerator where the divisor is masked (lines 391-392, 506); the mask of the
    quotient is not used (line 507).  Simplifications otherwise as in ExtractModel,
    RegularModel and ShoreModel. *)
From Coq Require Import Reals List Bool Arith ZArith.
From Verif Require Import PyBase RBase MathModel GeoModel GridModel InterpModel ExtractModel SeriesModel RegularModel CropModel ShoreModel.
Import ListNotations.
Open Scope R_scope.

(** where the tree is built: interpolate.py:347-352 and 386-388 *)
Definition place (geo : bool) (p : R * R) : vec := if geo then on_ellipsoid p else Vec (fst p) (snd p) 0.
Definition coords_of (geo : bool) (v : vec) : list R := if geo then coords3 v else [vx v; vy v].
(** np.meshgrid(xi, yi) with the constants *)
Definition mesh_of (geo : bool) (xi yi : list R) (hc : field) : list (vec * gcell cpx) :=
  flat_map (fun r => map (fun p => (place geo (fst p, fst r), snd p)) (combine xi (snd r))) (combine yi hc).
(** interpolate.py:331-420 *)
Definition extrapolated_from (geo : bool) (c : bound) (xi yi : list R) (hc : field) (pts : list (R * R)) : list (gcell cpx) :=
  let queries := map (place geo) pts in
  let near := filter (fun n => sound (snd n) && in_bounds (coords_of geo) c queries (fst n)) (mesh_of geo xi yi hc) in
  map (fun q => match ask c q near with Some n => (fst (snd n), false) | None => (None, true) end) queries.

(** OTIS.py:370-387 *)
Definition depth_by (w : way) (xi yi : list R) (b : list (list (gcell R))) (q : R * R) : res (gcell R) :=
  match w with Quick me => extract_depth me xi yi b q | Regular me => rregular me xi yi b q end.
(** OTIS.py:462-467, 471-476, 481-488 *)
Definition constant_by (w : way) (xi yi : list R) (hc : field) (q : R * R) : res (gcell cpx) :=
  match w with
  | Quick Bilinear => cbilinear xi yi (drop_invalid hc) q
  | Quick Spline => cspline xi yi hc q
  | Regular me => cregular me xi yi hc q
  end.
(** OTIS.py:469, 478, 490 *)
Definition masked_by (w : way) (D : gcell R) (h : gcell cpx) : bool :=
  match w with Quick Bilinear => is_nan h || snd D | Quick Spline => snd h || snd D | Regular _ => is_fill h || snd D end.
(** OTIS.py:494-503 *)
Definition fill_points (geo : bool) (c : bound) (xi yi : list R) (hc : field) (pts : list (R * R)) (hs : list (gcell cpx * bool)) : list (gcell cpx * bool) :=
  if existsb snd hs
  then put hs (extrapolated_from geo c xi yi (drop_invalid hc) (map fst (filter snd (combine pts (map snd hs)))))
  else hs.
(** OTIS.py:390-395, 506 *)
Definition divided (t : variable) (D : gcell R) (z : cpx) : R :=
  match t with Vu | Vv => if snd D then cabs z else cabs z / (gnumber 0 D / 100) | _ => cabs z end.
(** OTIS.py:504-519 *)
Definition value_at (t : variable) (inv : bool) (D : gcell R) (h : gcell cpx * bool) : option (R * R) :=
  if snd h || inv then None else match fst (fst h) with Some z => Some (divided t D z, phase_of z) | None => None end.
(** one constituent at all points, each with its flag for outside and its depth *)
Definition constituent_values (geo : bool) (w : way) (t : variable) (ex : option bound) (xi yi : list R) (hc : field) (pts : list ((R * R) * (bool * gcell R))) : res (list (option (R * R))) :=
  do hs <- mapM (fun p => do h <- constant_by w xi yi hc (fst p) ;; Ok (h, masked_by w (snd (snd p)) h)) pts ;;
  let done := match ex with Some c => fill_points geo c xi yi hc (map fst pts) hs | None => hs end in
  Ok (map (fun p => value_at t (fst (snd (fst p))) (snd (snd (fst p))) (snd p)) (combine pts done)).
(** OTIS.py:172-521 without cropping; [ex] is None without extrapolation and Some cutoff
    with it.  The depths, and for each constituent the constants *)
Definition extract_extrapolated (fwd : R * R -> R * R) (geo : bool) (w : way) (t : variable) (ex : option bound)
    (g : grid) (hcs : list field) (lonlat : list (R * R)) : res (list (gcell R) * list (list (option (R * R)))) :=
  do dx <- spacing (gx g) ;; do dy <- spacing (gy g) ;;
  do lo <- amin (gx g) ;; do hi <- amax (gx g) ;;
  do pts <- batch geo lo hi (map fwd lonlat) ;;
  let glob := geo && isclose (last (gx g) 0 - hd 0 (gx g)) (360 - dx) in
  do xe <- (if glob then extend_axis (gx g) dx else Ok (gx g)) ;;
  do inv <- mapM (outside_axes xe (gy g)) pts ;;
  do l <- layer glob dx dy xe (gy g) g t ;;
  let '(xi, yi, b) := l in
  do ds <- mapM (depth_by w xi yi b) pts ;;
  do out <- mapM (fun hc => do e <- extend_if glob hc ;; do f <- remask b e ;; constituent_values geo w t ex xi yi f (combine pts (combine inv ds))) hcs ;;
  Ok (ds, out).
