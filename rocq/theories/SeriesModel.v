(** Model of the extraction of harmonic constants from models with one file for each
    constituent (pyTMD/io/FES.py: extract_constants 135-345, read_constants 347-446,
    interpolate_constants 448-600, _extend_array and _extend_matrix 891-928;
    pyTMD/io/GOT.py: extract_constants 130-310, read_constants 312-385,
    interpolate_constants 388-537, _extend_array and _extend_matrix 762-813).

    Simplifications: exact real numbers; a value is [None] when it is nan or infinite;
    no cropping and no extrapolation; methods bilinear and spline; the arrays are those
    returned by the readers of the files; the constituents have different names; fill
    values under the mask are left out ([None] for a masked result, also where the
    result is nan); broadcasting is left out. *)
From Coq Require Import Reals List Bool Arith ZArith.
From Verif Require Import PyBase RBase MathModel GeoModel GridModel InterpModel ExtractModel.
Import ListNotations.
Open Scope R_scope.

(** the two modules *)
Inductive series := FES | GOT.
(** what is read from a file: longitudes, latitudes and constants *)
Record sheet := Sheet { slon : list R; slat : list R; shc : field }.

(** GOT.py:762-785 _extend_array: one column before and two after *)
Definition extend_axis_got (xs : list R) (step : R) : res (list R) :=
  match xs with
  | [] => Err IndexError
  | x0 :: _ => Ok ((x0 - step) :: xs ++ [last xs x0 + step; last xs x0 + 2 * step])
  end.
(** FES.py:260, 273-276 (dlon may be negative) and GOT.py:235, 252-255; also FES.py:431-437
    and GOT.py:371-376 *)
Definition extend_sheet (src : series) (s : sheet) : res sheet :=
  do d <- spacing (slon s) ;;
  let step := match src with FES => d | GOT => Rabs d end in
  if isclose (last (slon s) 0 - hd 0 (slon s)) (360 - step) then
    do lon <- match src with FES => extend_axis (slon s) step | GOT => extend_axis_got (slon s) step end ;;
    do hc <- match src with FES => extend_matrix (shc s) | GOT => mapM extend_row_got (shc s) end ;;
    Ok (Sheet lon (slat s) hc)
  else Ok s.

(** FES.py:270-277, 505-512 and GOT.py:244-251, 439-446 *)
Definition adjust (lons : list R) (pts : list (R * R)) : res (list (R * R)) :=
  do mn <- amin (map fst pts) ;; do mx <- amax (map fst pts) ;;
  do lo <- amin lons ;; do hi <- amax lons ;;
  Ok (if rlt mn 0 && rlt 180 hi then map (fun p => (if rlt (fst p) 0 then fst p + 360 else fst p, snd p)) pts
      else if rlt 180 mx && rlt lo 0 then map (fun p => (if rlt 180 (fst p) then fst p - 360 else fst p, snd p)) pts
      else pts).

(** hc.data[hc.mask] = nan (FES.py:288) and hc[hc.mask] = nan (GOT.py:259, which also
    takes the mask away) *)
Definition blank (src : series) (c : gcell cpx) : gcell cpx :=
  if snd c then (None, match src with FES => true | GOT => false end) else c.
(** hci.mask |= isnan(hci.data) for the bilinear interpolation; the amplitude is scaled *)
Definition settled (me : method) (sc : R) (invalid : bool) (h : gcell cpx) : option (R * R) :=
  if (match me with Bilinear => snd h || is_nan h | Spline => snd h end) || invalid then None
  else match fst h with Some z => Some (cabs z * sc, phase_of z) | None => None end.
(** only FES.py checks for points outside of the model (lines 278-280, 514-515) *)
Definition outside_sheet (src : series) (lon lat : list R) (q : R * R) : res bool :=
  match src with FES => outside_axes lon lat q | GOT => Ok false end.

(** FES.py:278-333, GOT.py:256-301: one constituent at one point *)
Definition sheet_constant (src : series) (me : method) (sc : R) (s : sheet) (q : R * R) : res (option (R * R)) :=
  do inv <- outside_sheet src (slon s) (slat s) q ;;
  do h <- match me with
          | Bilinear => cbilinear (slon s) (slat s) (map (map (blank src)) (shc s)) q
          | Spline => cspline (slon s) (slat s) (shc s) q
          end ;;
  Ok (settled me sc inv h).
(** FES.py:242-333, GOT.py:220-301: the points are adjusted in place for each file *)
Fixpoint extract_files (src : series) (me : method) (sc : R) (files : list sheet) (pts : list (R * R)) : res (list (list (option (R * R)))) :=
  match files with
  | [] => Ok []
  | s :: rest =>
      do _ <- spacing (slon s) ;;
      do pts' <- adjust (slon s) pts ;;
      do e <- extend_sheet src s ;;
      do cs <- mapM (sheet_constant src me sc e) pts' ;;
      do out <- extract_files src me sc rest pts' ;;
      Ok (cs :: out)
  end.
(** extract_constants: for each constituent the amplitude and phase of each point; the
    default bounds are taken first (ValueError without points) *)
Definition extract_series (src : series) (me : method) (sc : R) (files : list sheet) (pts : list (R * R)) : res (list (list (option (R * R)))) :=
  do _ <- amin (map fst pts) ;; extract_files src me sc files pts.

(** read_constants: the axes of the last file are kept *)
Record tides := Tides { taxes : option (list R * list R); tfields : list field }.
Definition read_series (src : series) (files : list sheet) : res tides :=
  do es <- mapM (extend_sheet src) files ;;
  Ok (Tides (fold_left (fun _ e => Some (slon e, slat e)) es None) (map shc es)).

(** np.ma.default_fill_value of complex numbers *)
Definition fill_number : cpx := (100000000000000000000, 0).
(** FES.py:536-563, GOT.py:467-490: invalid values become nan or the fill value *)
Definition filled (me : method) (c : gcell cpx) : gcell cpx :=
  if snd c then (match me with Bilinear => None | Spline => Some fill_number end, true) else c.
Definition tide_constant (src : series) (me : method) (sc : R) (lon lat : list R) (f : field) (q : R * R) : res (option (R * R)) :=
  do inv <- outside_sheet src lon lat q ;;
  do h <- match me with
          | Bilinear => cbilinear lon lat (map (map (filled Bilinear)) f) q
          | Spline => cspline lon lat (map (map (filled Spline)) f) q
          end ;;
  Ok (settled me sc inv h).
(** interpolate_constants: without files there is no attribute longitude *)
Definition interpolate_series (src : series) (me : method) (sc : R) (t : tides) (pts : list (R * R)) : res (list (list (option (R * R)))) :=
  match taxes t with
  | None => Err AttributeError
  | Some (lon, lat) =>
      do pts' <- adjust lon pts ;;
      mapM (fun f => mapM (tide_constant src me sc lon lat f) pts') (tfields t)
  end.
