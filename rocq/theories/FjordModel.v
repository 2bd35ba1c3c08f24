(** Model of the extrapolation option of OTIS.interpolate_constants: constituents that were
    read are interpolated, and points whose constant is masked get that of the nearest valid
    node within the cutoff (pyTMD/io/OTIS.py:737-911; pyTMD/interpolate.py: extrapolate
    279-420).

    The invalid values are replaced in a copy of each constituent (constituents.get copies,
    io/constituents.py:84-85), and the nodes of the extrapolation are those of that copy: for
    the methods of scipy's RegularGridInterpolator its zeros have become the fill value
    before the extrapolation looks for zeros (lines 872 and 888).  A depth that is not a
    number and not masked makes the amplitude of a velocity not a number: [None] stands for
    masked and for not a number alike.  unit_conv is missing for other types of variables
    when the first constituent is converted (line 896).  Simplifications otherwise as in
    ExtractModel, RegularModel and CoastModel. *)
From Coq Require Import Reals List Bool Arith ZArith.
From Verif Require Import PyBase RBase MathModel GeoModel GridModel InterpModel ExtractModel SeriesModel RegularModel CropModel ShoreModel CoastModel.
Import ListNotations.
Open Scope R_scope.

(** OTIS.py:811-826 *)
Definition depth_again (w : way) (xi yi : list R) (b : list (list (gcell R))) (q : R * R) : res (gcell R) :=
  match w with Quick me => interpolate_depth me xi yi b q | Regular me => rregular me xi yi b q end.
(** what the copy of a constituent has become when it is interpolated: OTIS.py:853, 872 *)
Definition readied (w : way) (hc : field) : field :=
  match w with Quick Bilinear => drop_invalid hc | Quick Spline => hc | Regular _ => map (map fill_zero) hc end.
(** OTIS.py:855-856, 862-866, 874-879 *)
Definition constant_of (w : way) (xi yi : list R) (hc : field) (q : R * R) : res (gcell cpx) :=
  match w with
  | Quick Bilinear => cbilinear xi yi hc q
  | Quick Spline => cspline xi yi hc q
  | Regular me => cregular me xi yi hc q
  end.
(** OTIS.py:858, 868, 881 *)
Definition masked_again (w : way) (D : gcell R) (h : gcell cpx) : bool :=
  match w with Quick Bilinear => is_nan h || snd D | Quick Spline => snd D | Regular _ => is_fill h || snd D end.
(** OTIS.py:829-834, 896: the quotient of numpy.ma keeps the numerator where the divisor is
    masked *)
Definition divided_again (t : variable) (D : gcell R) (z : cpx) : option R :=
  match t with
  | Vu | Vv => if snd D then Some (cabs z) else match fst D with Some d => Some (cabs z / (d / 100)) | None => None end
  | _ => Some (cabs z)
  end.
(** OTIS.py:896-909 *)
Definition value_again (t : variable) (inv : bool) (D : gcell R) (h : gcell cpx * bool) : option (R * R) :=
  if snd h || inv then None
  else match fst (fst h) with
       | Some z => match divided_again t D z with Some a => Some (a, phase_of z) | None => None end
       | None => None
       end.
(** one constituent at all points, each with its flag for outside and its depth:
    OTIS.py:847-903 *)
Definition values_again (geo : bool) (w : way) (t : variable) (ex : option bound) (xi yi : list R) (hc : field) (pts : list ((R * R) * (bool * gcell R))) : res (list (option (R * R))) :=
  let f := readied w hc in
  do hs <- mapM (fun p => do h <- constant_of w xi yi f (fst p) ;; Ok (h, masked_again w (snd (snd p)) h)) pts ;;
  let done := match ex with Some c => fill_points geo c xi yi f (map fst pts) hs | None => hs end in
  match t with
  | Vother => Err NameError
  | _ => Ok (map (fun p => value_again t (fst (snd (fst p))) (snd (snd (fst p))) (snd p)) (combine pts done))
  end.
(** OTIS.py:737-911; [ex] is None without extrapolation and Some cutoff with it.  The depths,
    and for each constituent the constants *)
Definition interpolate_extrapolated (fwd : R * R -> R * R) (geo : bool) (w : way) (t : variable) (ex : option bound)
    (c : constituents) (lonlat : list (R * R)) : res (list (gcell R) * list (list (option (R * R)))) :=
  do lo <- amin (cx c) ;; do hi <- amax (cx c) ;;
  do pts <- batch geo lo hi (map fwd lonlat) ;;
  do inv <- mapM (outside_axes (cx c) (cy c)) pts ;;
  do ds <- mapM (depth_again w (cx c) (cy c) (cbath c)) pts ;;
  do out <- mapM (fun hc => values_again geo w t ex (cx c) (cy c) hc (combine pts (combine inv ds))) (cfields c) ;;
  Ok (ds, out).
