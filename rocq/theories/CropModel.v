(** Model of the cropping option of extract_constants for models with one file for each
    constituent, and of _crop and _shift on real numbers (pyTMD/io/FES.py:
    extract_constants 230-333, _crop 930-985, _shift 987-1042; pyTMD/io/GOT.py:
    extract_constants 205-301, _crop 816-871, _shift 873-930).

    Simplifications: those of SeriesModel and RegularModel, except for the cropping; the
    bounds are given as four numbers or not at all; no extrapolation. *)
From Coq Require Import Reals List Bool Arith ZArith.
From Verif Require Import PyBase RBase MathModel GeoModel GridModel InterpModel ExtractModel SeriesModel RegularModel.
Import ListNotations.
Open Scope R_scope.

(** keyword method *)
Inductive way := Quick (me : method) | Regular (me : regular).
(** keyword bounds: [xmin, xmax, ymin, ymax] *)
Record limits := Limits { x_min : R; x_max : R; y_min : R; y_max : R }.

(** np.argmin(np.fabs(ilon - lon0)) (FES.py:1023): the first minimum *)
Fixpoint least_from (best : R) (ibest i : nat) (l : list R) : nat :=
  match l with
  | [] => ibest
  | a :: t => if rlt a best then least_from a i (S i) t else least_from best ibest (S i) t
  end.
Definition least (l : list R) : res nat := match l with [] => Err ValueError | a :: t => Ok (least_from a 0 1 t) end.
(** FES.py:1022: the first column is left out where the last one is the same meridian *)
Definition repeated (lons : list R) : res nat :=
  match lons with
  | [] => Err IndexError
  | a :: _ => Ok (if rlt (1 / 10000) (Rabs (last lons a - a - 360)) then 0%nat else 1%nat)
  end.
(** _shift (FES.py:1022-1042, GOT.py:908-930) *)
Definition shift_sheet (lon0 : R) (d : direction) (s : sheet) : res sheet :=
  do off <- repeated (slon s) ;;
  do i0 <- least (map (fun x => Rabs (x - lon0)) (slon s)) ;;
  do p <- rotate_list i0 off (slon s) ;;
  let lon := match d with
             | East => fst p ++ map (fun x => x + 360) (snd p)
             | West => map (fun x => x - 360) (fst p) ++ snd p
             | OtherDir => fst p ++ snd p
             end%list in
  do hc <- mapM (fun row => do q <- rotate_list i0 off row ;; Ok (fst q ++ snd q)%list) (shc s) ;;
  Ok (Sheet lon (slat s) hc).

(** the first lines of _crop (FES.py:962-968, GOT.py:848-854) *)
Definition reframe (b : limits) (s : sheet) : res sheet :=
  do hi <- amax (slon s) ;; do lo <- amin (slon s) ;;
  if rlt (Rmin (x_min b) (x_max b)) 0 && rlt 180 hi then shift_sheet 180 West s
  else if rlt 180 (Rmax (x_min b) (x_max b)) && rlt lo 0 then shift_sheet 0 East s
  else Ok s.
(** (ilat >= ymin) & (ilat <= ymax) *)
Definition within_limits (lo hi x : R) : bool := rle lo x && rle x hi.
(** the other lines of _crop (FES.py:969-985, GOT.py:855-871): IndexError if no row or no
    column is within the bounds *)
Definition cut (b : limits) (buffer : R) (s : sheet) : res sheet :=
  let yind := flatnonzero (within_limits (y_min b - buffer) (y_max b + buffer)) (slat s) in
  let xind := flatnonzero (within_limits (x_min b - buffer) (x_max b + buffer)) (slon s) in
  do rows <- ind_slice yind (shc s) ;;
  do lon <- ind_slice xind (slon s) ;;
  do hc <- mapM (ind_slice xind) rows ;;
  do lat <- ind_slice yind (slat s) ;;
  Ok (Sheet lon lat hc).
Definition crop_sheet (b : limits) (buffer : R) (s : sheet) : res sheet := do t <- reframe b s ;; cut b buffer t.

(** FES.py:273-276, GOT.py:252-255: d is the grid step of the model before the cropping *)
Definition extend_cut (src : series) (step : R) (s : sheet) : res sheet :=
  if isclose (last (slon s) 0 - hd 0 (slon s)) (360 - step) then
    do lon <- match src with FES => extend_axis (slon s) step | GOT => extend_axis_got (slon s) step end ;;
    do hc <- match src with FES => extend_matrix (shc s) | GOT => mapM extend_row_got (shc s) end ;;
    Ok (Sheet lon (slat s) hc)
  else Ok s.
(** FES.py:278-333, GOT.py:256-301 *)
Definition sheet_value (src : series) (w : way) (sc : R) (e : sheet) (q : R * R) : res (option (R * R)) :=
  match w with Quick me => sheet_constant src me sc e q | Regular me => sheet_regular src me sc e q end.
(** kwargs['buffer'] or 4*dlon *)
Definition buffer_of (buffer : option R) (step : R) : R :=
  match buffer with Some r => if req r 0 then 4 * step else r | None => 4 * step end.
(** np.any(bounds) *)
Definition any_limit (b : limits) : bool := negb (req (x_min b) 0 && req (x_max b) 0 && req (y_min b) 0 && req (y_max b) 0).
(** FES.py:242-333, GOT.py:220-301 with crop = True: the points are adjusted only where the
    bounds are all zero *)
Fixpoint crop_files (src : series) (w : way) (sc : R) (b : limits) (buffer : option R) (files : list sheet) (pts : list (R * R)) : res (list (list (option (R * R)))) :=
  match files with
  | [] => Ok []
  | s :: rest =>
      do d <- spacing (slon s) ;;
      let step := match src with FES => d | GOT => Rabs d end in
      do t <- (if any_limit b then crop_sheet b (buffer_of buffer step) s else Ok s) ;;
      do pts' <- (if any_limit b then Ok pts else adjust (slon s) pts) ;;
      do e <- extend_cut src step t ;;
      do cs <- mapM (sheet_value src w sc e) pts' ;;
      do out <- crop_files src w sc b buffer rest pts' ;;
      Ok (cs :: out)
  end.
(** FES.py:234-237, GOT.py:209-212: the bounds of the points unless others are given *)
Definition extract_cropped (src : series) (w : way) (sc : R) (bounds : option limits) (buffer : option R) (files : list sheet) (pts : list (R * R)) : res (list (list (option (R * R)))) :=
  do xl <- amin (map fst pts) ;; do xh <- amax (map fst pts) ;;
  do yl <- amin (map snd pts) ;; do yh <- amax (map snd pts) ;;
  crop_files src w sc (match bounds with Some b => b | None => Limits xl xh yl yh end) buffer files pts.
