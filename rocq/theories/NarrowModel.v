(** Model of the cropping option of OTIS.extract_constants and OTIS.read_constants, and of
    _crop and _shift for arrays of any kind (pyTMD/io/OTIS.py: extract_constants 245-521,
    read_constants 566-734, _crop 1977-2035, _shift 2038-2092).

    The mask, the depths and each constituent are cropped by separate calls with the axes
    mx, my of the whole model.  The axes returned by _crop are slices of mx and my, which
    share their memory unless the grid was shifted or extended, so that xi -= dx/2 and
    yi -= dy/2 (lines 348, 365, 640, 657) also change mx and my before the constituents are
    cropped (lines 452-456, 718-722).  Simplifications as in ExtractModel, RegularModel,
    CropModel and CoastModel. *)
From Coq Require Import Reals List Bool Arith ZArith.
From Verif Require Import PyBase RBase MathModel GeoModel GridModel InterpModel ExtractModel SeriesModel RegularModel CropModel ShoreModel CoastModel.
Import ListNotations.
Open Scope R_scope.

(** _shift (OTIS.py:2069-2092) *)
Definition shift_matrix {A} (lon0 : R) (d : direction) (m : list (list A)) (xs : list R) : res (list (list A) * list R) :=
  do off <- repeated xs ;;
  do i0 <- least (map (fun x => Rabs (x - lon0)) xs) ;;
  do p <- rotate_list i0 off xs ;;
  let x := match d with
           | East => fst p ++ map (fun x => x + 360) (snd p)
           | West => map (fun x => x - 360) (fst p) ++ snd p
           | OtherDir => fst p ++ snd p
           end%list in
  do t <- mapM (fun row => do q <- rotate_list i0 off row ;; Ok (fst q ++ snd q)%list) m ;;
  Ok (t, x).
(** the conditions of _crop (OTIS.py:2012-2017): whether the grid is shifted and how *)
Definition turned (geo : bool) (b : limits) (xs : list R) : res (option (R * direction)) :=
  do hi <- amax xs ;; do lo <- amin xs ;;
  Ok (if geo && rlt (Rmin (x_min b) (x_max b)) 0 && rlt 180 hi then Some (180, West)
      else if geo && rlt 180 (Rmax (x_min b) (x_max b)) && rlt lo 0 then Some (0, East)
      else None).
(** np.flatnonzero of the rows or columns within the bounds (OTIS.py:2019-2025) *)
Definition kept (lo hi buffer : R) (l : list R) : list nat := flatnonzero (within_limits (lo - buffer) (hi + buffer)) l.
(** the slices (OTIS.py:2027-2035) *)
Definition cut_matrix {A} (b : limits) (buffer : R) (m : list (list A)) (xs ys : list R) : res (list (list A) * list R * list R) :=
  let yind := kept (y_min b) (y_max b) buffer ys in
  let xind := kept (x_min b) (x_max b) buffer xs in
  do rows <- ind_slice yind m ;;
  do x <- ind_slice xind xs ;;
  do t <- mapM (ind_slice xind) rows ;;
  do y <- ind_slice yind ys ;;
  Ok (t, x, y).
(** _crop (OTIS.py:1977-2035) *)
Definition crop_matrix {A} (geo : bool) (b : limits) (buffer : R) (m : list (list A)) (xs ys : list R) : res (list (list A) * list R * list R) :=
  do tr <- turned geo b xs ;;
  do s <- match tr with Some (lon0, d) => shift_matrix lon0 d m xs | None => Ok (m, xs) end ;;
  cut_matrix b buffer (fst s) (snd s) ys.

(** v[a:b] -= step for the slice from the first to the last of the indices *)
Definition lower (ind : list nat) (step : R) (l : list R) : list R :=
  map (fun p => if Nat.leb (hd 0%nat ind) (fst p) && Nat.leb (fst p) (last ind 0%nat) then snd p - step else snd p)
      (combine (seq 0 (length l)) l).
(** mx and my when the constituents are cropped *)
Definition axis_mx (geo glob : bool) (t : variable) (b : limits) (buffer dx : R) (xs : list R) : res (list R) :=
  match t with
  | Vu | VU => do tr <- turned geo b xs ;;
      Ok (match tr with None => if glob then xs else lower (kept (x_min b) (x_max b) buffer xs) (dx / 2) xs | Some _ => xs end)
  | _ => Ok xs
  end.
Definition axis_my (t : variable) (b : limits) (buffer dy : R) (ys : list R) : list R :=
  match t with Vv | VV => lower (kept (y_min b) (y_max b) buffer ys) (dy / 2) ys | _ => ys end.

(** x[x > 180] -= 360 if the greatest is beyond the axis (OTIS.py:316-319) *)
Definition west_of (geo : bool) (hi top : R) (pts : list (R * R)) : list (R * R) :=
  if geo && rlt hi top then map (fun p => (if rlt 180 (fst p) then fst p - 360 else fst p, snd p)) pts else pts.

(** OTIS.py:321-521 from the (cropped) grid on; [fields] reads and crops the constituents *)
Definition extract_from (geo : bool) (w : way) (t : variable) (ex : option bound) (dx dy : R) (g : grid) (glob : bool)
    (fields : field -> res field) (hcs : list field) (pts : list (R * R)) : res (list (gcell R) * list (list (option (R * R)))) :=
  do xe <- (if glob then extend_axis (gx g) dx else Ok (gx g)) ;;
  do inv <- mapM (outside_axes xe (gy g)) pts ;;
  do l <- layer glob dx dy xe (gy g) g t ;;
  let '(xi, yi, b) := l in
  do ds <- mapM (depth_by w xi yi b) pts ;;
  do out <- mapM (fun hc => do h <- fields hc ;; do e <- extend_if glob h ;; do f <- remask b e ;; constituent_values geo w t ex xi yi f (combine pts (combine inv ds))) hcs ;;
  Ok (ds, out).
(** OTIS.py:245-521 *)
Definition extract_narrow (fwd : R * R -> R * R) (geo : bool) (w : way) (t : variable) (ex : option bound) (crop : bool) (bounds : option limits) (buffer : option R)
    (g : grid) (hcs : list field) (lonlat : list (R * R)) : res (list (gcell R) * list (list (option (R * R)))) :=
  do dx <- spacing (gx g) ;; do dy <- spacing (gy g) ;;
  let pts := map fwd lonlat in
  do xl <- amin (map fst pts) ;; do xh <- amax (map fst pts) ;;
  do yl <- amin (map snd pts) ;; do yh <- amax (map snd pts) ;;
  let b := match bounds with Some b => b | None => Limits xl xh yl yh end in
  let m := buffer_of buffer dx in
  if crop && any_limit b then
    do mz <- crop_matrix geo b m (gmz g) (gx g) (gy g) ;;
    do hz <- crop_matrix geo b m (ghz g) (gx g) (gy g) ;;
    let xs := snd (fst hz) in let ys := snd hz in
    do hi <- amax xs ;;
    let glob := geo && isclose (last xs 0 - hd 0 xs) (360 - dx) in
    do mx <- axis_mx geo glob t b m dx (gx g) ;;
    let my := axis_my t b m dy (gy g) in
    extract_from geo w t ex dx dy (Grid xs ys (fst (fst hz)) (fst (fst mz))) glob
      (fun hc => do c <- crop_matrix geo b m hc mx my ;; Ok (fst (fst c))) hcs (west_of geo hi xh pts)
  else extract_extrapolated fwd geo w t ex g hcs lonlat.

(** OTIS.py:566-734 read_constants; bounds None are no bounds, the buffer is taken as given *)
Definition read_narrow (geo : bool) (t : variable) (crop : bool) (bounds : option limits) (buffer : R) (g : grid) (hcs : list field) : res constituents :=
  match bounds with
  | Some b =>
      if crop && any_limit b then
        do dx <- spacing (gx g) ;; do dy <- spacing (gy g) ;;
        do mz <- crop_matrix geo b buffer (gmz g) (gx g) (gy g) ;;
        do hz <- crop_matrix geo b buffer (ghz g) (gx g) (gy g) ;;
        let xs := snd (fst hz) in let ys := snd hz in
        let glob := geo && req (last xs 0 - hd 0 xs) (360 - dx) in
        do xe <- (if glob then extend_axis xs dx else Ok xs) ;;
        do mx <- axis_mx geo glob t b buffer dx (gx g) ;;
        let my := axis_my t b buffer dy (gy g) in
        do l <- layer glob dx dy xe ys (Grid xs ys (fst (fst hz)) (fst (fst mz))) t ;;
        let '(xi, yi, d) := l in
        do fs <- mapM (fun hc => do c <- crop_matrix geo b buffer hc mx my ;; do e <- extend_if glob (fst (fst c)) ;; remask d e) hcs ;;
        Ok (Cons xi yi d fs)
      else read_constants geo t g hcs
  | None => read_constants geo t g hcs
  end.
