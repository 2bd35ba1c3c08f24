(** Model of the extrapolation option of extract_constants for models with one file for
    each constituent: points whose interpolated constant is masked get the constant of the
    nearest valid node within the cutoff (pyTMD/io/FES.py:319-333, pyTMD/io/GOT.py:
    286-301; pyTMD/interpolate.py: extrapolate 279-420 with is_geographic = True, which in
    InterpModel is for real numbers and here for complex ones).

    hc[hc.mask] = nan leaves the valid nodes as they are, the others are not valid in
    either case; the kd-tree is the trusted description of InterpModel.  Simplifications
    otherwise as in CropModel. *)
From Coq Require Import Reals List Bool Arith ZArith.
From Verif Require Import PyBase RBase MathModel GeoModel GridModel InterpModel ExtractModel SeriesModel RegularModel CropModel.
Import ListNotations.
Open Scope R_scope.

(** cKDTree.query(k=1, distance_upper_bound=c) *)
Section Tree.
  Context {V : Type}.
  Fixpoint closest (q : vec) (nodes : list (vec * V)) : option (vec * V) :=
    match nodes with
    | [] => None
    | n :: t =>
        match closest q t with
        | None => Some n
        | Some m => if rlt (dist3 q (fst m)) (dist3 q (fst n)) then Some m else Some n
        end
    end.
  Definition ask (c : bound) (q : vec) (nodes : list (vec * V)) : option (vec * V) :=
    match closest q nodes with
    | Some n => if within (dist3 q (fst n)) c then Some n else None
    | None => None
    end.
End Tree.
(** valid_mask: not masked and finite (interpolate.py:338) *)
Definition sound (c : gcell cpx) : bool := negb (snd c) && match fst c with Some _ => true | None => false end.
(** np.meshgrid(lon, lat) with the constants, on the ellipsoid *)
Definition nodes_of (s : sheet) : list (vec * gcell cpx) :=
  flat_map (fun r => map (fun p => (on_ellipsoid (fst p, fst r), snd p)) (combine (slon s) (snd r))) (combine (slat s) (shc s)).
(** interpolate.py:331-420 *)
Definition extrapolated (c : bound) (s : sheet) (pts : list (R * R)) : list (gcell cpx) :=
  let queries := map on_ellipsoid pts in
  let near := filter (fun n => sound (snd n) && in_bounds coords3 c queries (fst n)) (nodes_of s) in
  map (fun q => match ask c q near with Some n => (fst (snd n), false) | None => (None, true) end) queries.

(** the constants between the nodes: FES.py:288-313, GOT.py:260-281 *)
Definition interpolated (src : series) (w : way) (e : sheet) (q : R * R) : res (gcell cpx) :=
  match w with
  | Quick Bilinear => cbilinear (slon e) (slat e) (map (map (blank src)) (shc e)) q
  | Quick Spline => cspline (slon e) (slat e) (shc e) q
  | Regular me => cregular me (slon e) (slat e) (shc e) q
  end.
(** hci.mask (FES.py:297, 306, 316-317) *)
Definition hidden (w : way) (h : gcell cpx) : bool :=
  match w with Quick Bilinear => snd h || is_nan h | Quick Spline => snd h | Regular _ => snd h || is_fill h end.
(** FES.py:319-328, GOT.py:286-295: hci[inv] = extrapolate(lon, lat, hc, ilon[inv], ilat[inv]) *)
Fixpoint put (hs : list (gcell cpx * bool)) (new : list (gcell cpx)) : list (gcell cpx * bool) :=
  match hs with
  | [] => []
  | (h, false) :: t => (h, false) :: put t new
  | (h, true) :: t => match new with v :: new => (v, snd v) :: put t new | [] => (h, true) :: put t [] end
  end.
Definition fill_in (c : bound) (e : sheet) (pts : list (R * R)) (hs : list (gcell cpx * bool)) : list (gcell cpx * bool) :=
  if existsb snd hs
  then put hs (extrapolated c e (map fst (filter snd (combine pts (map snd hs)))))
  else hs.
(** FES.py:329-338, GOT.py:296-301; the mask of the points outside comes last *)
Definition finished (sc : R) (inv : bool) (h : gcell cpx * bool) : option (R * R) :=
  if snd h || inv then None else match fst (fst h) with Some z => Some (cabs z * sc, phase_of z) | None => None end.
(** one file; [ex] is None without extrapolation and Some cutoff with it *)
Definition file_values (src : series) (w : way) (sc : R) (ex : option bound) (e : sheet) (pts : list (R * R)) : res (list (option (R * R))) :=
  do hs <- mapM (fun q => do inv <- outside_sheet src (slon e) (slat e) q ;; do h <- interpolated src w e q ;; Ok (inv, (h, hidden w h))) pts ;;
  let marked := map snd hs in
  let done := match ex with Some c => fill_in c e pts marked | None => marked end in
  Ok (map (fun p => finished sc (fst p) (snd p)) (combine (map fst hs) done)).
(** FES.py:230-338, GOT.py:205-301 *)
Fixpoint fill_files (src : series) (w : way) (sc : R) (b : limits) (buffer : option R) (ex : option bound) (files : list sheet) (pts : list (R * R)) : res (list (list (option (R * R)))) :=
  match files with
  | [] => Ok []
  | s :: rest =>
      do d <- spacing (slon s) ;;
      let step := match src with FES => d | GOT => Rabs d end in
      do t <- (if any_limit b then crop_sheet b (buffer_of buffer step) s else Ok s) ;;
      do pts' <- (if any_limit b then Ok pts else adjust (slon s) pts) ;;
      do e <- extend_cut src step t ;;
      do cs <- file_values src w sc ex e pts' ;;
      do out <- fill_files src w sc b buffer ex rest pts' ;;
      Ok (cs :: out)
  end.
(** extract_constants with its options: [crop] is false, or true with the bounds, if any,
    and the buffer.  Without cropping the bounds do not matter *)
Definition extract_options (src : series) (w : way) (sc : R) (crop : bool) (bounds : option limits) (buffer : option R) (ex : option bound) (files : list sheet) (pts : list (R * R)) : res (list (list (option (R * R)))) :=
  do xl <- amin (map fst pts) ;; do xh <- amax (map fst pts) ;;
  do yl <- amin (map snd pts) ;; do yh <- amax (map snd pts) ;;
  fill_files src w sc (if crop then match bounds with Some b => b | None => Limits xl xh yl yh end else Limits 0 0 0 0) buffer ex files pts.
