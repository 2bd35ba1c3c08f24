(** Model of the check whether points are within the domain of a tide model
    (pyTMD/compute.py:665-792 tide_masks).

    Simplifications: exact real numbers; x and y have the same shape and at most two
    dimensions; the transformation to longitude and latitude and the projection of the
    model are functions of the points (pyproj); the grid files have been read (the
    readers are modelled elsewhere); methods bilinear, spline, linear and nearest.
    scipy's RegularGridInterpolator is described by its documentation: within the box of
    the grid the piecewise bilinear interpolant, or the value of the nearest node (the
    lower one at equal distance), and fill_value outside; axes that do not increase are
    refused.  A result that numpy masks is [None]. *)
From Coq Require Import Reals List Bool Arith ZArith.
From Verif Require Import PyBase RBase MathModel GeoModel GridModel InterpModel ExtractModel SeriesModel AtlasNcModel.
Import ListNotations.
Open Scope R_scope.

Inductive mask_method := Mbilinear | Mspline | Mlinear | Mnearest | Mother.
(** what is read for the format of the model (lines 724-769): the grid file of OTIS,
    the grid file of ATLAS netCDF with the type of the model, the first file of GOT and
    FES; the first file of GOT-netcdf is read as text (line 745); nothing for FES-ascii *)
Inductive source := Sotis (g : grid) | Satlas (t : variable) (g : grid_file) | Sgot (s : sheet) | Sgot_netcdf | Sfes (s : sheet) | Sfes_ascii.
(** points: x and y are numbers, or arrays of one or of two dimensions *)
Inductive places := P0 (p : R * R) | P1 (l : list (R * R)) | P2 (rows : list (list (R * R))).
Definition flat (ps : places) : list (R * R) := match ps with P0 p => [p] | P1 l => l | P2 rows => concat rows end.

(** axes and mask: true where there is no water; lines 727-730, 736-740, 745-749,
    756-761 *)
Definition domain (s : source) : res (list R * list R * list (list bool)) :=
  match s with
  | Sotis g => Ok (gx g, gy g, map (map (fun m => negb (nonzero m))) (gmz g))
  | Satlas t g => do n <- read_netcdf_grid t g ;; let '(lon, lat, h) := n in Ok (lon, lat, map (map snd) h)
  | Sgot sh | Sfes sh => Ok (slon sh, slat sh, map (map snd) (shc sh))
  | Sgot_netcdf => Err OtherError
  | Sfes_ascii => Err NameError
  end.
(** lines 733, 741-743, 750-752, 762-764: the projection of OTIS models, else the
    longitudes below zero are taken 360 degrees east *)
Definition placed_for (fwd : R * R -> R * R) (s : source) (q : R * R) : R * R :=
  match s with
  | Sotis _ => fwd q
  | _ => (if rlt (fst q) 0 then fst q + 360 else fst q, snd q)
  end.

Definition land_cell (b : bool) : gcell R := (Some (if b then 1 else 0), false).
(** np.floor(v).astype(bool) *)
Definition flagged (v : R) : bool := negb (Z.eqb (rfloor v) 0).
(** RegularGridInterpolator with fill_value = 1 *)
Definition in_box (xi yi : list R) (q : R * R) : res bool := do o <- outside_axes xi yi q ;; Ok (negb o).
Definition nearer (l : list R) (x : R) : res nat :=
  let i := cell_of 0 l x in
  do a <- get1 l i ;; do b <- get1 l (S i) ;;
  Ok (if rle ((x - a) / (b - a)) (1 / 2) then i else S i).
Definition regular (near : bool) (xi yi : list R) (mz : list (list (gcell R))) (q : R * R) : res R :=
  if negb (increasing_axis xi && increasing_axis yi) then Err ValueError else
  do i <- in_box xi yi q ;;
  if i then
    if near then do ix <- nearer xi (fst q) ;; do iy <- nearer yi (snd q) ;; do c <- gget2 mz iy ix ;; Ok (gnumber 0 c)
    else do c <- rspline xi yi mz q ;; Ok (gnumber 0 c)
  else Ok 1.
(** lines 771-784: the point in the coordinates of the model, and as it was given; the
    regular grid is asked for the point as it was given (line 784) *)
Definition land_at (me : mask_method) (xi yi : list R) (mz : list (list bool)) (q raw : R * R) : res (option bool) :=
  let cells := map (map land_cell) mz in
  match me with
  | Mbilinear => do c <- rbilinear xi yi cells q ;; Ok (match c with (Some v, false) => Some (flagged v) | _ => None end)
  | Mspline => do c <- rspline xi yi cells q ;; Ok (match c with (Some v, _) => Some (flagged v) | _ => None end)
  | Mlinear => do v <- regular false xi yi cells raw ;; Ok (Some (flagged v))
  | Mnearest => do v <- regular true xi yi cells raw ;; Ok (Some (flagged v))
  | Mother => Err ValueError
  end.
(** lines 781-784: np.c_[y, x] are pairs for arrays of one dimension and for numbers; for
    two dimensions the columns of both, pairs if there is one column *)
Definition pairs_of (me : mask_method) (ps : places) : bool :=
  match me, ps with
  | (Mlinear | Mnearest), P2 rows => forallb (fun r => Nat.eqb (length r) 1) rows
  | _, _ => true
  end.
(** lines 787-790: the array has the shape of x, the comparisons one dimension; in place
    this needs as many points as there are in the last dimension *)
Definition in_place (ps : places) : bool :=
  match ps with
  | P0 _ => false
  | P1 _ => true
  | P2 rows => Nat.eqb (length (concat rows)) (length (hd [] rows))
  end.
(** compute.py:665-792 tide_masks, the answers in the order of the points; tr is the
    transformation to longitude and latitude *)
Definition tide_masks (tr fwd : R * R -> R * R) (me : mask_method) (s : source) (ps : places) : res (list (option bool)) :=
  do d <- domain s ;;
  let '(xi, yi, mz) := d in
  if negb (pairs_of me ps) then Err ValueError else
  do ms <- mapM (fun raw => let q := placed_for fwd s (tr raw) in do m <- land_at me xi yi mz q raw ;; Ok (q, m)) (flat ps) ;;
  if negb (in_place ps) then Err ValueError else
  mapM (fun p : (R * R) * option bool => do i <- in_box xi yi (fst p) ;; Ok (option_map (fun m => negb m && i) (snd p))) ms.
