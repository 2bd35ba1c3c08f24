(** Model of the extraction of harmonic constants from OTIS grids
    (pyTMD/io/OTIS.py: read_otis_grid 950-956, extract_constants 172-521,
    read_constants 524-734, interpolate_constants 737-911, _mask_nodes,
    _interpolate_mask and _interpolate_zeta 2095-2166).

    Simplifications: exact real numbers; a value is [None] when it is nan or
    infinite; the bathymetry is finite; no cropping and no extrapolation; the
    constituents are those returned by the readers (OtisModel.v); the coordinate
    transformation is any function of a point; fill values under the mask are left
    out ([None] for a masked result); numpy broadcasting of arrays with a single
    row or column is left out (different shapes raise). *)
From Coq Require Import Reals List Bool Arith ZArith.
From Verif Require Import PyBase RBase MathModel GeoModel GridModel InterpModel.
Import ListNotations.
Open Scope R_scope.

(** ** Axes *)
(** np.linspace(a, b, n) *)
Definition linspace (a b : R) (n : nat) : list R :=
  match n with
  | O => []
  | S O => [a]
  | S (S m) => map (fun i => a + INR i * ((b - a) / INR (S m))) (seq 0 n)
  end.
(** OTIS.py:949-956: longitudes west of Greenwich become positive if the limits are
    both negative (dt > 0 marks grids in longitude and latitude) *)
Definition grid_limits (xlim : R * R) (dt : R) : R * R :=
  if rlt (fst xlim) 0 && rlt (snd xlim) 0 && rlt 0 dt then (fst xlim + 360, snd xlim + 360) else xlim.
Definition centres (lim : R * R) (n : nat) : list R :=
  let d := (snd lim - fst lim) / INR n in linspace (fst lim + d / 2) (snd lim - d / 2) n.
Definition otis_axes (xlim ylim : R * R) (dt : R) (nx ny : nat) : list R * list R :=
  (centres (grid_limits xlim dt) nx, centres ylim ny).

(** OTIS.py:1925-1947 _extend_array *)
Definition extend_axis (xs : list R) (step : R) : res (list R) :=
  match xs with
  | [] => Err IndexError
  | x0 :: _ => Ok ((x0 - step) :: xs ++ [last xs x0 + step])
  end.
(** OTIS.py:1950-1974 _extend_matrix, all rows *)
Definition extend_matrix {A} (m : list (list A)) : res (list (list A)) := mapM extend_row m.

(** ** Masks and depths at the edges of the cells *)
(** np.pad(m, ((0,0),(1,0)))[:,:-1]: the neighbour to the west, wrapping around or
    repeating the first column *)
Definition west_row {A} (wrap : bool) (row : list A) : res (list A) :=
  match row with
  | [] => Err ValueError
  | r0 :: _ => Ok ((if wrap then last row r0 else r0) :: removelast row)
  end.
(** np.pad(m, ((1,0),(0,0)), mode='edge')[:-1,:]: the neighbour to the south *)
Definition south_rows {A} (m : list (list A)) : res (list (list A)) :=
  match m with
  | [] => Err ValueError
  | r0 :: _ => Ok (r0 :: removelast m)
  end.
Definition zip2 {A B C} (f : A -> B -> C) (a : list A) (b : list B) : list C := map (fun p => f (fst p) (snd p)) (combine a b).
Definition zip22 {A B C} (f : A -> B -> C) (a : list (list A)) (b : list (list B)) : list (list C) := zip2 (zip2 f) a b.
(** OTIS.py:2113-2137 _interpolate_mask *)
Definition interpolate_mask (mz : list (list Z)) (is_global : bool) : res (list (list Z) * list (list Z)) :=
  do w <- mapM (west_row is_global) mz ;; do s <- south_rows mz ;;
  Ok (zip22 Z.mul w mz, zip22 Z.mul s mz).
(** OTIS.py:2095-2110 _mask_nodes *)
Definition mask_nodes (hz : list (list R)) (is_global : bool) : res (list (list Z) * list (list Z)) :=
  interpolate_mask (map (map (fun h => if rlt 0 h then 1%Z else 0%Z)) hz) is_global.
(** OTIS.py:2140-2166 _interpolate_zeta: the masks are made without is_global *)
Definition interpolate_zeta (hz : list (list R)) (is_global : bool) : res (list (list R) * list (list R)) :=
  do masks <- mask_nodes hz true ;;
  do w <- mapM (west_row is_global) hz ;; do s <- south_rows hz ;;
  Ok (zip22 (fun m h => 0.5 * IZR m * h) (fst masks) (zip22 Rplus w hz),
      zip22 (fun m h => 0.5 * IZR m * h) (snd masks) (zip22 Rplus s hz)).

(** ** Interpolation of masked arrays of real or complex numbers *)
Definition gcell (V : Type) : Type := (option V * bool)%type.
Section Values.
  Context {V : Type} (vzero : V) (vadd : V -> V -> V) (vscale : R -> V -> V).
  Definition gusable (c : gcell V) : bool := match fst c with Some _ => negb (snd c) | None => false end.
  Definition gnumber (c : gcell V) : V := match fst c with Some v => v | None => vzero end.
  Definition gget2 (g : list (list (gcell V))) (iy ix : nat) : res (gcell V) := do row <- get1 g iy ;; get1 row ix.
  (** interpolate.py:112-117: sum over the usable corners; 0/0 is nan *)
  Definition gweighted (l : list (gcell V * R)) : option V :=
    let us := filter (fun p => gusable (fst p)) l in
    let sw := fold_right Rplus 0 (map snd us) in
    if req sw 0 then None
    else Some (vscale (/ sw) (fold_right vadd vzero (map (fun p => vscale (snd p) (gnumber (fst p))) us))).
  (** interpolate.py:76-117 bilinear, one point; the data outside stay masked *)
  Definition gbilinear_inside (ilon ilat : list R) (idata : list (list (gcell V))) (lon lat : R) : res (gcell V) :=
    do ix <- single (brackets 0 ilon lon) ;;
    do iy <- single (brackets 0 ilat lat) ;;
    do x0 <- get1 ilon ix ;; do x1 <- get1 ilon (S ix) ;;
    do y0 <- get1 ilat iy ;; do y1 <- get1 ilat (S iy) ;;
    do c00 <- gget2 idata iy ix ;; do c01 <- gget2 idata iy (S ix) ;;
    do c10 <- gget2 idata (S iy) ix ;; do c11 <- gget2 idata (S iy) (S ix) ;;
    let w00 := Rabs (lon - x1) * Rabs (lat - y1) in
    let w01 := Rabs (lon - x0) * Rabs (lat - y1) in
    let w10 := Rabs (lon - x1) * Rabs (lat - y0) in
    let w11 := Rabs (lon - x0) * Rabs (lat - y0) in
    if isclose lat y0 && isclose lon x0 then Ok c00
    else if isclose lat y1 && isclose lon x0 then Ok c10
    else if isclose lat y0 && isclose lon x1 then Ok c01
    else if isclose lat y1 && isclose lon x1 then Ok c11
    else
      let corners : list (gcell V * R) := [(c00, w00); (c01, w01); (c10, w10); (c11, w11)] in
      if existsb (fun p => gusable (fst p)) corners then Ok (gweighted corners, false) else Ok (None, true).
  Definition gbilinear_point (ilon ilat : list R) (idata : list (list (gcell V))) (q : R * R) : res (gcell V) :=
    let '(lon, lat) := q in
    do lo <- amin ilon ;; do hi <- amax ilon ;; do la <- amin ilat ;; do ha <- amax ilat ;;
    if rle lo lon && rle lon hi && (rlt la lat && rlt lat ha)
    then gbilinear_inside ilon ilat idata lon lat
    else Ok (None, true).

  (** interpolate.py:120-198 spline with kx = ky = 1: scipy's RectBivariateSpline
      without smoothing is the piecewise bilinear interpolant, evaluated at the
      nearest point of the grid's box (trusted description of the library, which
      also refuses axes that do not increase); the mask is interpolated in the same
      way and rounded up.  A nan among the four corners gives nan. *)
  Definition clamp (lo hi x : R) : R := Rmax lo (Rmin hi x).
  Fixpoint increasing_axis (l : list R) : bool :=
    match l with
    | a :: t => match t with b :: _ => rlt a b && increasing_axis t | [] => true end
    | [] => true
    end.
  (** the cell of a coordinate within the axis: the last one for the last node *)
  Fixpoint cell_of (i : nat) (l : list R) (x : R) : nat :=
    match l with
    | _ :: t => match t with b :: c :: _ => if rlt x b then i else cell_of (S i) t x | _ => i end
    | [] => i
    end.
  Definition gspline_point (ilon ilat : list R) (idata : list (list (gcell V))) (q : R * R) : res (gcell V) :=
    if negb (increasing_axis ilon && increasing_axis ilat) then Err ValueError else
    do lo <- amin ilon ;; do hi <- amax ilon ;; do la <- amin ilat ;; do ha <- amax ilat ;;
    let lon := clamp lo hi (fst q) in let lat := clamp la ha (snd q) in
    let ix := cell_of 0 ilon lon in let iy := cell_of 0 ilat lat in
    do x0 <- get1 ilon ix ;; do x1 <- get1 ilon (S ix) ;;
    do y0 <- get1 ilat iy ;; do y1 <- get1 ilat (S iy) ;;
    do c00 <- gget2 idata iy ix ;; do c01 <- gget2 idata iy (S ix) ;;
    do c10 <- gget2 idata (S iy) ix ;; do c11 <- gget2 idata (S iy) (S ix) ;;
    let t := (lon - x0) / (x1 - x0) in let s := (lat - y0) / (y1 - y0) in
    let corners : list (gcell V * R) := [(c00, (1 - t) * (1 - s)); (c01, t * (1 - s)); (c10, (1 - t) * s); (c11, t * s)] in
    let m := fold_right Rplus 0 (map (fun p : gcell V * R => snd p * (if snd (fst p) then 1 else 0)) corners) in
    Ok (if forallb (fun p : gcell V * R => match fst (fst p) with Some _ => true | None => false end) corners
        then Some (fold_right vadd vzero (map (fun p => vscale (snd p) (gnumber (fst p))) corners)) else None,
        rlt 0 m).
End Values.
Definition cbilinear := gbilinear_point (0, 0) cadd cscale.
Definition rbilinear := gbilinear_point 0 Rplus Rmult.
Definition cspline := gspline_point (0, 0) cadd cscale.
Definition rspline := gspline_point 0 Rplus Rmult.

(** ** Extraction *)
(** The variable (keyword type) and the interpolation method *)
Inductive variable := Vz | Vu | VU | Vv | VV | Vother.
Inductive method := Bilinear | Spline.

Record grid := Grid { gx : list R; gy : list R; ghz : list (list R); gmz : list (list Z) }.
Definition field : Type := list (list (gcell cpx)).

(** xi[1] - xi[0] *)
Definition spacing (l : list R) : res R := do a <- get1 l 0 ;; do b <- get1 l 1 ;; Ok (b - a).
Definition nonzero (z : Z) : bool := negb (Z.eqb z 0).
(** mask = (h == 0) | not m *)
Definition depth_cell (h : R) (m : Z) : gcell R := (Some h, req h 0 || negb (nonzero m)).
Definition extend_if {A} (glob : bool) (m : list (list A)) : res (list (list A)) := if glob then extend_matrix m else Ok m.
Definition same_shape {A B} (a : list (list A)) (b : list (list B)) : bool :=
  Nat.eqb (length a) (length b) && forallb (fun p => Nat.eqb (length (fst p)) (length (snd p))) (combine a b).

(** OTIS.py:329-370 (and 622-663): depths and masks at the nodes of the variable and
    the axes of those nodes; [xi] is already extended *)
Definition layer (glob : bool) (dx dy : R) (xi yi : list R) (g : grid) (t : variable)
  : res (list R * list R * list (list (gcell R))) :=
  match t with
  | Vz =>
      do hz <- extend_if glob (ghz g) ;; do mz <- extend_if glob (gmz g) ;;
      if same_shape hz mz then Ok (xi, yi, zip22 depth_cell hz mz) else Err ValueError
  | Vu | VU =>
      do masks <- mask_nodes (ghz g) glob ;; do depths <- interpolate_zeta (ghz g) glob ;;
      do hu <- extend_if glob (fst depths) ;; do mu <- extend_if glob (fst masks) ;;
      Ok (map (fun x => x - dx / 2) xi, yi, zip22 depth_cell hu mu)
  | Vv | VV =>
      do masks <- mask_nodes (ghz g) glob ;; do depths <- interpolate_zeta (ghz g) glob ;;
      do hv <- extend_if glob (snd depths) ;; do mv <- extend_if glob (snd masks) ;;
      Ok (xi, map (fun y => y - dy / 2) yi, zip22 depth_cell hv mv)
  | Vother => Err NameError
  end.

(** x[x < 0] += 360 and x[x > 180] -= 360, decided by the extremes of the batch *)
Definition wrap_points (lo hi : R) (pts : list (R * R)) : res (list (R * R)) :=
  do mn <- amin (map fst pts) ;;
  let p1 := if rlt mn lo then map (fun p => (if rlt (fst p) 0 then fst p + 360 else fst p, snd p)) pts else pts in
  do mx <- amax (map fst p1) ;;
  Ok (if rlt hi mx then map (fun p => (if rlt 180 (fst p) then fst p - 360 else fst p, snd p)) p1 else p1).
Definition batch (geo : bool) (lo hi : R) (pts : list (R * R)) : res (list (R * R)) :=
  if geo then wrap_points lo hi pts
  else match pts with [] => Err ValueError | _ => Ok pts end.

(** OTIS.py:466-470 and 509-511: amplitude and phase in degrees from 0 to 360 *)
Definition phase_of (z : cpx) : R :=
  let p := atan2 (- cim z) (cre z) * 180 / PI in if rlt p 0 then p + 360 else p.
(** amplitudes of velocities in cm/s are divided by the depth in centimetres *)
Definition convert (t : variable) (depth : gcell R) (z : cpx) : R :=
  match t with Vu | Vv => cabs z / (gnumber 0 depth / 100) | _ => cabs z end.

(** what is returned for a point: the depth and for each constituent the amplitude
    and phase, [None] where masked *)
Definition result : Type := (gcell R * list (option (R * R)))%type.

Definition is_nan {V} (c : gcell V) : bool := match fst c with None => true | Some _ => false end.
Definition czero (z : cpx) : bool := req (cre z) 0 && req (cim z) 0.
(** hc.mask |= bathymetry.mask *)
Definition remask (b : list (list (gcell R))) (hc : field) : res field :=
  if same_shape hc b then Ok (zip22 (fun (h : gcell cpx) (d : gcell R) => (fst h, snd h || snd d)) hc b) else Err ValueError.
(** hc.data[(hc == 0) | hc.mask] = nan *)
Definition drop_cell (h : gcell cpx) : gcell cpx :=
  (match fst h with Some z => if czero z || snd h then None else Some z | None => None end, snd h).
Definition drop_invalid (hc : field) : field := map (map drop_cell) hc.

(** one constituent at one point (OTIS.py:417-470, 869-906) *)
Definition constant (me : method) (xi yi : list R) (t : variable) (D : gcell R) (invalid : bool) (q : R * R) (hc : field) : res (option (R * R)) :=
  do h <- match me with
          | Bilinear => cbilinear xi yi (drop_invalid hc) q
          | Spline => cspline xi yi hc q
          end ;;
  (* the two interpolators' masks; spline keeps its own mask in extract_constants *)
  let masked := match me with Bilinear => is_nan h || snd D | Spline => snd h || snd D end in
  Ok (if masked || invalid then None
      else match fst h with Some z => Some (convert t D z, phase_of z) | None => None end).

Definition outside_axes (xi yi : list R) (q : R * R) : res bool :=
  do lo <- amin xi ;; do hi <- amax xi ;; do la <- amin yi ;; do ha <- amax yi ;;
  Ok (rlt (fst q) lo || rlt hi (fst q) || (rlt (snd q) la || rlt ha (snd q))).

(** the bathymetry at a point: extract_constants (OTIS.py:373-389) *)
Definition extract_depth (me : method) (xi yi : list R) (b : list (list (gcell R))) (q : R * R) : res (gcell R) :=
  match me with
  | Bilinear =>
      do d <- rbilinear xi yi (map (map (fun c : gcell R => (if snd c then None else fst c, snd c))) b) q ;;
      Ok (fst d, snd d || is_nan d)
  | Spline => rspline xi yi b q
  end.

(** OTIS.py:172-521 extract_constants; [fwd] is crs.transform, [geo] is_geographic *)
Definition extract_constants (fwd : R * R -> R * R) (geo : bool) (me : method) (t : variable)
    (g : grid) (hcs : list field) (lonlat : list (R * R)) : res (list result) :=
  do dx <- spacing (gx g) ;; do dy <- spacing (gy g) ;;
  do lo <- amin (gx g) ;; do hi <- amax (gx g) ;;
  do pts <- batch geo lo hi (map fwd lonlat) ;;
  let glob := geo && isclose (last (gx g) 0 - hd 0 (gx g)) (360 - dx) in
  do xe <- (if glob then extend_axis (gx g) dx else Ok (gx g)) ;;
  do inv <- mapM (outside_axes xe (gy g)) pts ;;
  do l <- layer glob dx dy xe (gy g) g t ;;
  let '(xi, yi, b) := l in
  do ds <- mapM (extract_depth me xi yi b) pts ;;
  do fs <- mapM (fun hc => do e <- extend_if glob hc ;; remask b e) hcs ;;
  mapM (fun p => let '(q, (i, D)) := p in
          do cs <- mapM (constant me xi yi t D i q) fs ;; Ok (D, cs))
       (combine pts (combine inv ds)).

(** OTIS.py:524-734 read_constants *)
Record constituents := Cons { cx : list R; cy : list R; cbath : list (list (gcell R)); cfields : list field }.
Definition read_constants (geo : bool) (t : variable) (g : grid) (hcs : list field) : res constituents :=
  do dx <- spacing (gx g) ;; do dy <- spacing (gy g) ;;
  let glob := geo && req (last (gx g) 0 - hd 0 (gx g)) (360 - dx) in
  do xe <- (if glob then extend_axis (gx g) dx else Ok (gx g)) ;;
  do l <- layer glob dx dy xe (gy g) g t ;;
  let '(xi, yi, b) := l in
  do fs <- mapM (fun hc => do e <- extend_if glob hc ;; remask b e) hcs ;;
  Ok (Cons xi yi b fs).

(** OTIS.py:737-911 interpolate_constants: also what is left in the constituents (invalid
    values are replaced in copies: constituents.get copies the array,
    io/constituents.py:84-85); with splines the mask of the constituent is not used
    (line 864) *)
Definition interpolate_depth (me : method) (xi yi : list R) (b : list (list (gcell R))) (q : R * R) : res (gcell R) :=
  match me with Bilinear => rbilinear xi yi b q | Spline => rspline xi yi b q end.
Definition constant_again (me : method) (xi yi : list R) (t : variable) (D : gcell R) (invalid : bool) (q : R * R) (hc : field) : res (option (R * R)) :=
  do h <- match me with
          | Bilinear => cbilinear xi yi (drop_invalid hc) q
          | Spline => cspline xi yi hc q
          end ;;
  let masked := match me with Bilinear => is_nan h || snd D | Spline => snd D end in
  Ok (if masked || invalid then None
      else match fst h with Some z => Some (convert t D z, phase_of z) | None => None end).
Definition interpolate_constants (fwd : R * R -> R * R) (geo : bool) (me : method) (t : variable)
    (c : constituents) (lonlat : list (R * R)) : res (list result * constituents) :=
  do lo <- amin (cx c) ;; do hi <- amax (cx c) ;;
  do pts <- batch geo lo hi (map fwd lonlat) ;;
  do inv <- mapM (outside_axes (cx c) (cy c)) pts ;;
  do ds <- mapM (interpolate_depth me (cx c) (cy c) (cbath c)) pts ;;
  match t with
  | Vother => Err NameError
  | _ =>
      do out <- mapM (fun p => let '(q, (i, D)) := p in
                  do cs <- mapM (constant_again me (cx c) (cy c) t D i q) (cfields c) ;; Ok (D, cs))
               (combine pts (combine inv ds)) ;;
      Ok (out, c)
  end.
