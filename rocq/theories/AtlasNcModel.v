(** Model of the netCDF files of ATLAS models (pyTMD/io/ATLAS.py): read_netcdf_grid 689-762,
    read_netcdf_file 765-803, read_netcdf_elevation 806-853, read_netcdf_transport 856-915,
    output_netcdf_grid 918-1014, output_netcdf_elevation 1017-1098,
    output_netcdf_transport 1101-1206, and of the constants taken from them:
    extract_constants 133-390, read_constants 393-497, interpolate_constants 500-686.

    Simplifications: exact real numbers (the readers round to single precision); a value
    is [None] when it is nan; no compression, cropping or extrapolation; methods bilinear
    and spline; of a file the dimensions, arrays and the name of the constituent (bytes)
    are kept; arrays of unequal shape are refused (broadcasting is left out); the
    constituents have different names; fill values under masks are left out ([None] for a
    masked result, also where it is nan). *)
From Coq Require Import Reals List Bool Arith ZArith.
From Verif Require Import PyBase RBase MathModel GeoModel GridModel InterpModel ExtractModel SeriesModel.
From Verif Require OtisModel.
Import ListNotations.
Open Scope R_scope.

(** A.T, with n the number of columns of A *)
Definition transposed {A} (d : A) (n : nat) (m : list (list A)) : list (list A) :=
  map (fun i => map (fun row => nth i row d) m) (seq 0 n).

(** ** Files *)
(** coordinates and depths of one kind of node; the depths are stored by columns *)
Record nodes := Nodes { nlon : list R; nlat : list R; ndepth : list (list R) }.
(** a grid file: dimensions nx and ny, nodes of heights and of both transports *)
Record grid_file := GridFile { fnx : nat; fny : nat; fz : nodes; fu : nodes; fv : nodes }.
(** real and imaginary parts, stored by columns *)
Definition parts : Type := (list (list (option R)) * list (list (option R)))%type.
(** a file of a constituent: dimensions, the four characters of its name, whether they
    have the attribute _Encoding, and the variables there are *)
Record tide_file := TideFile { tnx : nat; tny : nat; tname : list Z; tencoded : bool; th : option parts; tu : option parts; tv : option parts }.

(** ** Writing *)
(** netCDF4 writes the fill value, zero, for a masked cell *)
Definition stored_depth (c : R * bool) : R := if snd c then 0 else fst c.
Definition columns_of {A} (m : list (list A)) : nat := length (hd [] m).
Definition whole {A} (ny nx : nat) (m : list (list A)) : bool := Nat.eqb (length m) ny && forallb (fun r => Nat.eqb (length r) nx) m.
(** what output_netcdf_grid is given for one kind of node *)
Record sketch := Sketch { klon : list R; klat : list R; kdepth : list (list (R * bool)) }.
Definition sketch_fits (ny nx : nat) (k : sketch) : bool :=
  Nat.eqb (length (klon k)) nx && Nat.eqb (length (klat k)) ny && whole ny nx (kdepth k).
(** ATLAS.py:960-985 *)
Definition store_nodes (nx : nat) (k : sketch) : nodes :=
  Nodes (klon k) (klat k) (transposed 0 nx (map (map stored_depth) (kdepth k))).
Definition output_netcdf_grid (z u v : sketch) : res grid_file :=
  let ny := length (kdepth z) in let nx := columns_of (kdepth z) in
  if sketch_fits ny nx z && sketch_fits ny nx u && sketch_fits ny nx v
  then Ok (GridFile nx ny (store_nodes nx z) (store_nodes nx u) (store_nodes nx v))
  else Err OtherError.

Definition stored_part (f : cpx -> R) (c : gcell cpx) : option R := if snd c then Some 0 else option_map f (fst c).
Definition store_parts (nx : nat) (h : field) : parts :=
  (transposed None nx (map (map (stored_part cre)) h), transposed None nx (map (map (stored_part cim)) h)).
(** constituent.ljust(4), refused by netCDF4 if longer than the dimension nct; the
    attribute _Encoding is set afterwards (lines 1080-1085, 1188-1193) *)
Definition store_name (con : list Z) : res (list Z) :=
  if (4 <? length con)%nat then Err OtherError else Ok (OtisModel.ljust4 con).
(** ATLAS.py:1044-1098 *)
Definition output_netcdf_elevation (h : field) (con : list Z) : res tide_file :=
  let ny := length h in let nx := columns_of h in
  if whole ny nx h then
    do name <- store_name con ;;
    Ok (TideFile nx ny name true (Some (store_parts nx h)) None None)
  else Err OtherError.
(** ATLAS.py:1137-1206 *)
Definition output_netcdf_transport (u v : field) (con : list Z) : res tide_file :=
  let ny := length u in let nx := columns_of u in
  if whole ny nx u && whole ny nx v then
    do name <- store_name con ;;
    Ok (TideFile nx ny name true None (Some (store_parts nx u)) (Some (store_parts nx v)))
  else Err OtherError.

(** ** Reading *)
(** ATLAS.py:737-757: the coordinates and depths of the nodes of a variable *)
Definition nodes_of (t : variable) (g : grid_file) : res nodes :=
  match t with
  | Vz => Ok (fz g)
  | Vu | VU => Ok (fu g)
  | Vv | VV => Ok (fv g)
  | Vother => Err NameError
  end.
(** the depth is masked where it is zero (line 759) *)
Definition depth_at (h : R) : gcell R := (Some h, req h 0).
Definition read_netcdf_grid (t : variable) (g : grid_file) : res (list R * list R * list (list (gcell R))) :=
  do n <- nodes_of t g ;;
  Ok (nlon n, nlat n, map (map depth_at) (transposed 0 (fny g) (ndepth n))).

(** hc.data.real[:,:] = ... .T and hc.data.imag[:,:] = ... .T, nothing masked *)
Definition joined (re im : option R) : gcell cpx :=
  (match re, im with Some a, Some b => Some (a, b) | _, _ => None end, false).
Definition read_parts (ny : nat) (p : option parts) : res field :=
  match p with
  | None => Err KeyError
  | Some (re, im) => Ok (zip22 joined (transposed None ny re) (transposed None ny im))
  end.
(** variables['con'][:].tobytes().decode('utf8').strip(): netCDF4 makes a string of the
    characters if the variable has the attribute _Encoding, and the bytes of numpy's
    strings are four for each character *)
Definition wide (s : list Z) : list Z := flat_map (fun c => [c; 0; 0; 0]%Z) s.
Definition read_name (f : tide_file) : list Z :=
  OtisModel.strip (if tencoded f then wide (tname f) else tname f).
(** read_netcdf_file (other variables give None, which cannot be unpacked) *)
Definition read_netcdf_file (t : variable) (f : tide_file) : res (field * list Z) :=
  do hc <- match t with
           | Vz => read_parts (tny f) (th f)
           | Vu | VU => read_parts (tny f) (tu f)
           | Vv | VV => read_parts (tny f) (tv f)
           | Vother => Err TypeError
           end ;;
  Ok (hc, read_name f).

(** ** Extracting *)
(** the depth at a point (lines 280-299, 582-601) *)
Definition sounding (me : method) (xi yi : list R) (b : list (list (gcell R))) (q : R * R) : res (gcell R) :=
  match me with
  | Bilinear => do d <- rbilinear xi yi b q ;; Ok (fst d, snd d || is_nan d)
  | Spline => rspline xi yi b q
  end.
(** one constituent at one point (lines 333-383): masked where there is no depth and
    outside of the model *)
Definition atlas_value (t : variable) (sc : R) (D : gcell R) (invalid : bool) (h : gcell cpx) : option (R * R) :=
  if snd h || snd D || invalid then None
  else match fst h with Some z => match fst D with Some _ => Some (convert t D z * sc, phase_of z)
                                                 | None => match t with Vu | Vv => None | _ => Some (convert t D z * sc, phase_of z) end end
                      | None => None end.
Definition atlas_constant (me : method) (sc : R) (xi yi : list R) (t : variable) (q : R * R) (D : gcell R) (invalid : bool) (hc : field) : res (option (R * R)) :=
  do h <- match me with Bilinear => cbilinear xi yi hc q | Spline => cspline xi yi hc q end ;;
  Ok (atlas_value t sc D invalid h).
(** what is returned: amplitude and phase for each file and point, the depth of each
    point, and the names *)
Record answer := Answer { aconst : list (list (option (R * R))); adepth : list (gcell R); anames : list (list Z) }.
Definition extract_atlas (me : method) (t : variable) (sc : R) (g : grid_file) (files : list tide_file) (pts : list (R * R)) : res answer :=
  do n <- read_netcdf_grid t g ;;
  let '(lon, lat, h) := n in
  do _ <- amin (map fst pts) ;;
  do d <- spacing lon ;;
  do pts' <- adjust lon pts ;;
  let glob := isclose (last lon 0 - hd 0 lon) (360 - d) in
  do xi <- (if glob then extend_axis lon d else Ok lon) ;;
  do b <- extend_if glob h ;;
  do inv <- mapM (outside_axes xi lat) pts' ;;
  do ds <- mapM (sounding me xi lat b) pts' ;;
  do out <- mapM (fun f =>
      do r <- read_netcdf_file t f ;;
      do e <- extend_if glob (fst r) ;;
      do hc <- remask b e ;;
      do cs <- mapM (fun p => let '(q, (i, D)) := p in atlas_constant me sc xi lat t q D i hc) (combine pts' (combine inv ds)) ;;
      Ok (cs, snd r)) files ;;
  Ok (Answer (map fst out) ds (map snd out)).

(** ** Reading the constants first *)
Record atlas_tides := AtlasTides { alon : list R; alat : list R; abath : list (list (gcell R)); afields : list (field * list Z) }.
Definition read_atlas (t : variable) (g : grid_file) (files : list tide_file) : res atlas_tides :=
  do n <- read_netcdf_grid t g ;;
  let '(lon, lat, h) := n in
  do d <- spacing lon ;;
  let glob := isclose (last lon 0 - hd 0 lon) (360 - d) in
  do xi <- (if glob then extend_axis lon d else Ok lon) ;;
  do b <- extend_if glob h ;;
  do fs <- mapM (fun f =>
      do r <- read_netcdf_file t f ;;
      do e <- extend_if glob (fst r) ;;
      do hc <- remask b e ;;
      Ok (hc, snd r)) files ;;
  Ok (AtlasTides xi lat b fs).
(** bathymetry.data[bathymetry.mask] = nan: the array of the constituents themselves
    (np.ma.array makes no copy, line 577) *)
Definition sunk (c : gcell R) : gcell R := if snd c then (None, true) else c.
(** interpolate_constants: also what is left in the constituents *)
Definition interpolate_atlas_constants (me : method) (t : variable) (sc : R) (c : atlas_tides) (pts : list (R * R))
    : res (list (list (option (R * R))) * list (gcell R) * atlas_tides) :=
  do pts' <- adjust (alon c) pts ;;
  do inv <- mapM (outside_axes (alon c) (alat c)) pts' ;;
  let c' := match me with Bilinear => AtlasTides (alon c) (alat c) (map (map sunk) (abath c)) (afields c) | Spline => c end in
  do ds <- mapM (sounding me (alon c) (alat c) (abath c')) pts' ;;
  match t with
  | Vother => Err NameError
  | _ =>
      do out <- mapM (fun f =>
          mapM (fun p => let '(q, (i, D)) := p in
                atlas_constant me sc (alon c) (alat c) t q D i (match me with Bilinear => fst f | Spline => map (map (filled Spline)) (fst f) end))
            (combine pts' (combine inv ds))) (afields c) ;;
      Ok (out, ds, c')
  end.
