(** Model of pyTMD/interpolate.py: bilinear (35-118), extrapolate (279-420) and
    _distance (423-445).  spline of degree one is in ExtractModel.v, regulargrid in
    RegularModel.v. *)
From Coq Require Import Reals List Bool Arith.
From Verif Require Import PyBase RBase MathModel GeoModel.
Import ListNotations.
Open Scope R_scope.

(** A floating point value: finite, or nan / infinite *)
Inductive val := Fin (x : R) | Bad.
(** An element of a masked array *)
Record cell := Cell { cval : val; cmask : bool }.
Definition finite (c : cell) : bool := match cval c with Fin _ => true | Bad => false end.
Definition number (c : cell) : R := match cval c with Fin x => x | Bad => 0 end.

(** np.isclose(a, b) with the default tolerances *)
Definition isclose (a b : R) : bool := rle (Rabs (a - b)) (1e-8 + 1e-5 * Rabs b).

(** np.min / np.max of an array; the first element is passed separately, an empty
    array raises *)
Definition rmin_list (a : R) (l : list R) : R := fold_right Rmin a l.
Definition rmax_list (a : R) (l : list R) : R := fold_right Rmax a l.
Definition amin (l : list R) : res R := match l with [] => Err ValueError | a :: t => Ok (rmin_list a t) end.
Definition amax (l : list R) : res R := match l with [] => Err ValueError | a :: t => Ok (rmax_list a t) end.

(** np.nonzero((axis[0:-1] <= x) & (axis[1:] > x)) *)
Fixpoint brackets (i : nat) (axis : list R) (x : R) : list nat :=
  match axis with
  | a :: t =>
      match t with
      | b :: _ => (if rle a x && rlt x b then [i] else []) ++ brackets (S i) t x
      | [] => []
      end
  | [] => []
  end.
(** unpacking an array of indices that must hold one element (lines 94-96) *)
Definition single (l : list nat) : res nat := match l with [i] => Ok i | _ => Err ValueError end.

Definition get1 {A} (l : list A) (i : nat) : res A :=
  match nth_error l i with Some x => Ok x | None => Err IndexError end.
(** idata[iy, ix] *)
Definition get2 (g : list (list cell)) (iy ix : nat) : res cell :=
  do row <- get1 g iy ;; get1 row ix.

(** A corner: value and weight *)
Definition usable (c : cell) : bool := finite c && negb (cmask c).
(** lines 112-117: sum over the usable corners; 0/0 is nan *)
Definition weighted (l : list (cell * R)) : val :=
  let us := filter (fun p => usable (fst p)) l in
  let sw := fold_right Rplus 0 (map snd us) in
  if req sw 0 then Bad
  else Fin (fold_right Rplus 0 (map (fun p => snd p * number (fst p)) us) / sw).

(** interpolate.py:86-117, one point within the bounds *)
Definition bilinear_inside (ilon ilat : list R) (idata : list (list cell)) (fill : val) (lon lat : R) : res cell :=
  do ix <- single (brackets 0 ilon lon) ;;
  do iy <- single (brackets 0 ilat lat) ;;
  do x0 <- get1 ilon ix ;; do x1 <- get1 ilon (S ix) ;;
  do y0 <- get1 ilat iy ;; do y1 <- get1 ilat (S iy) ;;
  do c00 <- get2 idata iy ix ;; do c01 <- get2 idata iy (S ix) ;;
  do c10 <- get2 idata (S iy) ix ;; do c11 <- get2 idata (S iy) (S ix) ;;
  (* the weight of a corner is the area opposite to it: WM[3-j] *)
  let w00 := Rabs (lon - x1) * Rabs (lat - y1) in
  let w01 := Rabs (lon - x0) * Rabs (lat - y1) in
  let w10 := Rabs (lon - x1) * Rabs (lat - y0) in
  let w11 := Rabs (lon - x0) * Rabs (lat - y0) in
  if isclose lat y0 && isclose lon x0 then Ok c00
  else if isclose lat y1 && isclose lon x0 then Ok c10
  else if isclose lat y0 && isclose lon x1 then Ok c01
  else if isclose lat y1 && isclose lon x1 then Ok c11
  else
    let corners := [(c00, w00); (c01, w01); (c10, w10); (c11, w11)] in
    if existsb (fun p => usable (fst p)) corners then Ok (Cell (weighted corners) false)
    else Ok (Cell fill true).

(** interpolate.py:35-118 bilinear; [lon], [lat] have the same length *)
Definition bilinear_point (ilon ilat : list R) (idata : list (list cell)) (fill : val) (q : R * R) : res cell :=
  let '(lon, lat) := q in
  do lo <- amin ilon ;; do hi <- amax ilon ;; do la <- amin ilat ;; do ha <- amax ilat ;;
  if rle lo lon && rle lon hi && (rlt la lat && rlt lat ha)
  then bilinear_inside ilon ilat idata fill lon lat
  else Ok (Cell fill true).
Definition bilinear (ilon ilat : list R) (idata : list (list cell)) (fill : val) (pts : list (R * R)) : res (list cell) :=
  mapM (bilinear_point ilon ilat idata fill) pts.

(** ** Nearest-neighbour extrapolation *)
(** A distance bound: None is np.inf *)
Notation bound := (option R) (only parsing).
Definition within (d : R) (c : bound) : bool := match c with None => true | Some c => rlt d c end.

Section Extrapolate.
  (** coordinates of points: vectors for geographic grids, pairs for projected ones *)
  Context {P : Type} (dist : P -> P -> R) (coords : P -> list R).
  (** scipy.spatial.cKDTree.query(k=1, distance_upper_bound=c): the first node at
      minimal distance, if that distance is less than the bound (trusted
      description of the library call) *)
  Fixpoint nearest (q : P) (nodes : list (P * cell)) : option (P * cell) :=
    match nodes with
    | [] => None
    | n :: t =>
        match nearest q t with
        | None => Some n
        | Some m => if rlt (dist q (fst m)) (dist q (fst n)) then Some m else Some n
        end
    end.
  Definition query (c : bound) (q : P) (nodes : list (P * cell)) : option (P * cell) :=
    match nearest q nodes with
    | Some n => if within (dist q (fst n)) c then Some n else None
    | None => None
    end.
  (** range of one coordinate over the query points, widened by twice the cutoff *)
  Definition in_range (c : bound) (qs : list R) (x : R) : bool :=
    match c, qs with
    | None, _ => true
    | _, [] => true
    | Some c, a :: t => rle (rmin_list a t - 2 * c) x && rle x (rmax_list a t + 2 * c)
    end.
  Definition in_bounds (c : bound) (queries : list P) (p : P) : bool :=
    forallb (fun k => in_range c (map (fun q => nth k (coords q) 0) queries) (nth k (coords p) 0))
      (seq 0 (length (coords p))).
  (** interpolate.py:331-420 after the meshgrid: [nodes] in row-major order; None for
      no query points; [fill] is idata.fill_value *)
  Definition extrapolate (c : bound) (fill : val) (nodes : list (P * cell)) (queries : list P) : option (list cell) :=
    match queries with
    | [] => None
    | _ =>
        let valid := filter (fun n => usable (snd n)) nodes in
        let near := filter (fun n => in_bounds c queries (fst n)) valid in
        Some (map (fun q => match query c q near with
                            | Some n => Cell (cval (snd n)) false
                            | None => Cell fill true
                            end) queries)
    end.
End Extrapolate.

(** Euclidean distances used by the kd-tree *)
Definition dist3 (p q : vec) : R := sqrt ((vx p - vx q) ^ 2 + (vy p - vy q) ^ 2 + (vz p - vz q) ^ 2).
Definition coords3 (p : vec) : list R := [vx p; vy p; vz p].
Definition dist2 (p q : R * R) : R := sqrt ((fst p - fst q) ^ 2 + (snd p - snd q) ^ 2).
Definition coords2 (p : R * R) : list R := [fst p; snd p].
(** np.meshgrid(ilon, ilat) paired with the data, row by row *)
Definition mesh (ilon ilat : list R) (idata : list (list cell)) : list ((R * R) * cell) :=
  flat_map (fun r => map (fun p => ((fst p, fst r), snd p)) (combine ilon (snd r))) (combine ilat idata).
(** ellipsoid in kilometres (line 350, flattening default of to_cartesian) *)
Definition wgs84_km : ellipsoid := Ell 6378.137 (1 / 298.257223563).
Definition on_ellipsoid (p : R * R) : vec := to_cartesian wgs84_km (fst p) (snd p) 0.
Definition extrapolate_geographic (c : bound) (fill : val) (ilon ilat : list R) (idata : list (list cell)) (pts : list (R * R)) : option (list cell) :=
  extrapolate dist3 coords3 c fill (map (fun n => (on_ellipsoid (fst n), snd n)) (mesh ilon ilat idata)) (map on_ellipsoid pts).
Definition extrapolate_projected (c : bound) (fill : val) (ilon ilat : list R) (idata : list (list cell)) (pts : list (R * R)) : option (list cell) :=
  extrapolate dist2 coords2 c fill (mesh ilon ilat idata) pts.

(** interpolate.py:423-445 _distance *)
Definition sumsq (c : list R) : R := fold_right Rplus 0 (map (fun x => x ^ 2) c).
Definition dotl (a b : list R) : R := fold_right Rplus 0 (map (fun p => fst p * snd p) (combine a b)).
Definition distance (c1 : list R) (c2 : list (list R)) : list R :=
  map (fun r => sqrt (sumsq c1 - 2 * dotl c1 r + sumsq r)) c2.
