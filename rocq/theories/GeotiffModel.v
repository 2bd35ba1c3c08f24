(** Model of the routines reading and writing geotiff images (pyTMD/spatial.py:585-683
    from_geotiff, 1124-1191 to_geotiff, 1307-1330 expand_dims).

    Simplifications: exact real numbers, all of them finite; images without rotation; the
    projection is a text that GDAL keeps.  GDAL is described by its documentation: a
    dataset has columns, rows, an affine transform, bands and the no-data value of its
    first band; ReadAsArray gives rows of columns for one band and a list of bands for
    more, and nothing (None) for a window that is not in the image; WriteArray writes the
    numbers of a masked array, whatever its mask; the driver of cloud optimized geotiffs
    has no Create method.  Compression is left out: it changes how GDAL finds the file. *)
From Coq Require Import Reals String List Bool Arith ZArith.
From Verif Require Import PyBase RBase MathModel GeoModel.
Import ListNotations.
Open Scope R_scope.

(** GetGeoTransform()[0], [1], [3], [5]: left edge, width, upper edge, height (negative
    for images from north to south) *)
Record transform := Transform { left_x : R; pixel_x : R; top_y : R; pixel_y : R }.
Record raster := Raster { rcols : nat; rrows : nat; rgt : transform; rbands : list (list (list R)); rnodata : option R; rwkt : string }.

(** numbers and whether they are masked; arrays of one, two and three dimensions *)
Definition cell : Type := R * bool.
Inductive arr := A1 (l : list cell) | A2 (m : list (list cell)) | A3 (m : list (list (list cell))).
Record bounds := Bounds { bxmin : R; bxmax : R; bymin : R; bymax : R }.
(** dinput of from_geotiff: coordinates, data, extent, spacing, times, fill value, text
    of the projection *)
Record image := Image { ix : list R; iy : list R; idata : option arr; iextent : bounds; ispacing : R * R; itime : list R; ifill : option R; iwkt : string }.

(** int(v): towards zero *)
Definition rtrunc (v : R) : Z := if rlt v 0 then (- rfloor (- v))%Z else rfloor v.
(** x[slice(a, b, None)]: negative positions count from the end *)
Definition position (n : nat) (a : Z) : nat := if (a <? 0)%Z then Z.to_nat (Z.of_nat n + a) else Nat.min (Z.to_nat a) n.
Definition sliced {A} (l : list A) (a b : Z) : list A :=
  let i := position (List.length l) a in let j := position (List.length l) b in firstn (j - i) (skipn i l).
(** lines 632-634 *)
Definition centres (x0 dx : R) (n : nat) : list R := map (fun i => x0 + dx / 2 + INR i * dx) (seq 0 n).
(** np.min and np.max *)
Definition lowest (l : list R) : res R := match l with [] => Err ValueError | a :: t => Ok (fold_left Rmin t a) end.
Definition highest (l : list R) : res R := match l with [] => Err ValueError | a :: t => Ok (fold_left Rmax t a) end.

(** ds.ReadAsArray(xoff, yoff, xsize, ysize) *)
Definition inside_image (n : nat) (off size : Z) : bool := ((0 <=? off) && (1 <=? size) && (off + size <=? Z.of_nat n))%Z.
Definition window (r : raster) (xo yo xs ys : Z) : option (list (list (list R))) :=
  if inside_image (rcols r) xo xs && inside_image (rrows r) yo ys
  then Some (map (fun band => map (fun row => firstn (Z.to_nat xs) (skipn (Z.to_nat xo) row)) (firstn (Z.to_nat ys) (skipn (Z.to_nat yo) band))) (rbands r))
  else None.
Definition as_array (bands : list (list (list R))) : arr :=
  let open := map (fun v : R => (v, false)) in
  match bands with [b] => A2 (map open b) | _ => A3 (map (map open) bands) end.
(** lines 669-679: the no-data value counts if it is true of it, that is not zero *)
Definition masked_by (fill : R) (a : arr) : arr :=
  let f := fun c : cell => (fst c, req (fst c) fill) in
  match a with A1 l => A1 (map f l) | A2 m => A2 (map (map f) m) | A3 m => A3 (map (map (map f)) m) end.

(** lines 585-683 *)
Definition from_geotiff (r : raster) (b : option bounds) : res image :=
  let g := rgt r in
  let x := centres (left_x g) (pixel_x g) (rcols r) in
  let y := centres (top_y g) (pixel_y g) (rrows r) in
  do w <- match b with
    | Some b =>
        if req (pixel_x g) 0 || req (pixel_y g) 0 then Err OtherError else
        let xo := rtrunc ((bxmin b - left_x g) / pixel_x g) in
        let yo := rtrunc ((top_y g - bymax b) / Rabs (pixel_y g)) in
        let xs := (rtrunc ((bxmax b - bxmin b) / pixel_x g) + 1)%Z in
        let ys := (rtrunc ((bymax b - bymin b) / Rabs (pixel_y g)) + 1)%Z in
        let x' := sliced x xo (xo + xs) in
        let y' := sliced y yo (yo + ys) in
        do x0 <- lowest x' ;; do x1 <- highest x' ;; do y0 <- lowest y' ;; do y1 <- highest y' ;;
        Ok (x', y', window r xo yo xs ys, Bounds (x0 - pixel_x g / 2) (x1 - pixel_x g / 2) (y0 - pixel_y g / 2) (y1 - pixel_y g / 2))
    | None => Ok (x, y, Some (rbands r), Bounds (left_x g) (left_x g + (INR (rcols r) - 1) * pixel_x g) (top_y g + (INR (rrows r) - 1) * pixel_y g) (top_y g))
    end ;;
  let '(x', y', data, e) := w in
  match rbands r with [] => Err AttributeError | _ =>
  let im := fun d f => Image x' y' d e (pixel_x g, pixel_y g) (map (fun _ => 0) (rbands r)) f (rwkt r) in
  match rnodata r with
  | Some v => if req v 0 then Ok (im (option_map as_array data) None) else
      match data with Some d => Ok (im (Some (masked_by v (as_array d))) (Some v)) | None => Err IndexError end
  | None => Ok (im (option_map as_array data) None)
  end end.

Inductive driver := GTiff | Cog | Nodriver.
(** np.atleast_3d, lines 1327-1331 *)
Definition expanded (a : arr) : list (list (list cell)) :=
  match a with A1 l => [map (fun c => [c]) l] | A2 m => map (map (fun c => [c])) m | A3 m => m end.
(** lines 1124-1191: rows, columns and bands of an array *)
Definition to_geotiff (dr : driver) (a : arr) (extent : bounds) (spacing : R * R) (wkt : string) (fill : option R) : res raster :=
  let m := expanded a in
  let ny := List.length m in
  let nx := List.length (hd [] m) in
  let nb := List.length (hd [] (hd [] m)) in
  match dr with
  | GTiff =>
      if Nat.eqb ny 0 || Nat.eqb nx 0 then Err OtherError else
      Ok (Raster nx ny (Transform (bxmin extent) (fst spacing) (bymax extent) (snd spacing))
           (map (fun k => map (map (fun cs => fst (nth k cs (0, false)))) m) (seq 0 nb)) (if Nat.eqb nb 0 then None else fill) wkt)
  | Cog | Nodriver => Err AttributeError
  end.
