(** Model of the script that reduces OTIS files to a region (scripts/reduce_OTIS_files.py:82-224).

    OTIS grid files are read from their bytes by the readers of OtisModel; the branch for
    ATLAS-compact files (97-104) is not modelled.  Exact arithmetic; the transformation of the
    corners of the box (pyproj and the crs class, 109-118) and the rounding of a number to the
    pattern of a single-precision number are parameters; numbers of a file that are nan or
    infinite are an error as in OtisFilesModel.  Permissions are not modelled. *)
From Coq Require Import String Ascii Reals ZArith List Bool DecimalString.
From Verif Require Import PyBase GeoModel OtisModel ExtractModel OtisFilesModel.
Import ListNotations.
Open Scope list_scope.

(** x.min(), x.max() of the five corners: 122-125 *)
Definition least (x : R) (l : list R) : R := fold_left Rmin l x.
Definition greatest (x : R) (l : list R) : R := fold_left Rmax l x.
(** 113-118: the corners of the box in model coordinates *)
Definition corners (corner : R * R -> R * R) (xmin xmax ymin ymax : R) : list (R * R) :=
  map corner [(xmin, ymin); (xmax, ymin); (xmax, ymax); (xmin, ymax); (xmin, ymin)].
Definition spread (l : list R) : R * R := match l with [] => (0, 0)%R | x :: t => (least x t, greatest x t) end.
Definition inside (s : R * R) (x : R) : bool := rle (fst s) x && rle x (snd s).
(** 121-123: np.nonzero of the grid of nodes, row by row *)
Definition nodes_inside (sx sy : R * R) (xi yi : list R) : list (nat * nat) :=
  filter (fun p => inside sx (nth (snd p) xi 0%R) && inside sy (nth (fst p) yi 0%R))
    (list_prod (seq 0 (List.length yi)) (seq 0 (List.length xi))).
(** 127-128: np.abs(xi[1]-xi[0]) *)
Definition spacing (l : list R) : res R := match l with a :: b :: _ => Ok (Rabs (b - a)) | _ => Err IndexError end.
(** a[indy,indx] *)
Definition gather (m : list (list Z)) (ind : list (nat * nat)) : list Z := map (fun p => nth (snd p) (nth (fst p) m []) 0%Z) ind.
Definition array (rows : list (list Z)) (ny nx : nat) : arr2 := Arr2 ny nx (DT 4 true) (fun m i => nth i (nth m rows []) 0%Z).

(** 105-138: the bytes of the reduced grid file; [single] is the cast to '>f4' *)
Definition reduced_grid (corner : R * R -> R * R) (single : R -> Z) (xmin xmax ymin ymax : R) (file : list Z) : res (list Z) :=
  do g <- run read_otis_grid file ;;
  do xlim <- limits (g_xlim g) ;; do ylim <- limits (g_ylim g) ;; do dt <- finite (g_dt g) ;;
  let axes := otis_axes xlim ylim dt (Z.to_nat (g_nx g)) (Z.to_nat (g_ny g)) in
  let xi := fst axes in let yi := snd axes in
  let box := corners corner xmin xmax ymin ymax in
  let sx := spread (map fst box) in let sy := spread (map snd box) in
  let ind := nodes_inside sx sy xi yi in
  let nx := List.length (filter (inside sx) xi) in let ny := List.length (filter (inside sy) yi) in
  do dx <- spacing xi ;; do dy <- spacing yi ;;
  match ind with
  | [] => Err IndexError
  | first :: _ =>
      let final := last ind first in
      let x0 := single (nth (snd first) xi 0 - dx / 2)%R in let x1 := single (nth (snd final) xi 0 + dx / 2)%R in
      let y0 := single (nth (fst first) yi 0 - dy / 2)%R in let y1 := single (nth (fst final) yi 0 + dy / 2)%R in
      do hz1 <- reshape (Z.of_nat ny) (Z.of_nat nx) (gather (g_hz g) ind) ;;
      do mz1 <- reshape (Z.of_nat ny) (Z.of_nat nx) (gather (g_mz g) ind) ;;
      output_otis_grid (DT 4 true) (x0, x1) (y0, y1) (array hz1 ny nx) (array mz1 ny nx)
        (DT 4 true) (map (fun r => (nth 0 r 0%Z, nth 1 r 0%Z)) (g_iob g)) (g_dt g)
  end.

(** ** The name of a new file: 208-231 *)
Open Scope string_scope.
(** pathlib: the name up to its last dot and the rest, unless the dot is the first or last
    character of the name *)
Fixpoint last_dot (s : string) : option (string * string) :=
  match s with
  | EmptyString => None
  | String c t =>
      match last_dot t with
      | Some (a, b) => Some (String c a, b)
      | None => if Ascii.eqb c "." then Some (EmptyString, s) else None
      end
  end.
Definition stem_suffix (s : string) : string * string :=
  match last_dot s with
  | Some (String _ _ as a, String _ (String _ _) as b) => (a, b)
  | _ => (s, "")
  end.
Definition base_name (s : string) : string :=
  let (stem, suffix) := stem_suffix s in
  stem ++ (if (String.eqb suffix ".out" || String.eqb suffix ".oce")%bool then "" else suffix) ++ ".reduced".
Definition numbered (base : string) (k : nat) : string := base ++ "_" ++ NilEmpty.string_of_uint (Nat.to_uint k).
(** the loop, given whether opening a name for exclusive creation succeeds; [fuel] bounds the
    number of attempts, which the code does not *)
Fixpoint search (fuel : nat) (opens : string -> bool) (base name : string) (counter : nat) : option string :=
  match fuel with
  | O => None
  | S fuel => if opens name then Some name else search fuel opens base (numbered base counter) (S counter)
  end.
Definition unique_name (fuel : nat) (opens : string -> bool) (file : string) : option string :=
  search fuel opens (base_name file) (base_name file) 1.

(** ** The program: 82-206 *)
(** what became of it: still looking for a name, or files written and an exception or none *)
Inductive outcome := Searching | Done (files : list (string * list Z)) (e : option exn).
(** a dictionary *)
Definition lookup (d : list (string * string)) (k : string) : res string :=
  match find (fun p => String.eqb (fst p) k) d with Some p => Ok (snd p) | None => Err KeyError end.
(** 89-91 model_file = {}, new_model_file = {} *)
Definition model_file : list (string * string) := [].
(** [elevation], [current]: whether the database has heights and currents of that name, when
    first asked and when asked again; [grid_file] its name; [reduced] the bytes of the reduced
    grid; [constituents k]: what becomes of reading, reducing and writing the files of key k,
    for a given name (146-165, 176-206) *)
Definition make_regional (fuel : nat) (opens : string -> bool) (elevation current elevation' current' : bool) (grid_file : string)
    (reduced : res (list Z)) (constituents : string -> string -> list (string * list Z) * option exn) : outcome :=
  if (elevation || current)%bool then
    match reduced with
    | Err e => Done [] (Some e)
    | Ok bytes =>
        match unique_name fuel opens grid_file with
        | None => Searching
        | Some name =>
            let grid := (name, bytes) in
            let heights := if elevation' then
                match lookup model_file "z" with Err e => ([], Some e) | Ok f => constituents "z" f end else ([], None) in
            match snd heights with
            | Some e => Done (grid :: fst heights) (Some e)
            | None =>
                let currents := if current' then
                    match lookup model_file "u" with Err e => ([], Some e) | Ok f => constituents "u" f end else ([], None) in
                Done (grid :: fst heights ++ fst currents) (snd currents)
            end
        end
    end
  else Done [] (Some FileNotFoundError).
