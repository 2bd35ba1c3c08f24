(** Vocabulary of the statements about OTIS grids (C65, C67, C68), independent of
    the model. *)
From Coq Require Import Reals List ZArith.
Import ListNotations.
Open Scope R_scope.

(** row j, column i of a two-dimensional array, and its shape *)
Definition entry {A} (d : A) (m : list (list A)) (j i : nat) : A := nth i (nth j m []) d.
Definition rect {A} (ny nx : nat) (m : list (list A)) : Prop :=
  length m = ny /\ forall r, In r m -> length r = nx.

(** the column to the west (around the globe, or none: itself) and the row to the south *)
Definition west (around : bool) (nx i : nat) : nat :=
  match i with O => if around then (nx - 1)%nat else O | S k => k end.
Definition south (j : nat) : nat := pred j.

(** evenly spaced axis *)
Definition evenly (x0 step : R) (n : nat) (l : list R) : Prop :=
  0 < step /\ length l = n /\ forall i, (i < n)%nat -> nth i l 0 = x0 + INR i * step.

(** the same longitude, in degrees *)
Definition same_longitude (a b : R) : Prop := exists k : Z, a = b + 360 * IZR k.

(** ** Nodes of the three kinds: heights at the centres of the cells, zonal transports
    at their western and meridional transports at their southern edges *)
Inductive kind := Heights | Zonal | Meridional.
Definition node_x (k : kind) (x0 dx : R) (i : Z) : R :=
  match k with Zonal => x0 + IZR i * dx - dx / 2 | _ => x0 + IZR i * dx end.
Definition node_y (k : kind) (y0 dy : R) (j : nat) : R :=
  match k with Meridional => y0 + INR j * dy - dy / 2 | _ => y0 + INR j * dy end.

(** depth of the water at a node, None on land: the centre of a cell is water if it has
    a depth and is not masked out, an edge if there is water on both sides of it *)
Definition water (h : nat -> nat -> R) (m : nat -> nat -> Z) (around : bool) (nx : nat) (k : kind) (j i : nat) : option R :=
  match k with
  | Heights => if Req_EM_T (h j i) 0 then None else if Z.eqb (m j i) 0 then None else Some (h j i)
  | Zonal => if Rlt_dec 0 (h j i) then if Rlt_dec 0 (h j (west around nx i)) then Some ((h j i + h j (west around nx i)) / 2) else None else None
  | Meridional => if Rlt_dec 0 (h j i) then if Rlt_dec 0 (h (south j) i) then Some ((h j i + h (south j) i) / 2) else None else None
  end.
(** the constant of a node: the value of the file, None on land and where the file has
    no value or zero *)
Definition tide (w : option R) (c : option (R * R) * bool) : option (R * R) :=
  match w, c with
  | Some _, (Some (a, b), false) => if Req_EM_T a 0 then if Req_EM_T b 0 then None else Some (a, b) else Some (a, b)
  | _, _ => None
  end.

(** the column of a node around the globe *)
Definition column (nx : nat) (i : Z) : nat := Z.to_nat (Z.modulo i (Z.of_nat nx)).

(** weighted mean of the values there are *)
Definition weight {V} (l : list (R * option V)) : R :=
  fold_right Rplus 0 (map (fun p => match snd p with Some _ => fst p | None => 0 end) l).
Definition total (l : list (R * option R)) : R :=
  fold_right Rplus 0 (map (fun p => match snd p with Some v => fst p * v | None => 0 end) l).
Definition mean (l : list (R * option R)) : option R :=
  if Req_EM_T (weight l) 0 then None else Some (total l / weight l).
Definition part {V} (f : V -> R) (l : list (R * option V)) : list (R * option R) := map (fun p => (fst p, option_map f (snd p))) l.

(** amplitude a and phase p in degrees (a lag, 0 to 360) of the complex constant z *)
Definition amplitude_phase (z : R * R) (a p : R) : Prop :=
  0 <= a /\ 0 <= p < 360 /\ fst z = a * cos (p * PI / 180) /\ snd z = - (a * sin (p * PI / 180)).

(** numpy's default tolerance *)
Definition close (a b : R) : Prop := Rabs (a - b) <= 1e-8 + 1e-5 * Rabs b.

(** the four nodes around a point (x, y) between columns i and i + 1 and rows j and
    j + 1, with the areas opposite to them as weights *)
Definition corners {V} (k : kind) (x0 dx y0 dy : R) (nx : nat) (x y : R) (i : Z) (j : nat) (f : nat -> nat -> option V) : list (R * option V) :=
  let x_w := node_x k x0 dx i in let x_e := node_x k x0 dx (i + 1) in
  let y_s := node_y k y0 dy j in let y_n := node_y k y0 dy (S j) in
  [((x_e - x) * (y_n - y), f j (column nx i)); ((x - x_w) * (y_n - y), f j (column nx (i + 1)));
   ((x_e - x) * (y - y_s), f (S j) (column nx i)); ((x - x_w) * (y - y_s), f (S j) (column nx (i + 1)))].
(** (x, y) lies in the cell of nodes starting at column i and row j *)
Definition between_nodes (k : kind) (x0 dx y0 dy : R) (x y : R) (i : Z) (j : nat) : Prop :=
  node_x k x0 dx i <= x < node_x k x0 dx (i + 1) /\ node_y k y0 dy j <= y < node_y k y0 dy (S j) /\ node_y k y0 dy 0 < y.
(** columns there are: around the globe there is one more on either side *)
Definition columns (around : bool) (nx : nat) (i : Z) : Prop :=
  if around then (-1 <= i <= Z.of_nat nx)%Z else (0 <= i < Z.of_nat nx)%Z.
(** the point is within tolerance of one of the four nodes *)
Definition at_node (k : kind) (x0 dx y0 dy : R) (x y : R) (i : Z) (j : nat) : Prop :=
  (close x (node_x k x0 dx i) \/ close x (node_x k x0 dx (i + 1))) /\
  (close y (node_y k y0 dy j) \/ close y (node_y k y0 dy (S j))).

(** what is returned for a constant: its amplitude (for velocities divided by the
    depth in hundreds) and phase; nothing if there is none *)
Definition returned (velocity : bool) (depth : option R) (z : option (R * R)) (out : option (R * R)) : Prop :=
  match z with
  | None => out = None
  | Some z => exists a p, amplitude_phase z a p /\
      out = Some (if velocity then match depth with Some d => a / (d / 100) | None => 0 end else a, p)
  end.
Definition both (a b : option R) : option (R * R) := match a, b with Some a, Some b => Some (a, b) | _, _ => None end.

(** every value that counts is there *)
Definition complete {V} (l : list (R * option V)) : Prop := forall p, In p l -> fst p <> 0 -> snd p <> None.
(** as tide, with zero taken as a value *)
Definition number (w : option R) (c : option (R * R) * bool) : option (R * R) :=
  match w, c with Some _, (z, false) => z | _, _ => None end.
(** v lies between a and b, below b unless b is the last *)
Definition bracket (last : Prop) (a b v : R) : Prop := a <= v < b \/ last /\ v = b /\ a < b.

(** the longitude at which a model from lo to hi is read for a point at x, one of the
    longitudes xs given together: unchanged in projected coordinates and if all of them
    are within the model; otherwise those west of Greenwich are taken 360 degrees east
    if one is west of the model, and those beyond 180 then taken 360 degrees west if one
    is still east of the model *)
Definition eastward (x : R) : R := if Rlt_dec x 0 then x + 360 else x.
Definition westward (x : R) : R := if Rlt_dec 180 x then x - 360 else x.
Inductive convention (geo : bool) (lo hi : R) (xs : list R) (x : R) : R -> Prop :=
| projected : geo = false -> convention geo lo hi xs x x
| as_given : geo = true -> (forall a, In a xs -> lo <= a <= hi) -> convention geo lo hi xs x x
| to_east : geo = true -> (exists a, In a xs /\ a < lo) -> (forall a, In a xs -> eastward a <= hi) -> convention geo lo hi xs x (eastward x)
| to_west : geo = true -> (forall a, In a xs -> lo <= a) -> (exists a, In a xs /\ hi < a) -> convention geo lo hi xs x (westward x)
| to_both : geo = true -> (exists a, In a xs /\ a < lo) -> (exists a, In a xs /\ hi < eastward a) -> convention geo lo hi xs x (westward (eastward x)).
(** within the model: around the globe one more column on either side *)
Definition reach (around : bool) (x0 dx : R) (nx : nat) (x : R) : Prop :=
  if around then x0 - dx <= x <= x0 + INR nx * dx else x0 <= x <= x0 + INR (nx - 1) * dx.
(** the first and the last of the columns there are *)
Definition first_column (around : bool) : Z := if around then (-1)%Z else 0%Z.
Definition last_column (around : bool) (nx : nat) : Z := if around then Z.of_nat nx else (Z.of_nat nx - 1)%Z.
