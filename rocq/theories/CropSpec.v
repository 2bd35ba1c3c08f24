(** Vocabulary of the statements about cropped models (C83), independent of the model of
    the code. *)
From Coq Require Import Reals List ZArith.
From Verif Require Import ExtractSpec.
Import ListNotations.
Open Scope R_scope.

(** the first column that is nearest to a meridian *)
Definition closest_column (x0 dx : R) (nx : nat) (lon : R) (c : nat) : Prop :=
  (c < nx)%nat /\ forall k, (k < nx)%nat ->
    Rabs (x0 + INR c * dx - lon) <= Rabs (x0 + INR k * dx - lon) /\
    ((k < c)%nat -> Rabs (x0 + INR c * dx - lon) < Rabs (x0 + INR k * dx - lon)).
(** the columns of a model (x0, dx, nx) for bounds from lo to hi are columns f to
    f + nx - 1 of the columns repeated around the globe: f = 0 if the model has the
    longitudes of the bounds, otherwise the model is cut at the column next to 180 degrees
    (its eastern part is moved west), or next to 0 degrees (its western part is moved east) *)
Inductive window (x0 dx : R) (nx : nat) (lo hi : R) : Z -> Prop :=
| window_same : ~ (Rmin lo hi < 0 /\ 180 < x0 + INR (nx - 1) * dx) -> ~ (180 < Rmax lo hi /\ x0 < 0) ->
    window x0 dx nx lo hi 0
| window_west c : Rmin lo hi < 0 -> 180 < x0 + INR (nx - 1) * dx ->
    closest_column x0 dx nx 180 c -> (0 < c)%nat -> window x0 dx nx lo hi (Z.of_nat c - Z.of_nat nx)
| window_east c : ~ (Rmin lo hi < 0 /\ 180 < x0 + INR (nx - 1) * dx) -> 180 < Rmax lo hi -> x0 < 0 ->
    closest_column x0 dx nx 0 c -> (0 < c)%nat -> window x0 dx nx lo hi (Z.of_nat c).

(** the buffer around the bounds: four columns if none (or zero) is given *)
Definition margin (buffer : option R) (dx m : R) : Prop :=
  match buffer with
  | Some r => r <> 0 /\ m = r \/ r = 0 /\ m = 4 * dx
  | None => m = 4 * dx
  end.
(** the least and greatest coordinates of points *)
Definition extremes (xs : list R) (lo hi : R) : Prop := In lo xs /\ In hi xs /\ forall x, In x xs -> lo <= x <= hi.
(** a coordinate is kept *)
Definition stays (lo hi m x : R) : Prop := lo - m <= x <= hi + m.
(** the columns there are after the cropping: those of the window within the bounds; if
    all of a model around the globe are, also one before and some after *)
Definition available (lo hi m : R) (after : Z) (around : bool) (x0 dx : R) (nx : nat) (f i : Z) : Prop :=
  (f <= i < f + Z.of_nat nx)%Z /\ stays lo hi m (node_x Heights x0 dx i) \/
  around = true /\ stays lo hi m (node_x Heights x0 dx f) /\ stays lo hi m (node_x Heights x0 dx (f + Z.of_nat nx - 1)) /\
    (f - 1 <= i < f + Z.of_nat nx + after)%Z.
