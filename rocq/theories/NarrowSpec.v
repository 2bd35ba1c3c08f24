(** Vocabulary of the statements about cropped OTIS models (C86), independent of the model
    of the code. *)
From Coq Require Import Reals List ZArith.
From Verif Require Import ExtractSpec CropSpec.
Import ListNotations.
Open Scope R_scope.

(** the columns of a model for bounds from lo to hi start at column f: geographic models
    are brought to the longitudes of the bounds *)
Definition frame (geo : bool) (x0 dx : R) (nx : nat) (lo hi : R) (f : Z) : Prop :=
  geo = false /\ f = 0%Z \/ geo = true /\ window x0 dx nx lo hi f.
(** columns a to a + na - 1 are those of columns f to f + nx - 1 within the bounds, rows c
    to c + nr - 1 those of rows 0 to ny - 1 within the bounds *)
Definition columns_kept (x0 dx : R) (nx : nat) (lo hi m : R) (f a : Z) (na : nat) : Prop :=
  (f <= a)%Z /\ (a + Z.of_nat na <= f + Z.of_nat nx)%Z /\
  forall i, (f <= i < f + Z.of_nat nx)%Z -> (a <= i < a + Z.of_nat na)%Z <-> stays lo hi m (node_x Heights x0 dx i).
Definition rows_kept (y0 dy : R) (ny : nat) (lo hi m : R) (c nr : nat) : Prop :=
  (c + nr <= ny)%nat /\ forall j, (j < ny)%nat -> (c <= j < c + nr)%nat <-> stays lo hi m (node_y Heights y0 dy j).
(** the array m' has the rows and columns kept of the array m *)
Definition block {A} (d : A) (nx : nat) (a : Z) (na c nr : nat) (m m' : list (list A)) : Prop :=
  rect nr na m' /\ forall j i, (j < nr)%nat -> (i < na)%nat -> entry d m' j i = entry d m (c + j) (column nx (a + Z.of_nat i)).
(** a column (row) stays, but the edge at which its zonal (meridional) transport is given
    lies outside of the bounds: half a step before the column (row) *)
Definition column_lost (x0 dx : R) (nx : nat) (lo hi m : R) : Prop :=
  exists i, (0 <= i < Z.of_nat nx)%Z /\ stays lo hi m (node_x Heights x0 dx i) /\ node_x Zonal x0 dx i < lo - m.
Definition row_lost (y0 dy : R) (ny : nat) (lo hi m : R) : Prop :=
  exists j, (j < ny)%nat /\ stays lo hi m (node_y Heights y0 dy j) /\ node_y Meridional y0 dy j < lo - m.
(** the longitude at which the cropped model, which ends at hi, is read for a point at x, one
    of the longitudes xs given together *)
Inductive settled (geo : bool) (hi : R) (xs : list R) (x : R) : R -> Prop :=
| settled_same : geo = false \/ (forall a, In a xs -> a <= hi) -> settled geo hi xs x x
| settled_west : geo = true -> (exists a, In a xs /\ hi < a) -> settled geo hi xs x (westward x).
