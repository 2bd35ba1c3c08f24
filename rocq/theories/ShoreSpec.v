(** Vocabulary of the statements about extrapolation (C84), independent of the model of
    the code. *)
From Coq Require Import Reals List ZArith.
Import ListNotations.
Open Scope R_scope.

(** the point of WGS84 at a longitude and latitude (degrees), in kilometres *)
Definition wgs84_a : R := 6378.137.
Definition wgs84_e2 : R := let f := 1 / 298.257223563 in f * (2 - f).
Definition on_globe (p : R * R) : R * R * R :=
  let lon := fst p * (PI / 180) in let lat := snd p * (PI / 180) in
  let n := wgs84_a / sqrt (1 - wgs84_e2 * sin lat ^ 2) in
  (n * cos lat * cos lon, n * cos lat * sin lon, n * (1 - wgs84_e2) * sin lat).
(** the length of the straight line between two points *)
Definition chord (p q : R * R) : R :=
  let '(x1, y1, z1) := on_globe p in let '(x2, y2, z2) := on_globe q in
  sqrt ((x1 - x2) ^ 2 + (y1 - y2) ^ 2 + (z1 - z2) ^ 2).
(** a distance is less than the cutoff; None is infinity *)
Definition nearer_than (cutoff : option R) (d : R) : Prop := match cutoff with Some c => d < c | None => True end.
(** of the valid nodes of a grid (x0, dx, nx, y0, dy, ny) with constants z, the one in
    column i and row j is within the cutoff of p and none is nearer to it *)
Definition node_at (x0 dx y0 dy : R) (j i : nat) : R * R := (x0 + INR i * dx, y0 + INR j * dy).
Definition nearby (cutoff : option R) (x0 dx : R) (nx : nat) (y0 dy : R) (ny : nat) (z : nat -> nat -> option (R * R)) (p : R * R) (j i : nat) : Prop :=
  (j < ny)%nat /\ (i < nx)%nat /\ z j i <> None /\ nearer_than cutoff (chord p (node_at x0 dx y0 dy j i)).
Definition nearest_valid (cutoff : option R) (x0 dx : R) (nx : nat) (y0 dy : R) (ny : nat) (z : nat -> nat -> option (R * R)) (p : R * R) (j i : nat) : Prop :=
  nearby cutoff x0 dx nx y0 dy ny z p j i /\
  forall j' i', nearby cutoff x0 dx nx y0 dy ny z p j' i' -> chord p (node_at x0 dx y0 dy j i) <= chord p (node_at x0 dx y0 dy j' i').
(** the same for the nodes of a model that are kept, with columns counted around the globe *)
Definition nearby_kept (kept : nat -> Z -> Prop) (cutoff : option R) (x0 dx y0 dy : R) (z : nat -> Z -> option (R * R)) (p : R * R) (j : nat) (i : Z) : Prop :=
  kept j i /\ z j i <> None /\ nearer_than cutoff (chord p (x0 + IZR i * dx, y0 + INR j * dy)).
Definition nearest_kept (kept : nat -> Z -> Prop) (cutoff : option R) (x0 dx y0 dy : R) (z : nat -> Z -> option (R * R)) (p : R * R) (j : nat) (i : Z) : Prop :=
  nearby_kept kept cutoff x0 dx y0 dy z p j i /\
  forall j' i', nearby_kept kept cutoff x0 dx y0 dy z p j' i' -> chord p (x0 + IZR i * dx, y0 + INR j * dy) <= chord p (x0 + IZR i' * dx, y0 + INR j' * dy).
