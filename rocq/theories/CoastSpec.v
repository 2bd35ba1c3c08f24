(** Vocabulary of the statements about extrapolation for OTIS models (C85), independent of
    the model of the code. *)
From Coq Require Import Reals List ZArith.
From Verif Require Import ExtractSpec ShoreSpec.
Import ListNotations.
Open Scope R_scope.

(** the distance by which nodes are compared: the straight line between points of the
    ellipsoid in geographic coordinates, the distance in the plane in projected ones *)
Definition apart (geo : bool) (p q : R * R) : R :=
  if geo then chord p q else sqrt ((fst p - fst q) ^ 2 + (snd p - snd q) ^ 2).
(** the place of the node of kind k in column i and row j *)
Definition node_of (k : kind) (x0 dx y0 dy : R) (j i : nat) : R * R := (node_x k x0 dx (Z.of_nat i), node_y k y0 dy j).
(** of the nodes with a constant z, the one in column i and row j is within the cutoff of
    p and none is nearer to it *)
Definition close_node (geo : bool) (cutoff : option R) (k : kind) (x0 dx : R) (nx : nat) (y0 dy : R) (ny : nat) (z : nat -> nat -> option (R * R)) (p : R * R) (j i : nat) : Prop :=
  (j < ny)%nat /\ (i < nx)%nat /\ z j i <> None /\ nearer_than cutoff (apart geo p (node_of k x0 dx y0 dy j i)).
Definition closest_node (geo : bool) (cutoff : option R) (k : kind) (x0 dx : R) (nx : nat) (y0 dy : R) (ny : nat) (z : nat -> nat -> option (R * R)) (p : R * R) (j i : nat) : Prop :=
  close_node geo cutoff k x0 dx nx y0 dy ny z p j i /\
  forall j' i', close_node geo cutoff k x0 dx nx y0 dy ny z p j' i' -> apart geo p (node_of k x0 dx y0 dy j i) <= apart geo p (node_of k x0 dx y0 dy j' i').
(** outside of the model: around the globe there is one more column on either side *)
Definition off_grid (around : bool) (x0 dx : R) (nx : nat) (y0 dy : R) (ny : nat) (x y : R) : Prop :=
  ~ reach around x0 dx nx x \/ ~ (y0 <= y <= y0 + INR (ny - 1) * dy).
(** what is returned for the constant of a node: for velocities the transport is divided by
    the depth at the point in hundreds if there is one and left as it is otherwise *)
Definition fetched (velocity : bool) (depth : option R) (z : option (R * R)) (out : option (R * R)) : Prop :=
  exists v a p, z = Some v /\ amplitude_phase v a p /\
    out = Some (if velocity then match depth with Some d => a / (d / 100) | None => a end else a, p).
