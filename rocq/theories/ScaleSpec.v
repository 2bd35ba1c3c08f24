(** Specification of the polar stereographic scale (Snyder 1982): the distance
    distortion at latitude [lat] of the projection that is true at [ref]. *)
From Coq Require Import Reals.
From Verif Require Import GeoSpec.
Open Scope R_scope.

(** first eccentricity *)
Definition ecc_of (f : R) : R := sqrt (2 * f - f ^ 2).
(** radius of the parallel of latitude of the unit ellipsoid *)
Definition parallel_radius (f phi : R) : R := cos phi / sqrt (1 - (2 * f - f ^ 2) * sin phi ^ 2).
(** radius of curvature of its meridian *)
Definition meridian_radius (f phi : R) : R :=
  (1 - (2 * f - f ^ 2)) / (sqrt (1 - (2 * f - f ^ 2) * sin phi ^ 2)) ^ 3.
