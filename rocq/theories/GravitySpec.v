(** The normal gravity field of a level ellipsoid, what C24 and C25 mean.  No
    function of the code is used here.

    Ellipsoidal coordinates: [u] is the semi-minor axis of the confocal ellipsoid
    through the point, [s] the sine of the reduced latitude and [E] the linear
    eccentricity: the point is at distance sqrt((u^2+E^2)(1-s^2)) from the axis and
    at height [u s]. *)
From Coq Require Import Reals.
Open Scope R_scope.

(** Laplace's equation for potentials that do not depend on the longitude:
    d/du ((u^2+E^2) dV/du) + d/ds ((1-s^2) dV/ds) = 0 *)
Definition harmonic (E : R) (V Vu : R -> R -> R) : Prop :=
  exists Vs A : R -> R -> R, forall u s, 0 < u -> -1 <= s <= 1 ->
    derivable_pt_lim (fun u => V u s) u (Vu u s) /\
    derivable_pt_lim (fun s => V u s) s (Vs u s) /\
    derivable_pt_lim (fun u => (u ^ 2 + E ^ 2) * Vu u s) u (A u s) /\
    derivable_pt_lim (fun s => (1 - s ^ 2) * Vs u s) s (- A u s).
(** Potential of the centrifugal force *)
Definition centrifugal (omega E u s : R) : R := omega ^ 2 / 2 * ((u ^ 2 + E ^ 2) * (1 - s ^ 2)).
Definition tends (f : R -> R) (l : R) : Prop :=
  forall eps, 0 < eps -> exists Z, forall z, Z < z -> Rabs (f z - l) < eps.

(** Normal gravity at geodetic latitude [phi] (Somigliana), from gravity at the
    equator and at the pole *)
Definition somigliana (a f ga gb phi : R) : R :=
  let b := (1 - f) * a in
  (a * ga * cos phi ^ 2 + b * gb * sin phi ^ 2) / sqrt (a ^ 2 * cos phi ^ 2 + b ^ 2 * sin phi ^ 2).
