(** Longitudes and decimals, independently of how the map computes them. *)
From Coq Require Import Reals String List Bool ZArith.
Import ListNotations.
Open Scope R_scope.

(** the same meridian *)
Definition same_meridian (a b : R) : Prop := exists k : Z, b = a + 360 * IZR k.
(** half a unit of the eighth decimal *)
Definition half_unit : R := 5 / 1000000000.
(** a number of units of 1e-8 that is nearest to x *)
Definition nearest (z : Z) (x : R) : Prop := Rabs (IZR z / 100000000 - x) <= half_unit.

(** names of coordinate systems, and which controls are shown in which order *)
Definition systems : list (string * string) :=
  [("Global", "EPSG:3857"); ("North", "EPSG:5936"); ("South", "EPSG:3031")]%string.
Definition chosen (l : list (bool * string)) : list string := map snd (filter fst l).
