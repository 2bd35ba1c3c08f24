(** Vocabulary of the statements about the combination of ATLAS solutions (C66). *)
From Coq Require Import Reals List ZArith.
From Verif Require Import ExtractSpec.
Import ListNotations.
Open Scope R_scope.

(** two arc minutes *)
Definition arc2 : R := 1 / 30.
(** the whole number of spacings at or below a coordinate *)
Definition spacings (x : R) (a : Z) : Prop := IZR a * arc2 <= x < (IZR a + 1) * arc2.
(** the rows and columns of the combined grid *)
Definition nlat : nat := 180 * 30.
Definition nlon : nat := 360 * 30.
(** row r and column k of a local solution whose limits start at lon and lat is put in
    row j and column i of the global grid (360 times 30 columns from 0 to 360, 180 times
    30 rows from -90 to 90): the cell half a spacing west and south of its coordinates,
    around the globe *)
Definition lies (lon lat : R) (r k j i : nat) : Prop :=
  exists a b c : Z, spacings lon a /\ spacings lat b /\
    (Z.of_nat i + 1 = a + Z.of_nat k + 10800 * c)%Z /\ (Z.of_nat j + 1 = b + Z.of_nat r + 2700)%Z.
(** the coordinates of a local solution of ny rows and nx columns are on the globe,
    longitudes beyond -360 up to 360 and latitudes north of the pole, and go around it at most once *)
Definition on_globe (lon lat : R) (ny nx : nat) : Prop :=
  exists a b : Z, spacings lon a /\ spacings lat b /\ (Z.of_nat nx <= 10800)%Z /\
    (-10800 < a)%Z /\ (a + Z.of_nat nx <= 10801)%Z /\ (-2700 < b)%Z /\ (b + Z.of_nat ny <= 2701)%Z.
(** bilinear interpolation between four values *)
Definition bilinear4 (t s z00 z01 z10 z11 : R) : R :=
  (1 - t) * (1 - s) * z00 + t * (1 - s) * z01 + (1 - t) * s * z10 + t * s * z11.
Definition nearest_within (lo hi x : R) : R := Rmax lo (Rmin hi x).
