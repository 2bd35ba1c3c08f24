(** Specification data for the datum class: published ellipsoids
    (semi-major axis in metres, inverse flattening). *)
From Coq Require Import Reals String List.
Import ListNotations.
Open Scope R_scope.

Definition published : list (string * R * R) :=
  [ ("CLK66", 6378206.4, 294.9786982); ("NAD27", 6378206.4, 294.9786982);
    ("GRS67", 6378160, 298.247167427);
    ("GRS80", 6378137, 298.257222101); ("NAD83", 6378137, 298.257222101);
    ("WGS72", 6378135, 298.26); ("WGS84", 6378137, 298.257223563);
    ("ATS77", 6378135, 298.257); ("INTER", 6378388, 297);
    ("KRASS", 6378245, 298.3); ("MAIRY", 6377340.189, 299.3249646);
    ("HGH80", 6378273, 298.279411123064); ("TOPEX", 6378136.3, 298.257);
    ("EGM96", 6378136.3, 298.256415099); ("IERS", 6378136.6, 298.25642) ]%string.
