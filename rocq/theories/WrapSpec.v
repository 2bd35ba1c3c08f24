(** What the deprecated wrappers stand for, independently of how they are written. *)
From Coq Require Import String List Bool.
From Verif Require Import PyBase StrBase.
Import ListNotations.
Open Scope string_scope.

(** every one of these dotted names exists *)
Definition installed (package : string -> bool) (l : list string) : Prop := forall n, In n l -> package n = true.

(** a warning comes first: it is an exception where the user's filter makes it one *)
Definition unless {A} (strict : bool) (r : res A) : res A := if strict then Err OtherError else r.

(** functions of pyTMD/time.py *)
Definition of_one_argument : list (string * string) :=
  [ ("parse", "date_string"); ("parse_date_string", "date_string"); ("split_date_string", "date_string");
    ("datetime_to_list", "date"); ("calendar_days", "year") ].
Definition of_any_arguments : list string :=
  [ "convert_datetime"; "convert_delta_time"; "convert_calendar_dates"; "convert_calendar_decimal"; "convert_julian" ].
Definition functions_of_time : list string := (map fst of_one_argument ++ of_any_arguments)%list.

(** what pyTMD/time.py needs to be imported at all, and what its functions stand for *)
Definition needed_by_time : list string :=
  [ "logging"; "warnings"; "numpy"; "timescale.time"; "timescale.utilities"; "timescale.utilities.get_data_path";
    "timescale.time.Timescale" ].
Definition targets_of_time : list string := map (fun f => "timescale.time." ++ f) functions_of_time.

(** the same for pyTMD/eop.py *)
Definition needed_by_eop : list string :=
  [ "logging"; "warnings"; "timescale.eop"; "timescale.utilities"; "timescale.utilities.get_data_path" ].
Definition updates : list string := [ "update_mean_pole"; "calculate_mean_pole"; "update_finals_file" ].
Definition targets_of_eop : list string :=
  map (fun f => "timescale.eop." ++ f)
    ("pull_pole_coordinates" :: "iers_mean_pole" :: "iers_daily_EOP" :: "iers_polar_motion" :: updates).

(** the functions of pyTMD.compute by the name of the correction, in lower case *)
Definition by_name : list (string * string) :=
  [ ("ocean", "tide_elevations"); ("load", "tide_elevations"); ("lpet", "LPET_elevations"); ("lpt", "LPT_displacements");
    ("opt", "OPT_displacements"); ("set", "SET_displacements") ].
Definition needed_by_corrections : list string :=
  [ "warnings"; "numpy"; "pathlib"; "pyTMD.compute"; "pyTMD.compute.tide_masks"; "pyTMD.compute.tide_elevations";
    "pyTMD.compute.LPET_elevations"; "pyTMD.compute.LPT_displacements"; "pyTMD.compute.OPT_displacements";
    "pyTMD.compute.SET_displacements" ].
(** wrappers of a single function *)
Definition wrappers : list (string * string) :=
  [ ("compute_tide_corrections", "tide_elevations"); ("compute_LPET_corrections", "LPET_elevations");
    ("compute_LPT_corrections", "LPT_displacements"); ("compute_OPT_corrections", "OPT_displacements");
    ("compute_SET_corrections", "SET_displacements") ].

(** the submodules of the package: the files of /repo/pyTMD *)
Definition submodules : list string :=
  [ "arguments"; "astro"; "check_points"; "compute"; "compute_tide_corrections"; "crs"; "ellipse"; "eop"; "interpolate";
    "io"; "math"; "predict"; "solve"; "spatial"; "time"; "tools"; "utilities"; "version" ].
