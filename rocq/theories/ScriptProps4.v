(** C94: cases. *)
From Coq Require Import Reals String List Bool ZArith Arith Lia Lra.
From Verif Require Import PyBase RBase StrBase MathModel AstroModel GeoModel DatumModel EarthModel
  PredictModel InferModel UtilModel ComputeModel ComputeSpec ScriptModel ScriptSpec ScriptProps ScriptProps2 ScriptProps3.
From Verif Require CrsModel CrsSpec CrsProofs.
Import ListNotations.
Open Scope R_scope.

(** a pyproj that knows two codes and refuses every text *)
Definition codes : CrsModel.pyproj unit Z unit :=
  CrsModel.Pyproj unit Z unit
    (fun g => match g with CrsModel.GInt z => if (z =? 4326)%Z || (z =? 3031)%Z then CrsModel.Good z else CrsModel.Bad CrsModel.CrsFault
              | _ => CrsModel.Bad CrsModel.CrsFault end)
    (fun z => if (z =? 4326)%Z || (z =? 3031)%Z then CrsModel.Good z else CrsModel.Bad CrsModel.CrsFault)
    (fun _ => CrsModel.Bad CrsModel.CrsFault) (fun _ => None) (fun _ => ""%string) (fun _ => true)
    (fun _ _ => CrsModel.Good tt) (fun _ _ _ p => CrsModel.Good p).
Definition shift (c : Z) (p : R * R) : R * R := if (c =? 4326)%Z then p else (fst p / 1000, snd p / 1000).
(** days or hours *)
Definition units_of (s : string) : res (unit * R) :=
  if String.eqb s "days since 1992-01-01" then Ok (tt, 86400) else if String.eqb s "hours since 1992-01-01" then Ok (tt, 3600) else Err ValueError.
Definition utc (_ : unit) (_ : string) (t : R) : stamp := Stamp (t / 86400) 0.0007 (48622 + t / 86400).
Definition dated (t : R) : stamp := Stamp t 0.0007 (48622 + t).
(** a file with the projection as a text that cannot be read, and hours *)
Definition file (_ : format) (V : list string) : res (input (D := unit)) :=
  Ok (Input (combine V [[0; 6; 12]; [-70; -71; -72]; [10; 11; 12]; [1; 2; 3]])
        (Some (CrsModel.GStr "polar")) (Some "hours since 1992-01-01"%string)).
Definition request (T : string) (V : list string) (time : option (list R)) : arguments (D := unit) :=
  Arguments_ "csv" V T "days since 1992-01-01" time "UTC" (CrsModel.GInt 3031).
Definition named : list string := ["time"; "y"; "x"; "data"]%string.

Lemma polar_unreadable : unreadable codes (CrsModel.GStr "polar").
Proof. unfold unreadable, CrsSpec.attempts. repeat (apply Forall_cons; [unfold CrsSpec.refused; cbn; auto|]). apply Forall_nil. Qed.
Lemma argument_resolves : CrsSpec.resolves codes (CrsModel.GInt 3031) 3031%Z.
Proof. apply CrsProofs.resolves_iff. reflexivity. Qed.

(** the hypotheses hold of the file: the projection of the argument, hours of the file *)
Example C94_work T : work codes units_of file (request T named None) 3031%Z tt 3600 [10; 11; 12] [-70; -71; -72] [0; 6; 12].
Proof.
  exists Csv. eexists. split; [left; reflexivity|]. split; [reflexivity|]. cbn [i_projection i_units i_vars PROJECTION TIME_UNITS TIME request].
  split. { right. split; [|exact argument_resolves]. intros a H. injection H as <-. exact polar_unreadable. }
  split. { left. eexists. split; reflexivity. }
  split. { exists [("time"%string, [0; 6; 12]); ("y"%string, [-70; -71; -72])]. eexists. split; [reflexivity|]. cbn. intuition discriminate. }
  split. { exists [("time"%string, [0; 6; 12])]. eexists. split; [reflexivity|]. cbn. intuition discriminate. }
  exists []. eexists. split; [reflexivity|]. intros [].
Qed.

(** a track: three lines, of times in hours *)
Example C94_lines_case : exists f w,
  equilibrium_script codes shift units_of utc dated file (request "drift" named None) = Ok w
  /\ csv_lines w = Ok [(Stamp (3600 * 0 / 86400) 0.0007 (48622 + 3600 * 0 / 86400), -70 / 1000, 10 / 1000, f 10 (-70) (3600 * 0));
                       (Stamp (3600 * 6 / 86400) 0.0007 (48622 + 3600 * 6 / 86400), -71 / 1000, 11 / 1000, f 11 (-71) (3600 * 6));
                       (Stamp (3600 * 12 / 86400) 0.0007 (48622 + 3600 * 12 / 86400), -72 / 1000, 12 / 1000, f 12 (-72) (3600 * 12))].
Proof.
  destruct (C94_csv_lines codes shift units_of utc dated file (fun _ _ _ => Pole 0 0 0 0) (fun _ _ => ((0, 0), (0, 0), (0, 0)))
    (fun _ _ => Vec 1 0 0) (fun _ _ => Vec 0 1 0) 3031%Z tt "UTC" "WGS84" "2018" "spline" "tide_free" "approximate") as ((f & F) & _);
    try (cbn; tauto).
  destruct (F (request "drift" named None) 3600 [(10, -70, 0); (11, -71, 6); (12, -72, 12)] (C94_work "drift") eq_refl eq_refl) as (w & W1 & W2); [discriminate|].
  exists f, w. split; [exact W1|]. rewrite W2. reflexivity.
Qed.

(** a grid of solid earth tides fails *)
Example C94_grid_case :
  solid_earth_script codes shift units_of utc dated file (fun _ _ => Vec 1 0 0) (fun _ _ => Vec 0 1 0) "WGS84" "tide_free" "approximate" (request "grid" named None)
  = Err ValueError.
Proof.
  apply (C94_solid_earth_grid_refuted codes shift units_of utc dated file _ _ _ _ _ _ _ _ _ (C94_work "grid")).
  - apply mem_str_In. reflexivity.
  - reflexivity.
  - cbn. intros [H _]. discriminate H.
Qed.

(** the names of columns used when none are given, and a spelling of the type *)
Example C94_columns_case :
  equilibrium_script codes shift units_of utc dated file (request "drift" ["time"; "lat"; "lon"; "data"]%string None) = Err KeyError
  /\ equilibrium_script codes shift units_of utc dated file (request "Drift" named None) = Err NameError
  /\ equilibrium_script codes shift units_of utc dated file (request "track" named None) = Err AssertionError.
Proof. repeat split. Qed.

(** a time of two days given as argument with its unit is taken for two hours *)
Example C94_unit_case : exists w,
  equilibrium_script codes shift units_of utc dated file (request "time series" named (Some [2])) = Ok w
  /\ map st_tide (w_times w) = [3600 * 2 / 86400].
Proof.
  eexists. split; [reflexivity|reflexivity].
Qed.
