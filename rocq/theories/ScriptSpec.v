(** What the programs computing corrections for a file are to work on, and what it means that they
    give what the library gives (used by C94). *)
From Coq Require Import Reals String List.
From Verif Require Import PyBase StrBase ComputeModel ScriptModel.
From Verif Require CrsModel CrsSpec.
Import ListNotations.
Open Scope R_scope.

(** the formats by name *)
Definition formats : list (string * format) :=
  [("csv", Csv); ("netCDF4", NetCDF); ("HDF5", HDF5); ("GTiff", Tiff); ("cog", Tiff); ("parquet", Parquet)]%string.

(** the variable of a dictionary *)
Definition entry (k : string) (l : list (string * list R)) (v : list R) : Prop :=
  exists before later, l = (before ++ (k, v) :: later)%list /\ ~ In k (map fst before).

Section Spec.
  Context {D C P E : Type} (lib : CrsModel.pyproj D C P).
  Variable parse_units : string -> res (E * R).

  (** the system of the coordinates: the one of the file if it can be made, else the argument *)
  Definition unreadable (g : CrsModel.given D) : Prop := Forall CrsSpec.refused (CrsSpec.attempts lib g).
  Definition system (attribute : option (CrsModel.given D)) (PROJECTION : CrsModel.given D) (c : C) : Prop :=
    (exists a, attribute = Some a /\ CrsSpec.resolves lib a c)
    \/ ((forall a, attribute = Some a -> unreadable a) /\ CrsSpec.resolves lib PROJECTION c).

  (** epoch and number of seconds of the unit of time: of the file if it can be read, else the argument *)
  Definition unit_of_time (attribute : option string) (TIME_UNITS : string) (e : E) (s : R) : Prop :=
    (exists a, attribute = Some a /\ parse_units a = Ok (e, s))
    \/ ((forall a, attribute = Some a -> exists x, parse_units a = Err x /\ In x [TypeError; KeyError; ValueError])
        /\ parse_units TIME_UNITS = Ok (e, s)).

  (** the work: coordinates [xs] and [ys] in system [c], times [ts] in the unit of [s] seconds since [e] *)
  Definition work (reader : format -> list string -> res (input (D := D))) (q : arguments (D := D))
      (c : C) (e : E) (s : R) (xs ys ts : list R) : Prop :=
    exists f i, In (FORMAT q, f) formats /\ reader f (VARIABLES q) = Ok i
      /\ system (i_projection i) (PROJECTION q) c /\ unit_of_time (i_units i) (TIME_UNITS q) e s
      /\ entry "x"%string (i_vars i) xs /\ entry "y"%string (i_vars i) ys
      /\ match TIME q with Some t => ts = t | None => entry "time"%string (i_vars i) ts end.
End Spec.

Section Agreement.
  Context {E : Type}.
  Variable place : R * R -> R * R.
  Variable clock : E -> string -> R -> stamp.
  Variable dates : R -> stamp.
  (** the time of the library: seconds since an epoch, or dates *)
  Definition library_clock (e : E) (STANDARD : string) (t : R) : stamp :=
    if String.eqb (lower STANDARD) "datetime" then dates t else clock e STANDARD t.
  Definition library_times (s : R) (STANDARD : string) (ts : list R) : list R :=
    if String.eqb (lower STANDARD) "datetime" then ts else map (fun t => s * t) ts.

  Definition library_time (s : R) (STANDARD : string) (t : R) : R :=
    if String.eqb (lower STANDARD) "datetime" then t else s * t.

  (** the lines of a file for a track: time, latitude, longitude and value of each point *)
  Definition track_lines {A} (e : E) (s : R) (STANDARD : string) (f : R -> R -> R -> A) (pts : list (R * R * R))
    : list (stamp * R * R * A) :=
    map (fun p => let '(x, y, t) := p in
      (library_clock e STANDARD (library_time s STANDARD t), snd (place (x, y)), fst (place (x, y)), f x y (library_time s STANDARD t))) pts.

  (** the values of the library are written with the coordinates and times *)
  Definition with_values {A} (p : out (R * R)) (sts : list stamp) (r : res (out A)) : res (written A) :=
    match r with Ok v => Ok (Written p sts v) | Err e => Err e end.

  Definition with_components {A} (p : out (R * R)) (sts : list stamp) (r : res (list (string * out A))) : res (list (string * written A)) :=
    match r with Ok l => Ok (map (fun c => (fst c, Written p sts (snd c))) l) | Err e => Err e end.

  Section Kind.
    Context {X Y : Type} (annotate : out (R * R) -> list stamp -> res X -> res Y).
    (** what is written for a type: the library's result for the same arrays, a grid being that of
        its two axes whether or not they have the same length *)
    Definition same_track (result : res Y) (library : option string -> coords -> coords -> list R -> res X)
        (sts : list stamp) (xs ys t : list R) : Prop :=
      List.length xs = List.length ys ->
      result = annotate (A1 (map place (combine xs ys))) sts (library (Some "drift"%string) (C1 xs) (C1 ys) t).
    Definition same_stations (result : res Y) (library : option string -> coords -> coords -> list R -> res X)
        (sts : list stamp) (xs ys t : list R) : Prop :=
      List.length xs = List.length ys ->
      result = annotate (A1 (map place (combine xs ys))) sts (library (Some "time series"%string) (C1 xs) (C1 ys) t).
    Definition same_grid (result : res Y) (library : option string -> coords -> coords -> list R -> res X)
        (sts : list stamp) (xs ys t : list R) : Prop :=
      ys <> [] ->
      result = annotate (A2 (map (fun y => map (fun x => place (x, y)) xs) ys)) sts
        (library (Some "grid"%string) (C2 (map (fun _ => xs) ys)) (C2 (map (fun y => map (fun _ => y) xs) ys)) t).
    Definition same (TYPE : string) (result : res Y) (library : option string -> coords -> coords -> list R -> res X)
        (sts : list stamp) (xs ys t : list R) : Prop :=
      (TYPE = "drift"%string -> same_track result library sts xs ys t)
      /\ (TYPE = "time series"%string -> same_stations result library sts xs ys t)
      /\ (TYPE = "grid"%string -> same_grid result library sts xs ys t).
  End Kind.
End Agreement.
