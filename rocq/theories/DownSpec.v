(** What downloading a tide model should do, without reference to how the
    programs do it. *)
From Coq Require Import String Ascii Reals List ZArith.
Import ListNotations.
Open Scope string_scope.

Definition chars (s : string) : list ascii := list_ascii_of_string s.

(** [pre] is empty or ends with a slash: what comes before the last component *)
Definition folder (pre : list ascii) : Prop :=
  pre = [] \/ exists q, pre = (q ++ ["/"%char])%list.

(** [b] is the last component of [name] *)
Definition last_component (name b : list ascii) : Prop :=
  exists pre, name = (pre ++ b)%list /\ folder pre /\ ~ In "/"%char b.

(** [e], with its dot, is the extension of [name]: the last dot of the last
    component and what follows, unless only dots come before *)
Definition extension (name e : list ascii) : Prop :=
  exists stem w, last_component name (stem ++ e)%list /\ e = "."%char :: w /\
    ~ In "."%char w /\ exists c, In c stem /\ c <> "."%char.

(** a file of time [t0] is out of date for one of time [t]: an even number of
    seconds lies between them *)
Definition stale (t0 t : R) : Prop := exists n : Z, (t0 < IZR (2 * n) <= t)%R.

(** the name of the file that the contents of [name] go to: with [GZIP] the
    listed extensions get another one *)
Definition stored_as (exts : list (list ascii)) (GZIP : bool) (ext_of name out : list ascii)
  : Prop :=
  (GZIP = true /\ (exists e, In e exts /\ extension ext_of e) /\
   out = (name ++ chars ".gz")%list) \/
  ((GZIP = false \/ forall e, In e exts -> ~ extension ext_of e) /\ out = name).

(** the members that gsfc_got_tides.py passes over *)
Definition passed_over (FORMAT : string) (name : list ascii) : Prop :=
  (extension name (chars ".nc") /\ FORMAT = "ascii") \/
  (extension name (chars ".d") /\ FORMAT = "netcdf") \/
  exists c rest, c <> "010"%char /\
    (last_component name (c :: "D" :: "S" :: rest)%char \/
     last_component name (c :: "_" :: rest)%char).

(** a component of a path that names an entry of its directory *)
Definition plain (c : list ascii) : Prop :=
  c <> [] /\ c <> chars "." /\ c <> chars ".." /\ ~ In "/"%char c.
(** components separated by slashes *)
Fixpoint joined (cs : list (list ascii)) : list ascii :=
  match cs with
  | [] => []
  | [c] => c
  | c :: cs => (c ++ "/"%char :: joined cs)%list
  end.

(** the files of the FES models on the host, and the option each needs *)
Inductive option_of := Always | OfLoad | OfCurrents.
Definition catalogue : list (string * option_of * list string) :=
  [ ("FES1999", Always, ["fes1999_fes2004"; "readme_fes1999.html"]);
    ("FES1999", Always, ["fes1999_fes2004"; "fes1999.tar.gz"]);
    ("FES2004", Always, ["fes1999_fes2004"; "readme_fes2004.html"]);
    ("FES2004", Always, ["fes1999_fes2004"; "fes2004.tar.gz"]);
    ("FES2012", Always, ["fes2012_heights"; "readme_fes2012_heights_v1.1"]);
    ("FES2012", Always, ["fes2012_heights"; "fes2012_heights_v1.1.tar.lzma"]);
    ("FES2012", OfCurrents, ["fes2012_currents"; "readme_fes2012_currents_v1.1"]);
    ("FES2012", OfCurrents, ["fes2012_currents"; "fes2012_currents_v1.1_block1.tar.lzma"]);
    ("FES2012", OfCurrents, ["fes2012_currents"; "fes2012_currents_v1.1_block2.tar.lzma"]);
    ("FES2012", OfCurrents, ["fes2012_currents"; "fes2012_currents_v1.1_block3.tar.lzma"]);
    ("FES2012", OfCurrents, ["fes2012_currents"; "fes2012_currents_v1.1_block4.tar.lzma"]);
    ("FES2014", Always, ["fes2014_elevations_and_load"; "readme_fes2014_elevation_and_load_v1.2.txt"]);
    ("FES2014", Always, ["fes2014_elevations_and_load"; "fes2014b_elevations"; "ocean_tide.tar.xz"]);
    ("FES2014", OfLoad, ["fes2014_elevations_and_load"; "fes2014a_loadtide"; "load_tide.tar.xz"]);
    ("FES2014", OfCurrents, ["fes2014a_currents"; "readme_fes2014_currents_v1.2.txt"]);
    ("FES2014", OfCurrents, ["fes2014a_currents"; "eastward_velocity.tar.xz"]);
    ("FES2014", OfCurrents, ["fes2014a_currents"; "northward_velocity.tar.xz"]) ].
Definition asked (o : option_of) (LOAD CURRENTS : bool) : Prop :=
  match o with Always => True | OfLoad => LOAD = true | OfCurrents => CURRENTS = true end.
Definition fes_file (MODEL : string) (LOAD CURRENTS : bool) (remote : list string) : Prop :=
  exists o, In (MODEL, o, remote) catalogue /\ asked o LOAD CURRENTS.

(** the way to read a file, by the end of its name: a tar file with its
    compression, or no tar file *)
Definition ends (w s : string) : Prop := exists u, s = u ++ w.
Definition suits (mode : option string) (name : string) : Prop :=
  match mode with
  | Some m => (ends ".tar.gz" name /\ m = "r:gz") \/
              (ends ".tar.lzma" name /\ m = "r:xz") \/ (ends ".tar.xz" name /\ m = "r")
  | None => ~ ends ".gz" name /\ ~ ends ".lzma" name /\ ~ ends ".xz" name
  end.
(** the tar files whose members all go to one directory *)
Definition one_directory (remote : list string) : Prop :=
  In (last remote "") ["fes1999.tar.gz"; "fes2004.tar.gz"; "fes2012_heights_v1.1.tar.lzma"].
