(** The deprecated wrappers: pyTMD/time.py, pyTMD/eop.py, pyTMD/check_points.py,
    pyTMD/compute_tide_corrections.py, and the names of the package after pyTMD/__init__.py:14-44.

    A module is modelled as the list of its statements that bind names, and run in order; a function
    looks its global names up when it is called, not when it is defined.  What other packages hold is
    a parameter [package] from dotted names to whether they exist, what their functions do a parameter
    [behave].  Docstrings, __all__, annotations and the constants of time.py:72-94, 173-175 and of
    eop.py:154 are left out: none of them binds a name a wrapper uses. *)
From Coq Require Import String Ascii List Bool.
From Verif Require Import PyBase StrBase.
Import ListNotations.
Open Scope string_scope.

(** arguments of a call: positional ones, and named ones *)
Record args (A : Type) := Args { positional : list A; named : list (string * A) }.
Arguments Args {A}. Arguments positional {A}. Arguments named {A}.

(** which arguments a wrapper takes and passes on *)
Inductive signature :=
| Anything                   (* def f( *args, **kwargs): g( *args, **kwargs) *)
| NamedOnly                  (* def f( **kwargs): g( **kwargs) *)
| One (parameter : string).  (* def f(parameter): g(parameter) *)

(** bodies of functions: issue a warning or not, call what a path stands for, return the value or not;
    or the choice of compute_tide_corrections.py:113-159 *)
Inductive body :=
| Forward (warned : bool) (s : signature) (path : list string) (returned : bool)
| Choose.

(** what a name stands for: something of another package, a function of this module, a class of this module *)
Inductive value :=
| Outside (name : string)
| Function (b : body)
| Class (base : value).

(** statements binding names *)
Inductive stmt :=
| Import (modules : list string)               (* import a.b.c binds a *)
| Def (name : string) (b : body)
| Derive (name : string) (base : list string)  (* class name(a.b.c): with __init__ only *)
| Assign (name : string) (called : list string).  (* name = a.b.c(...) *)

Definition env := list (string * value).
Fixpoint lookup {B} (k : string) (l : list (string * B)) : option B :=
  match l with [] => None | (n, v) :: r => if String.eqb n k then Some v else lookup k r end.
Definition dot (a b : string) : string := a ++ "." ++ b.
Fixpoint dotted (l : list string) : string :=
  match l with [] => "" | [a] => a | a :: r => dot a (dotted r) end.

Section Python.
Variable package : string -> bool.
Variable A : Type.
Variable behave : string -> args A -> res A.
Variable none : A.
Variable text : A -> option string.
(** whether warnings are turned into exceptions by the filter of the user *)
Variable strict : bool.

(** attribute of a value: of an outside name, the dotted name where the package has it; a class has the
    attributes of its base, beside __init__; a function has none that a wrapper uses *)
Fixpoint attribute (v : value) (n : string) : res value :=
  match v with
  | Outside d => if package (dot d n) then Ok (Outside (dot d n)) else Err AttributeError
  | Function _ => Err AttributeError
  | Class b => attribute b n
  end.
Fixpoint follow (v : value) (l : list string) : res value :=
  match l with [] => Ok v | n :: r => do w <- attribute v n ;; follow w r end.
(** the expression a.b.c *)
Definition resolve (g : env) (path : list string) : res value :=
  match path with
  | [] => Err NameError
  | n :: r => match lookup n g with None => Err NameError | Some v => follow v r end
  end.

(** running the statements of a module *)
Definition step (g : env) (s : stmt) : res env :=
  match s with
  | Import l => if package (dotted l) then
      match l with [] => Err OtherError | n :: _ => Ok ((n, Outside n) :: g) end else Err OtherError
  | Def n b => Ok ((n, Function b) :: g)
  | Derive n p => do v <- resolve g p ;; Ok ((n, Class v) :: g)
  | Assign n p => do _ <- resolve g p ;; Ok ((n, Outside n) :: g)
  end.
Fixpoint run (g : env) (l : list stmt) : res env :=
  match l with [] => Ok g | s :: r => do g' <- step g s ;; run g' r end.

(** binding the arguments of a call to the parameters *)
Definition accept (s : signature) (a : args A) : res (args A) :=
  match s with
  | Anything => Ok a
  | NamedOnly => match positional a with [] => Ok a | _ => Err TypeError end
  | One p => match positional a, named a with
             | [v], [] => Ok (Args [v] [])
             | [], [(k, v)] => if String.eqb k p then Ok (Args [v] []) else Err TypeError
             | _, _ => Err TypeError
             end
  end.

(** a parameter with a name: the next positional argument, else the named one, else the default *)
Definition take (p : string) (default : option A) (a : args A) : res (A * args A) :=
  match positional a with
  | v :: r => match lookup p (named a) with
              | Some _ => Err TypeError
              | None => Ok (v, Args r (named a))
              end
  | [] => match lookup p (named a) with
          | Some v => Ok (v, Args [] (filter (fun e => negb (String.eqb (fst e) p)) (named a)))
          | None => match default with Some v => Ok (v, a) | None => Err TypeError end
          end
  end.

(** warnings.warn(..., DeprecationWarning) *)
Definition warn : res unit := if strict then Err OtherError else Ok tt.

(** the functions a choice leads to, compute_tide_corrections.py:147-159 *)
Variable ocean : A.   (* the string 'ocean', default of CORRECTION *)
Definition choice (c : string) : res (list string) :=
  if existsb (String.eqb (lower c)) ["ocean"; "load"] then Ok ["pyTMD"; "compute"; "tide_elevations"]
  else if String.eqb (upper c) "LPET" then Ok ["pyTMD"; "compute"; "LPET_elevations"]
  else if String.eqb (upper c) "LPT" then Ok ["pyTMD"; "compute"; "LPT_displacements"]
  else if String.eqb (upper c) "OPT" then Ok ["pyTMD"; "compute"; "OPT_displacements"]
  else if String.eqb (upper c) "SET" then Ok ["pyTMD"; "compute"; "SET_displacements"]
  else Err ValueError.

(** calling what a value stands for; the base of a class is initialised with the named arguments
    (time.py:354-355) *)
Fixpoint apply_outside (v : value) (a : args A) : res A :=
  match v with
  | Outside d => behave d a
  | Function _ => Err OtherError
  | Class b => match positional a with [] => apply_outside b a | _ => Err TypeError end
  end.

(** calling a function of the module whose global names are [g] *)
Definition invoke (g : env) (b : body) (a : args A) : res A :=
  match b with
  | Forward w s p r =>
      do a' <- accept s a ;;
      do _ <- (if w then warn else Ok tt) ;;
      do f <- resolve g p ;;
      do v <- apply_outside f a' ;;
      Ok (if r then v else none)
  | Choose =>
      do x <- take "x" None a ;;
      do y <- take "y" None (snd x) ;;
      do t <- take "delta_time" None (snd y) ;;
      do c <- take "CORRECTION" (Some ocean) (snd t) ;;
      do _ <- match positional (snd c) with [] => Ok tt | _ => Err TypeError end ;;
      do _ <- warn ;;
      do s <- match text (fst c) with Some s => Ok s | None => Err AttributeError end ;;
      do p <- choice s ;;
      do f <- resolve g p ;;
      apply_outside f (Args [fst x; fst y; fst t] (named (snd c)))
  end.

(** module.name(arguments), once the module has been imported *)
Definition call (m : list stmt) (name : string) (a : args A) : res A :=
  do g <- run [] m ;;
  match lookup name g with
  | None => Err AttributeError
  | Some (Function b) => invoke g b a
  | Some v => apply_outside v a
  end.
End Python.

(** pyTMD/time.py:53-355 *)
Definition forwarded (m : string) (s : signature) (n : string) : stmt :=
  Def n (Forward true s ["timescale"; m; n] true).
Definition time_functions : list stmt :=
  [ forwarded "time" (One "date_string") "parse";               (* 96-112 *)
    forwarded "time" (One "date_string") "parse_date_string";   (* 115-136 *)
    forwarded "time" (One "date_string") "split_date_string";   (* 139-150 *)
    forwarded "time" (One "date") "datetime_to_list";           (* 153-169 *)
    forwarded "time" (One "year") "calendar_days";              (* 177-193 *)
    forwarded "time" Anything "convert_datetime";               (* 196-214 *)
    forwarded "time" Anything "convert_delta_time";             (* 217-234 *)
    forwarded "time" Anything "convert_calendar_dates";         (* 238-268 *)
    forwarded "time" Anything "convert_calendar_decimal";       (* 271-300 *)
    forwarded "time" Anything "convert_julian" ].               (* 303-338 *)
Definition time_module (name : string) : list stmt :=
  ([ Import ["logging"]; Import ["warnings"]; Import ["numpy"]; Import ["timescale"; "time"] ]   (* 53-56 *)
   ++ time_functions
   ++ [ Assign "_delta_file" ["timescale"; "utilities"; "get_data_path"];   (* 341 *)
        Derive name ["timescale"; "time"; "Timescale"] ])%list.             (* 343 *)
(** the name of the class is that of the package: time.py:343 *)
Definition time_py : list stmt := time_module "timescale".

(** pyTMD/eop.py:29-240 *)
Definition eop_py : list stmt :=
  [ Import ["warnings"]; Import ["logging"]; Import ["timescale"; "eop"]; Import ["timescale"; "utilities"];  (* 29-32 *)
    Assign "_mean_pole_file" ["timescale"; "utilities"; "get_data_path"];   (* 45 *)
    Assign "_finals_file" ["timescale"; "utilities"; "get_data_path"];      (* 47 *)
    Def "update_mean_pole" (Forward true NamedOnly ["timescale"; "eop"; "update_mean_pole"] false);          (* 50-70 *)
    Def "calculate_mean_pole" (Forward true NamedOnly ["timescale"; "eop"; "calculate_mean_pole"] false);    (* 73-95 *)
    Def "pull_pole_coordinates" (Forward true Anything ["timescale"; "eop"; "pull_pole_coordinates"] false); (* 98-122 *)
    Def "update_finals_file" (Forward true NamedOnly ["timescale"; "eop"; "update_finals_file"] false);      (* 125-151 *)
    forwarded "eop" Anything "iers_mean_pole";      (* 156-189 *)
    forwarded "eop" NamedOnly "iers_daily_EOP";     (* 192-213 *)
    forwarded "eop" Anything "iers_polar_motion" ]. (* 215-240 *)

(** pyTMD/check_points.py:80-119 *)
Definition check_points_py : list stmt :=
  [ Import ["pathlib"]; Import ["warnings"]; Import ["pyTMD"; "compute"];
    Def "check_points" (Forward true Anything ["pyTMD"; "compute"; "tide_masks"] true) ].

(** pyTMD/compute_tide_corrections.py:108-174 *)
Definition corrections_py : list stmt :=
  [ Import ["warnings"]; Import ["numpy"]; Import ["pyTMD"; "compute"];
    Def "compute_corrections" Choose;   (* 113-159 *)
    Def "compute_tide_corrections" (Forward false Anything ["pyTMD"; "compute"; "tide_elevations"] true);   (* 161-162 *)
    Def "compute_LPET_corrections" (Forward false Anything ["pyTMD"; "compute"; "LPET_elevations"] true);   (* 164-165 *)
    Def "compute_LPT_corrections" (Forward false Anything ["pyTMD"; "compute"; "LPT_displacements"] true);  (* 167-168 *)
    Def "compute_OPT_corrections" (Forward false Anything ["pyTMD"; "compute"; "OPT_displacements"] true);  (* 170-171 *)
    Def "compute_SET_corrections" (Forward false Anything ["pyTMD"; "compute"; "SET_displacements"] true) ]. (* 173-174 *)

(** ** pyTMD/__init__.py:14-44: the names of the package.
    Loading a submodule the first time binds its name in the package, after whatever it loads itself
    ([loads], arbitrary); a from-import loads the submodule and then binds the names it lists. *)
Inductive holds := Submodule (name : string) | Member (submodule name : string).
Definition names := list (string * holds).
Record package_state := State { bound : names; loaded : list string }.
Inductive pstmt := Load (m : string) | FromImport (m : string) (l : list string).
Section Package.
Variable loads : string -> list string.   (* the modules loaded while a module is loaded, itself left out, in order *)
Definition load_one (s : package_state) (m : string) : package_state :=
  if existsb (String.eqb m) (loaded s) then s
  else State ((m, Submodule m) :: bound s) (m :: loaded s).
Definition load (s : package_state) (m : string) : package_state :=
  if existsb (String.eqb m) (loaded s) then s
  else load_one (fold_left load_one (loads m) s) m.
Definition pstep (s : package_state) (p : pstmt) : package_state :=
  match p with
  | Load m => load s m
  | FromImport m l => let s' := load s m in
      State (rev (map (fun n => (n, Member m n)) l) ++ bound s')%list (loaded s')
  end.
Definition package_init (l : list pstmt) : package_state := fold_left pstep l (State [] []).
End Package.
(** pyTMD/__init__.py:14-44 *)
Definition init_py : list pstmt :=
  [ Load "arguments"; Load "astro"; Load "compute"; Load "ellipse"; Load "interpolate"; Load "math"; Load "predict";
    Load "spatial"; Load "tools"; Load "utilities"; Load "version"; Load "io"; Load "solve";
    FromImport "crs" ["crs"; "datum"; "_ellipsoids"];
    FromImport "check_points" ["check_points"];
    FromImport "compute_tide_corrections" ["compute_corrections"; "compute_tide_corrections"; "compute_LPET_corrections";
      "compute_LPT_corrections"; "compute_OPT_corrections"; "compute_SET_corrections"];
    Load "eop"; Load "time" ].
