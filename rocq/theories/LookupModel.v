(** Model of spatial.case_insensitive_filename (spatial.py:166-186) and of the wrappers
    from_file (223-253) and to_file (768-800).

    The name searched for is given to re.match as a regular expression with the flag
    re.I: it is matched at the beginning of the names in the directory.  Modelled are
    expressions of literal characters and dots, each of which may be followed by one of
    the signs of repetition; for names with the other special characters or with two
    signs of repetition together the answer of re.match is a parameter [other].  Names are bytes and letters those of ASCII. *)
From Coq Require Import String Ascii List Bool.
From Verif Require Import PyBase StrBase.
Import ListNotations.
Open Scope char_scope.
Open Scope list_scope.

Inductive times := Once | Maybe | Any | Many.
(** a literal character, or None for the dot, and how often *)
Notation piece := (option ascii * times)%type (only parsing).

Definition special (c : ascii) : bool := existsb (Ascii.eqb c) ["\"; "^"; "$"; "{"; "}"; "["; "]"; "|"; "("; ")"].
Definition repetition (c : ascii) : option times :=
  if Ascii.eqb c "?" then Some Maybe else if Ascii.eqb c "*" then Some Any else if Ascii.eqb c "+" then Some Many else None.
Definition atom (c : ascii) : option ascii := if Ascii.eqb c "." then None else Some c.
(** re's parser: a sign of repetition must follow one character *)
Fixpoint parse_name (s : string) : res (list piece) :=
  match s with
  | EmptyString => Ok []
  | String c s' =>
      match repetition c with
      | Some _ => Err OtherError
      | None =>
          match s' with
          | String d s'' =>
              match repetition d with
              | Some t => do l <- parse_name s'' ;; Ok ((atom c, t) :: l)
              | None => do l <- parse_name s' ;; Ok ((atom c, Once) :: l)
              end
          | EmptyString => Ok [(atom c, Once)]
          end
      end
  end.
(** one character; the dot does not match the end of a line *)
Definition fits (a : option ascii) (c : ascii) : bool :=
  match a with Some b => Ascii.eqb (lower_ascii b) (lower_ascii c) | None => negb (Ascii.eqb c "010") end.
Fixpoint matches (l : list piece) : string -> bool :=
  match l with
  | [] => fun _ => true
  | (a, t) :: l =>
      let after := matches l in
      let one := fun s => match s with String c s => fits a c && after s | EmptyString => false end in
      let fix star (s : string) : bool := after s || match s with String c s => fits a c && star s | EmptyString => false end in
      match t with
      | Once => one
      | Maybe => fun s => one s || after s
      | Any => star
      | Many => fun s => match s with String c s => fits a c && star s | EmptyString => false end
      end
  end.
Definition repeats (s : string) : bool := match s with String c _ => match repetition c with Some _ => true | None => false end | EmptyString => false end.
Fixpoint specials (s : string) : bool := match s with EmptyString => false | String c s' => special c || (repeats s && repeats s') || specials s' end.
(** re.match(name, f, re.I) *)
Definition re_match (other : string -> string -> res bool) (name f : string) : res bool :=
  if specials name then other name f else do l <- parse_name name ;; Ok (matches l f).

(** spatial.py:166-186 for a name and the names in its directory (None: no directory) *)
Definition case_insensitive (other : string -> string -> res bool) (dir : option (list string)) (name : string) : res string :=
  match dir with
  | None => Err FileNotFoundError
  | Some names =>
      if mem_str name names then Ok name
      else
        do hits <- mapM (fun f => do b <- re_match other name f ;; Ok (f, b)) names ;;
        match List.rev (map fst (filter snd hits)) with [] => Err FileNotFoundError | f :: _ => Ok f end
  end.

(** spatial.py:237-252 and 786-799 *)
Inductive codec := Text | NetCDF | HDF | Tiff | Pq.
Definition codec_of (format : string) : res codec :=
  if String.eqb format "ascii" then Ok Text
  else if String.eqb format "netCDF4" then Ok NetCDF
  else if String.eqb format "HDF5" then Ok HDF
  else if mem_str format ["GTiff"%string; "cog"%string] then Ok Tiff
  else if String.eqb format "parquet" then Ok Pq
  else Err ValueError.
Definition from_file {A} (reader : codec -> string -> res A) (other : string -> string -> res bool) (dir : option (list string)) (name format : string) : res A :=
  do k <- codec_of format ;;
  do f <- case_insensitive other dir name ;;
  reader k f.
