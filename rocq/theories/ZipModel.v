(** Model of the programs extracting zip files: scripts/arcticdata_tides.py
    lines 56-107 and scripts/usap_cats_tides.py lines 52-94.

    A member is its name, as a list of ASCII characters, and its contents; the
    local file system is a function from paths to contents.  zipfile.extract
    (standard library) leaves out the components '', '.' and '..', so that a
    member of one component is written into the directory under its name, or is
    an exception if nothing is left (an IndexError in is_dir up to Python 3.10
    if the name is empty, else the directory cannot be opened for writing).
    Simplification: permissions, the log and the connection are left out. *)
From Coq Require Import String Ascii List Bool.
From Verif Require Import PyBase StrBase DownModel.
Import ListNotations.
Open Scope string_scope.

Section ZIP.
Variable D : Type.
Definition tree := path -> option D.
Definition put (p : path) (d : D) (f : tree) : tree :=
  fun q => if path_dec q p then Some d else f q.

(** does a word occur: re.search of a fixed text *)
Fixpoint begins (w t : text) : bool :=
  match w, t with
  | [], _ => true
  | a :: w, b :: t => Ascii.eqb a b && begins w t
  | _, [] => false
  end.
Fixpoint occurs (w t : text) : bool :=
  begins w t || match t with [] => false | _ :: t => occurs w t end.

(** arcticdata_tides.py line 94: (grid|h[0]?|UV[0]?|Model|xy)_(.*?), whose
    second group matches the empty text *)
Definition model_file (name : text) : bool :=
  existsb (fun w => occurs (T w) name)
    ["grid_"; "h_"; "h0_"; "UV_"; "UV0_"; "Model_"; "xy_"].

(** lines 97-105 *)
Fixpoint extract (dir : path) (ms : list (text * D)) (f : tree) : tree * option exn :=
  match ms with
  | [] => (f, None)
  | (name, d) :: ms =>
      let b := basename name in
      if teqb b [] || teqb b (T ".") || teqb b (T "..") then (f, Some OtherError)
      else extract dir ms (put (dir ++ [b])%list d f)
  end.

(** the tables LOCAL and DOI: lines 65-78 *)
Definition arctic_table (MODEL : string) : res (string * string) :=
  if MODEL =? "AODTM-5" then Ok ("10.18739/A2901ZG3N", "aodtm5_tmd")
  else if MODEL =? "AOTIM-5" then Ok ("10.18739/A2S17SS80", "aotim5_tmd")
  else if MODEL =? "AOTIM-5-2018" then Ok ("10.18739/A21R6N14K", "Arc5km2018")
  else if MODEL =? "Arc2kmTM" then Ok ("10.18739/A2D21RK6K", "Arc2kmTM")
  else if MODEL =? "Gr1kmTM" then Ok ("10.18739/A2B853K18", "Gr1kmTM")
  else Err KeyError.

(** arcticdata_tides: lines 56-107; [package] is the zip file of a DOI *)
Definition arcticdata_tides (package : string -> option (list (text * D)))
  (MODEL : string) (DIRECTORY : path) (f : tree) : tree * option exn :=
  match arctic_table MODEL with
  | Err e => (f, Some e)
  | Ok (doi, local) =>
      match package doi with
      | None => (f, Some OtherError)
      | Some ms => extract (DIRECTORY ++ [T local])%list
                     (filter (fun m => model_file (fst m)) ms) f
      end
  end.

(** usap_cats_tides: lines 52-94; the function returns at line 76, after opening
    the page of the data in a browser *)
Definition usap_cats_tides (package : string -> option (list (text * D)))
  (MODEL : string) (DIRECTORY : path) (f : tree) : tree * option exn :=
  if MODEL =? "CATS2008" then (f, None) else (f, Some KeyError).
End ZIP.
