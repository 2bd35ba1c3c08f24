(** Model of the programs downloading tide models: scripts/gsfc_got_tides.py
    lines 54-130 and scripts/aviso_fes_tides.py lines 96-387.

    Names are lists of ASCII characters, a local path is the list of its
    components from the root, file contents are of any type, times are real
    numbers of seconds.  Simplifications: directories are created when needed
    and never fail to be; the file system has no links; permissions, access
    times and the log are left out; the connection itself is a function from
    remote paths to contents, the same for the whole of a run. *)
From Coq Require Import String Ascii Reals List ZArith Bool.
From Verif Require Import PyBase StrBase UtilModel.
Import ListNotations.
Open Scope string_scope.

Definition text := list ascii.
Definition T (s : string) : text := list_ascii_of_string s.
Definition text_dec : forall a b : text, {a = b} + {a <> b} := list_eq_dec ascii_dec.
Definition path := list text.
Definition path_dec : forall a b : path, {a = b} + {a <> b} := list_eq_dec text_dec.
Definition teqb (a b : text) : bool := if text_dec a b then true else false.
Definition slash (c : ascii) : bool := Ascii.eqb c "/"%char.
Definition dot (c : ascii) : bool := Ascii.eqb c "."%char.

(** * posixpath (standard library), as used at gsfc_got_tides.py lines 99-113
    and aviso_fes_tides.py lines 308-312, 334-338, 361-365 *)
(** the pieces between slashes *)
Fixpoint pieces (t : text) : list text :=
  match t with
  | [] => [[]]
  | c :: t' =>
      if slash c then [] :: pieces t'
      else match pieces t' with w :: ws => (c :: w) :: ws | [] => [[c]] end
  end.
(** posixpath.basename *)
Definition basename (t : text) : text := last (pieces t) [].
(** the last dot and what follows *)
Fixpoint last_dot (t : text) : option (text * text) :=
  match t with
  | [] => None
  | c :: t' =>
      match last_dot t' with
      | Some (a, b) => Some (c :: a, b)
      | None => if dot c then Some ([], t) else None
      end
  end.
(** posixpath.splitext(t)[1]: leading dots of the last component are no
    separators *)
Definition suffix (t : text) : text :=
  match last_dot (basename t) with
  | None => []
  | Some (stem, ext) => if forallb dot stem then [] else ext
  end.
(** posixpath.splitext(t)[0] *)
Definition root (t : text) : text := firstn (length t - length (suffix t)) t.

(** DIRECTORY.joinpath( *posixpath.split(output)) and local_dir.joinpath(output),
    and where the operating system finds the result *)
Definition descend (p : path) (c : text) : path :=
  if teqb c [] then p
  else if teqb c (T ".") then p
  else if teqb c (T "..") then removelast p
  else (p ++ [c])%list.
Definition place (dir : path) (name : text) : path :=
  match name with
  | c :: _ => if slash c then fold_left descend (pieces name) []
              else fold_left descend (pieces name) dir
  | [] => fold_left descend (pieces name) dir
  end.

(** newer: gsfc_got_tides.py lines 126-127, aviso_fes_tides.py lines 386-387 *)
Definition newer (t1 t2 : R) : bool := (even t1 <=? even t2)%Z.

Section DATA.
Variable D : Type.
(** gzip.open(..., 'wb') of what is written *)
Variable gz : D -> D.

(** contents that can be read to the end, or that stop with an exception after
    a part of them *)
Inductive stream := Whole (d : D) | Cut (d : D).

Record member := { m_name : text; m_file : bool; m_mtime : R; m_data : stream }.

(** the local files, and the paths written to so far *)
Record state := { fs : path -> option (D * R); wrote : list path }.
Definition store (p : path) (v : D * R) (s : state) : state :=
  {| fs := fun q => if path_dec q p then Some v else fs s q;
     wrote := (wrote s ++ [p])%list |}.

(** opener: gsfc_got_tides.py line 64, aviso_fes_tides.py line 293 *)
Definition opener (GZIP : bool) (d : D) : D := if GZIP then gz d else d.

(** gsfc_got_tides.py lines 114-123, aviso_fes_tides.py lines 313-328, 339-358
    and 369-383: skip the file if the local one is no older, else write it and
    set its time; an exception while copying leaves what was written, with the
    time of writing *)
Definition fetch (now : R) (GZIP : bool) (p : path) (d : stream) (t : R) (s : state)
  : state * option exn :=
  if match fs s p with Some (_, t0) => newer t t0 | None => false end then (s, None)
  else match d with
       | Whole d => (store p (opener GZIP d, t) s, None)
       | Cut d => (store p (opener GZIP d, now) s, Some OtherError)
       end.

(** a loop ending at the first exception *)
Fixpoint each {A} (f : A -> state -> state * option exn) (l : list A) (s : state)
  : state * option exn :=
  match l with
  | [] => (s, None)
  | a :: l => match f a s with
              | (s, None) => each f l s
              | r => r
              end
  end.

(** * gsfc_got_tides.py *)
(** re.match of ^.DS (line 105) and of ^._ (line 107): the dot is any character
    but a line feed *)
Definition any (c : ascii) : bool := negb (Ascii.eqb c "010"%char).
Definition match_DS (t : text) : bool :=
  match t with
  | a :: b :: c :: _ => any a && Ascii.eqb b "D"%char && Ascii.eqb c "S"%char
  | _ => false
  end.
Definition match_under (t : text) : bool :=
  match t with a :: b :: _ => any a && Ascii.eqb b "_"%char | _ => false end.

(** lines 97-123: one member *)
Definition got_member (now : R) (FORMAT : string) (GZIP : bool) (dir : path)
  (m : member) (s : state) : state * option exn :=
  let sfx := suffix (m_name m) in
  if teqb sfx (T ".nc") && (FORMAT =? "ascii") then (s, None)
  else if teqb sfx (T ".d") && (FORMAT =? "netcdf") then (s, None)
  else if match_DS (basename (m_name m)) then (s, None)
  else if match_under (basename (m_name m)) then (s, None)
  else
    let output :=
      if (teqb sfx (T ".d") || teqb sfx (T ".nc")) && GZIP
      then (m_name m ++ T ".gz")%list else m_name m in
    fetch now GZIP (place dir output) (m_data m) (m_mtime m) s.

(** lines 66-80: the path and the mode of the tar file of a model *)
Definition got_table (MODEL : string) : res (list string * string) :=
  if MODEL =? "GOT4.8" then Ok (["2022-07"; "got4.8.tar.gz"], "r:gz")
  else if MODEL =? "GOT4.10" then Ok (["2023-12"; "got4.10c.tar.gz"], "r:gz")
  else if MODEL =? "GOT5.5" then Ok (["2024-07"; "GOT5.5.tar%201.gz"], "r:gz")
  else if MODEL =? "GOT5.5D" then Ok (["2024-07"; "GOT5.5D.tar%201.gz"], "r:gz")
  else if MODEL =? "GOT5.6" then Ok (["2024-07"; "GOT5.6.tar%201.gz"], "r:gz")
  else if MODEL =? "RE14" then Ok (["2022-07"; "re14_longperiodtides_rel.tar"], "r")
  else Err KeyError.

(** lines 95-123: all the members of the tar file that are files *)
Definition got_members (now : R) (FORMAT : string) (GZIP : bool) (dir : path)
  (ms : list member) (s : state) : state * option exn :=
  each (got_member now FORMAT GZIP dir) (filter m_file ms) s.

(** * aviso_fes_tides.py *)
(** tarfile.open (line 304) by mode, lzma.open (line 353) *)
Variable untar : string -> D -> option (list member).
Variable unlzma : D -> stream.
(** the host: the contents and the time of a file (RETR and MDTM), and the
    listing of a directory (NLST, reduced to base names and sorted at lines
    262-279) *)
Variable host : list string -> option (stream * R).
Variable listing : list string -> list string.

Definition gz_name (GZIP : bool) (sfx : text) (name : text) : text :=
  if (teqb sfx (T ".asc") || teqb sfx (T ".nc")) && GZIP
  then (name ++ T ".gz")%list else name.

(** lines 307-328: one member *)
Definition fes_member (now : R) (FLATTEN : option bool) (GZIP : bool) (dir : path)
  (m : member) (s : state) : state * option exn :=
  let name := match FLATTEN with Some true => basename (m_name m) | _ => m_name m end in
  fetch now GZIP (place dir (gz_name GZIP (suffix (m_name m)) name))
    (m_data m) (m_mtime m) s.

(** ftp_download: lines 282-383 *)
Definition ftp_download (now : R) (remote : list string) (dir : path) (LZMA : bool)
  (TARMODE : option string) (FLATTEN : option bool) (GZIP : bool) (s : state)
  : state * option exn :=
  match TARMODE with
  | Some mode =>
      match host remote with
      | Some (Whole d, _) =>
          match untar mode d with
          | Some ms => each (fes_member now FLATTEN GZIP dir) (filter m_file ms) s
          | None => (s, Some OtherError)
          end
      | _ => (s, Some OtherError)
      end
  | None =>
      match host remote with
      | None => (s, Some OtherError)
      | Some (c, t) =>
          if LZMA then
            let stem := root (basename (T (last remote ""))) in
            let p := place dir (gz_name GZIP (suffix stem) stem) in
            if match fs s p with Some (_, t0) => newer t t0 | None => false end
            then (s, None)
            else match c with
                 | Cut _ => (s, Some OtherError)
                 | Whole d => fetch now GZIP p (unlzma d) t s
                 end
          else
            let stem := basename (T (last remote "")) in
            fetch now GZIP (place dir (gz_name GZIP (suffix stem) stem)) c t s
      end
  end.

(** the tables FES, TAR and FLATTEN: lines 153-210 *)
Definition fes_paths (MODEL : string) (LOAD CURRENTS : bool) : list (list string) :=
  if MODEL =? "FES1999" then
    [["fes1999_fes2004"; "readme_fes1999.html"]; ["fes1999_fes2004"; "fes1999.tar.gz"]]
  else if MODEL =? "FES2004" then
    [["fes1999_fes2004"; "readme_fes2004.html"]; ["fes1999_fes2004"; "fes2004.tar.gz"]]
  else if MODEL =? "FES2012" then
    ([["fes2012_heights"; "readme_fes2012_heights_v1.1"];
      ["fes2012_heights"; "fes2012_heights_v1.1.tar.lzma"]] ++
     if CURRENTS then
       [["fes2012_currents"; "readme_fes2012_currents_v1.1"];
        ["fes2012_currents"; "fes2012_currents_v1.1_block1.tar.lzma"];
        ["fes2012_currents"; "fes2012_currents_v1.1_block2.tar.lzma"];
        ["fes2012_currents"; "fes2012_currents_v1.1_block3.tar.lzma"];
        ["fes2012_currents"; "fes2012_currents_v1.1_block4.tar.lzma"]]
     else [])%list
  else
    ([["fes2014_elevations_and_load"; "readme_fes2014_elevation_and_load_v1.2.txt"];
      ["fes2014_elevations_and_load"; "fes2014b_elevations"; "ocean_tide.tar.xz"]] ++
     (if LOAD then
        [["fes2014_elevations_and_load"; "fes2014a_loadtide"; "load_tide.tar.xz"]]
      else []) ++
     (if CURRENTS then
        [["fes2014a_currents"; "readme_fes2014_currents_v1.2.txt"];
         ["fes2014a_currents"; "eastward_velocity.tar.xz"];
         ["fes2014a_currents"; "northward_velocity.tar.xz"]]
      else []))%list.
Definition fes_tar (MODEL : string) (LOAD CURRENTS : bool) : list (option string) :=
  if MODEL =? "FES1999" then [None; Some "r:gz"]
  else if MODEL =? "FES2004" then [None; Some "r:gz"]
  else if MODEL =? "FES2012" then
    ([None; Some "r:xz"] ++
     if CURRENTS then [None; Some "r:xz"; Some "r:xz"; Some "r:xz"; Some "r:xz"]
     else [])%list
  else
    ([None; Some "r"] ++ (if LOAD then [Some "r"] else []) ++
     (if CURRENTS then [Some "r"] else []))%list.
Definition fes_flatten (MODEL : string) (LOAD CURRENTS : bool) : list (option bool) :=
  if MODEL =? "FES1999" then [None; Some true]
  else if MODEL =? "FES2004" then [None; Some true]
  else if MODEL =? "FES2012" then
    ([None; Some true] ++
     if CURRENTS then [None; Some false; Some false; Some false; Some false] else [])%list
  else
    ([None; Some false] ++ (if LOAD then [Some false] else []) ++
     (if CURRENTS then [Some false] else []))%list.

(** zip(FES[MODEL],TAR[MODEL],FLATTEN[MODEL]): line 213 *)
Fixpoint zip3 {A B C} (a : list A) (b : list B) (c : list C) : list (A * B * C) :=
  match a, b, c with
  | x :: a, y :: b, z :: c => (x, y, z) :: zip3 a b c
  | _, _, _ => []
  end.
Definition fes_plan (MODEL : string) (LOAD CURRENTS : bool)
  : list (list string * option string * option bool) :=
  zip3 (fes_paths MODEL LOAD CURRENTS) (fes_tar MODEL LOAD CURRENTS)
       (fes_flatten MODEL LOAD CURRENTS).

(** aviso_fes_tar: lines 141-220 *)
Definition aviso_fes_tar (now : R) (MODEL : string) (DIRECTORY : path)
  (LOAD CURRENTS GZIP : bool) (s : state) : state * option exn :=
  let localpath := (DIRECTORY ++ [T (lower MODEL)])%list in
  each (fun '(remote, tarmode, flatten) =>
          ftp_download now remote localpath false tarmode flatten GZIP)
       (fes_plan MODEL LOAD CURRENTS) s.

(** aviso_fes_list: lines 224-259 *)
Definition fes_dirs (LOAD EXTRAPOLATED : bool) : list (list string) :=
  ([["fes2022b"; "ocean_tide_20241025"]] ++
   (if LOAD then [["fes2022b"; "load_tide"]] else []) ++
   (if EXTRAPOLATED then [["fes2022b"; "ocean_tide_extrapolated"]] else []))%list.
(** str.endswith('.xz'): line 253 *)
Definition ends_xz (s : string) : bool :=
  match rev (T s) with
  | c1 :: c2 :: c3 :: _ =>
      Ascii.eqb c1 "z"%char && Ascii.eqb c2 "x"%char && Ascii.eqb c3 "."%char
  | _ => false
  end.
Definition aviso_fes_list (now : R) (DIRECTORY : path)
  (LOAD CURRENTS EXTRAPOLATED GZIP : bool) (s : state) : state * option exn :=
  each (fun subdir =>
          let local_dir := (DIRECTORY ++ map T subdir)%list in
          each (fun fi =>
                  ftp_download now (subdir ++ [fi])%list local_dir (ends_xz fi)
                    None None GZIP)
               (listing subdir))
       (fes_dirs LOAD EXTRAPOLATED) s.

(** aviso_fes_tides: lines 115-131 *)
Definition aviso_fes_tides (now : R) (MODEL : string) (DIRECTORY : path)
  (LOAD CURRENTS EXTRAPOLATED GZIP : bool) (s : state) : state * option exn :=
  if mem_str MODEL ["FES1999"; "FES2004"; "FES2012"; "FES2014"] then
    aviso_fes_tar now MODEL DIRECTORY LOAD CURRENTS GZIP s
  else if MODEL =? "FES2022" then
    aviso_fes_list now DIRECTORY LOAD CURRENTS EXTRAPOLATED GZIP s
  else (s, None).
End DATA.
