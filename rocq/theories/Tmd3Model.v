(** Model of the reading of TMD3 files (netCDF) and of the extraction of constants from
    them (pyTMD/io/OTIS.py: read_netcdf_grid 1079-1121, read_constituents 1150-1158,
    read_netcdf_file 1692-1741, extract_constants 274-277 and 417-422).

    A cell of a netCDF variable is its number and whether it is missing; the number of a
    missing cell is the fill value of the file.  Dimensions of the variables agree, as in
    any netCDF file.  The words of constituent_order are separated by blanks, tabs and
    newlines.  Extraction from the arrays that were read is ExtractModel.v, whose
    simplifications apply; the masks of depths and flexure are those of their zeros
    (1113-1114), and depths under them are zero. *)
From Coq Require Import Reals List Bool Arith ZArith String Ascii.
From Verif Require Import PyBase RBase MathModel GeoModel GridModel InterpModel ExtractModel.
Import ListNotations.
Open Scope R_scope.

Definition ncell : Type := (R * bool)%type.
Record tmd3 := Tmd3 {
  t_x : list R; t_y : list R;
  t_wct : list (list ncell); t_mask : list (list Z); t_flexure : list (list ncell);
  t_order : list ascii;
  t_hre : list (list (list ncell)); t_him : list (list (list ncell));
  t_ure : list (list (list ncell)); t_uim : list (list (list ncell));
  t_vre : list (list (list ncell)); t_vim : list (list (list ncell)) }.

(** 1079-1121: depths, water mask and flexure with rows from south to north; a missing
    cell keeps its number: its mask is replaced by that of the zeros *)
Definition north_up {A} (m : list A) : list A := rev m.
Definition read_grid (f : tmd3) : grid * list (list (R * bool)) * list (list (R * bool)) :=
  let hz := north_up (map (map fst) (t_wct f)) in
  let sf := north_up (map (map (fun c : ncell => if snd c then fst c else fst c / 100)) (t_flexure f)) in
  (Grid (t_x f) (north_up (t_y f)) hz (north_up (t_mask f)),
   map (map (fun h => (h, req h 0))) hz,
   map (map (fun s => (s, req s 0))) sf).

(** str.split() *)
Definition blank (a : ascii) : bool := Ascii.eqb a " " || Ascii.eqb a (ascii_of_nat 9) || Ascii.eqb a (ascii_of_nat 10).
Fixpoint words (t : list ascii) : list (list ascii) :=
  match t with
  | [] => []
  | a :: r => if blank a then words r
      else match r with
           | [] => [[a]]
           | b :: _ => if blank b then [a] :: words r
               else match words r with w :: ws => (a :: w) :: ws | [] => [[a]] end
           end
  end.
Definition read_names (f : tmd3) : list (list ascii) := words (t_order f).

(** 1692-1741: the masks of the variables are dropped; the sign of the imaginary part is
    changed; any other variable gives zeros *)
Definition components (f : tmd3) (t : variable) : option (list (list (list ncell)) * list (list (list ncell))) :=
  match t with
  | Vz => Some (t_hre f, t_him f)
  | Vu | VU => Some (t_ure f, t_uim f)
  | Vv | VV => Some (t_vre f, t_vim f)
  | Vother => None
  end.
Definition read_file (f : tmd3) (ic : nat) (t : variable) : res field :=
  match components f t with
  | None => Ok (map (fun _ => map (fun _ => (Some (0, 0), false)) (t_x f)) (t_y f))
  | Some (re, im) =>
      do a <- get1 re ic ;; do b <- get1 im ic ;;
      Ok (zip22 (fun (p q : ncell) => (Some (fst p, - fst q), false)) (north_up a) (north_up b))
  end.
(** 420-422: hc *= sf, masked where the factor is *)
Definition flexed (sf : list (list (R * bool))) (hc : field) : field :=
  zip22 (fun (s : R * bool) (c : gcell cpx) => if snd s then (fst c, true) else (option_map (cscale (fst s)) (fst c), snd c)) sf hc.
Definition tmd3_fields (f : tmd3) (t : variable) (flexure : bool) : res (list field) :=
  let '(_, _, sf) := read_grid f in
  mapM (fun i => do hc <- read_file f i t ;; Ok (match t with Vz => if flexure then flexed sf hc else hc | _ => hc end)) (seq 0 (List.length (read_names f))).
Definition extract_tmd3 (fwd : R * R -> R * R) (geo : bool) (me : method) (t : variable) (flexure : bool)
    (f : tmd3) (lonlat : list (R * R)) : res (list (list ascii) * list result) :=
  let '(g, _, _) := read_grid f in
  do hcs <- tmd3_fields f t flexure ;;
  do out <- extract_constants fwd geo me t g hcs lonlat ;;
  Ok (read_names f, out).
