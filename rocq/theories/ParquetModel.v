(** Model of spatial.from_parquet (spatial.py:685-766), to_parquet (1193-1306),
    default_field_mapping (1332-1360) and inverse_mapping (1362-1371).

    Contracts: pandas, pyarrow and shapely are modelled by what the code uses of them.  A
    dataframe is a list of named columns of equal length; masked and nan values are
    missing values.  Tables are written and read column by column in their order with all
    values; a range index is kept in the metadata unless the index is written, in which
    case a dataframe with another index is read.  JSON texts are decoded as they were
    encoded (values of attributes are strings here).  Points are written with exact
    coordinates.  osr: a code or a PROJJSON text gives a normalised PROJJSON text
    ([of_epsg], [of_json]) and a projection string ([proj4]).

    Simplifications: logging, compression, the schema version and the bounding box are
    left out; the ExportToWkt beside ExportToProj4 too. *)
From Coq Require Import String Reals List Bool ZArith.
From Verif Require Import PyBase.
Import ListNotations.
Open Scope string_scope.
Open Scope list_scope.

Inductive pcell := Num (v : option R) | Point (x y : option R).
Notation pcolumn := (string * list pcell)%type (only parsing).

(** dictionaries in the order of their keys *)
Fixpoint dget {V} (d : list (string * V)) (k : string) : option V :=
  match d with [] => None | (k', v) :: d => if String.eqb k' k then Some v else dget d k end.
Fixpoint dset {V} (d : list (string * V)) (k : string) (v : V) : list (string * V) :=
  match d with [] => [(k, v)] | (k', v') :: d => if String.eqb k' k then (k', v) :: d else (k', v') :: dset d k v end.
Definition dpop {V} (d : list (string * V)) (k : string) : list (string * V) := filter (fun e => negb (String.eqb (fst e) k)) d.
Definition dhas {V} (d : list (string * V)) (k : string) : bool := match dget d k with Some _ => true | None => false end.

(** spatial.py:1332-1360 *)
Definition default_field_mapping (variables : list string) : list (string * string) := combine ["time"; "y"; "x"; "data"] variables.
(** spatial.py:1362-1371: later pairs replace earlier ones *)
Definition inverse_mapping (m : list (string * string)) : list (string * string) :=
  fold_left (fun d e => dset d (snd e) (fst e)) m [].
(** DataFrame.rename(columns=...) *)
Definition rename (remap : list (string * string)) (cols : list pcolumn) : list pcolumn :=
  map (fun e => (match dget remap (fst e) with Some n => n | None => fst e end, snd e)) cols.

(** the keyword crs *)
Inductive crs_arg := NoCrs | Epsg (code : Z) | ProjJson (text : string).
(** the metadata geo: primary column, encoding and PROJJSON of the coordinates *)
Record geo_meta := Geo { geo_primary : string; geo_encoding : string; geo_crs : string }.
Record parquet := Parquet { p_columns : list pcolumn; p_index : bool; p_geo : option geo_meta; p_attributes : list (string * string) }.
Record frame := Frame { f_columns : list pcolumn; f_attributes : list (string * string); f_geoparquet : bool; f_projection : string }.

Section Libraries.
  Variable of_epsg : Z -> string.
  Variable of_json : string -> string.
  Variable proj4 : string -> string.
  (** date, software name and version (spatial.py:1283-1286) *)
  Variables now project version : string.

  (** pd.DataFrame(output) *)
  Definition dataframe (output : list pcolumn) : res (list pcolumn) :=
    match output with
    | [] => Ok []
    | (_, c) :: rest => if forallb (fun e => Nat.eqb (List.length (snd e)) (List.length c)) rest then Ok output else Err ValueError
    end.
  (** spatial.py:1229-1245: the reference and the attribute crs; code 0 is false *)
  Definition reference (c : crs_arg) : option (string * string) :=
    match c with
    | NoCrs => None
    | Epsg z => if Z.eqb z 0 then None else Some (of_epsg z, of_epsg z)
    | ProjJson t => Some (of_json t, t)
    end.
  Definition numbers_of (c : list pcell) : res (list (option R)) :=
    mapM (fun a => match a with Num v => Ok v | Point _ _ => Err TypeError end) c.
  Definition coordinates : list string := ["lon"; "longitude"; "x"; "lat"; "latitude"; "y"].
  Definition column_of (cols : list pcolumn) (k : string) : res (list pcell) :=
    match dget cols k with Some c => Ok c | None => Err KeyError end.

  (** spatial.py:1247-1278; srs is unbound without a crs *)
  Definition geometry (cols : list pcolumn) (srs : option (string * string)) (primary : string) (attributes : list (string * string))
    : res (list pcolumn * geo_meta * list (string * string)) :=
    let geom_vars := filter (dhas cols) coordinates in
    match geom_vars with
    | v0 :: v1 :: _ =>
        do c0 <- column_of cols v0 ;;
        do c1 <- column_of cols v1 ;;
        do x <- numbers_of c0 ;;
        do y <- numbers_of c1 ;;
        let cols' := dset (fold_left dpop geom_vars cols) primary (map (fun q => Point (fst q) (snd q)) (combine x y)) in
        match srs with
        | Some (s, _) => Ok (cols', Geo primary "WKB" s, fold_left dpop geom_vars attributes)
        | None => Err NameError
        end
    | _ => Err IndexError
    end.
  (** spatial.py:1193-1306: the file and the caller's attributes afterwards *)
  Definition to_parquet (output : list pcolumn) (attributes : list (string * string)) (c : crs_arg) (index : option bool)
      (geoparquet : bool) (encoding primary : string) : res (parquet * list (string * string)) :=
    do df <- dataframe output ;;
    let srs := reference c in
    let attributes := match srs with Some (_, t) => dset attributes "crs" t | None => attributes end in
    do q <- (if geoparquet && String.eqb encoding "WKB" then
               do g <- geometry df srs primary attributes ;;
               let '(cols, m, a) := g in Ok (cols, Some m, a)
             else if geoparquet && String.eqb encoding "point" then Err ValueError
             else Ok (df, None, attributes)) ;;
    let '(cols, m, a) := q in
    let a := dset (dset (dset a "date_created" now) "software_reference" project) "software_version" version in
    Ok (Parquet cols (match index with Some true => true | _ => false end) m a, a).

  (** spatial.py:685-766 *)
  Definition from_parquet (f : parquet) (index : string) (columns : option (list string)) (primary encoding : string) : res frame :=
    (* reset_index: the index becomes the first column *)
    do cols <- (if p_index f then
                  if dhas (p_columns f) index then Err ValueError
                  else Ok ((index, map (fun k => Num (Some (INR k))) (seq 0 (match p_columns f with e :: _ => List.length (snd e) | [] => 0 end))) :: p_columns f)
                else Ok (p_columns f)) ;;
    do q <- (match p_geo f with
             | Some m => Ok (geo_primary m, geo_encoding m, proj4 (of_json (geo_crs m)))
             | None => match dget (p_attributes f) "crs" with
                       | Some t => Ok (primary, encoding, proj4 (of_json t))
                       | None => Err KeyError
                       end
             end) ;;
    let '(primary, encoding, projection) := q in
    do r <- (match dget cols primary with
             | Some c =>
                 if String.eqb encoding "WKB" then
                   do pts <- mapM (fun a => match a with Point x y => Ok (x, y) | Num _ => Err TypeError end) c ;;
                   Ok (dset (dset cols "x" (map (fun q => Num (fst q)) pts)) "y" (map (fun q => Num (snd q)) pts), true)
                 else Ok (cols, false)
             | None => Ok (cols, false)
             end) ;;
    let '(cols, geoparquet) := r in
    let cols := match columns with Some l => rename (inverse_mapping (default_field_mapping l)) cols | None => cols end in
    Ok (Frame cols (p_attributes f) geoparquet projection).
End Libraries.
