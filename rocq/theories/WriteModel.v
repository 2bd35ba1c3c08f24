(** Model of the netCDF4 and HDF5 writers and readers (pyTMD/spatial.py:364-583,
    877-1122).

    Numbers are opaque (only their equality matters), so they are integers here; NaN,
    which differs from itself, is left out, as are dtypes and compression.  A masked
    array is a list of values with a mask.  The caller's attribute dictionaries live
    in a heap, since the writers change them in place and two variables may share one.

    What is assumed of the libraries: a netCDF dimension can be created once; data
    assigned to a netCDF variable must have its shape or be a single value, masked
    cells being stored as the fill value of the variable (or the library's default);
    reading masks the cells that hold it; a fill value cannot be set on an existing
    variable.  h5py stores the values under the mask, creates unwritten datasets
    filled with zeros, refuses filters on scalars and refuses to slice them. *)
From Coq Require Import String Ascii List ZArith Bool.
From Verif Require Import PyBase StrBase.
Import ListNotations.
Open Scope nat_scope.
Open Scope string_scope.

(** ** Python dictionaries in insertion order *)
Section Dict.
  Context {A : Type}.
  Fixpoint get (k : string) (d : list (string * A)) : option A :=
    match d with [] => None | (k', a) :: d' => if String.eqb k k' then Some a else get k d' end.
  Fixpoint put (k : string) (a : A) (d : list (string * A)) : list (string * A) :=
    match d with
    | [] => [(k, a)]
    | (k', a') :: d' => if String.eqb k k' then (k', a) :: d' else (k', a') :: put k a d'
    end.
  Fixpoint del (k : string) (d : list (string * A)) : list (string * A) :=
    match d with [] => [] | (k', a) :: d' => if String.eqb k k' then d' else (k', a) :: del k d' end.
  (** d.update(e) *)
  Definition update (d e : list (string * A)) : list (string * A) := fold_left (fun d q => put (fst q) (snd q) d) e d.
End Dict.
Definition has {A} (k : string) (d : list (string * A)) : bool := match get k d with Some _ => true | None => false end.
Definition sub {A} (k : string) (d : list (string * A)) : res A := match get k d with Some a => Ok a | None => Err KeyError end.

Inductive aval := AText (s : string) | ANum (x : Z).
Notation dict := (list (string * aval)).
Notation heap := (list dict).
(** a numpy (masked) array: shape, and values with their mask in C order *)
Record arr := Arr { shape : list nat; cells : list (Z * bool) }.
Definition size (sh : list nat) : nat := fold_right Nat.mul 1 sh.

Definition at_ref (h : heap) (r : nat) : dict := nth r h [].
Fixpoint set_ref (h : heap) (r : nat) (d : dict) : heap :=
  match h, r with
  | [], _ => []
  | _ :: h', O => d :: h'
  | x :: h', S r' => x :: set_ref h' r' d
  end.

(** ** netCDF4 files *)
Record ncvar := NcVar { nv_dims : list string; nv_fill : option aval; nv_data : list Z; nv_attrs : dict }.
Record ncfile := NcFile { nc_dims : list (string * nat); nc_vars : list (string * ncvar); nc_attrs : dict }.
Definition empty_nc : ncfile := NcFile [] [] [].

(** the library's default fill value (9.969209968386869e36) *)
Definition nc_default : Z := 9969209968386869047442886268468854784.
Definition fill_of (f : option aval) : Z := match f with Some (ANum x) => x | _ => nc_default end.

(** fileID.createDimension *)
Definition create_dim (name : string) (n : nat) (f : ncfile) : res ncfile :=
  if has name (nc_dims f) then Err OtherError else Ok (NcFile (nc_dims f ++ [(name, n)])%list (nc_vars f) (nc_attrs f)).
Definition dim_size (f : ncfile) (name : string) : nat := match get name (nc_dims f) with Some n => n | None => 0 end.
(** nc[key][:] = val *)
Definition assign (f : ncfile) (v : ncvar) (a : arr) : res ncvar :=
  let vshape := map (dim_size f) (nv_dims v) in
  let raw := map (fun c => if snd c : bool then fill_of (nv_fill v) else fst c) (cells a) in
  if list_eq_dec Nat.eq_dec vshape (shape a) then Ok (NcVar (nv_dims v) (nv_fill v) raw (nv_attrs v))
  else match raw with
       | [x] => Ok (NcVar (nv_dims v) (nv_fill v) (repeat x (size vshape)) (nv_attrs v))
       | _ => Err ValueError
       end.
(** nc[key].setncattr for every item *)
Definition set_attrs (v : ncvar) (d : dict) : res ncvar :=
  if has "_FillValue" d then Err OtherError
  else Ok (NcVar (nv_dims v) (nv_fill v) (nv_data v) (update (nv_attrs v) d)).

(** One pass of the loops at 951-967, 994-1017 and 1042-1062.  [fdims] are the
    dimensions of a variable with a fill value, [choose] those by shape.  A failure
    keeps what has happened to the dictionaries. *)
Definition write_var (fdims : list string) (choose : arr -> list string) (attributes : list (string * nat))
    (h : heap) (f : ncfile) (key : string) (val : arr) : heap * res ncfile :=
  let finish (h : heap) (r : nat) (v : ncvar) : heap * res ncfile :=
    (h, do v1 <- assign f v val ;; do v2 <- set_attrs v1 (at_ref h r) ;;
        Ok (NcFile (nc_dims f) (put key v2 (nc_vars f)) (nc_attrs f))) in
  match get key (nc_vars f) with
  | Some v =>
      match get key attributes with
      | None => (h, do _ <- assign f v val ;; Err KeyError)
      | Some r => finish h r v
      end
  | None =>
      match get key attributes with
      | None => (h, Err KeyError)
      | Some r =>
          match get "_FillValue" (at_ref h r) with
          | Some fv => finish (set_ref h r (del "_FillValue" (at_ref h r))) r (NcVar fdims (Some fv) [] [])
          | None => finish h r (NcVar (choose val) None [] [])
          end
      end
  end.
Fixpoint write_vars (fdims : list string) (choose : arr -> list string) (attributes : list (string * nat))
    (h : heap) (f : ncfile) (output : list (string * arr)) : heap * res ncfile :=
  match output with
  | [] => (h, Ok f)
  | (key, val) :: rest =>
      match write_var fdims choose attributes h f key val with
      | (h', Ok f') => write_vars fdims choose attributes h' f' rest
      | (h', Err e) => (h', Err e)
      end
  end.

(** spatial.py:934-967 _drift_netCDF4 *)
Definition drift_dims (a : arr) : list string := match shape a with [] => [] | _ => ["time"] end.
Definition write_drift (attributes : list (string * nat)) (h : heap) (f : ncfile) (output : list (string * arr)) : heap * res ncfile :=
  match get "time" output with
  | None => (h, Err KeyError)
  | Some t =>
      match create_dim "time" (match shape t with [] => 1 | n :: _ => n end) f with
      | Err e => (h, Err e)
      | Ok f1 => write_vars ["time"] drift_dims attributes h f1 output
      end
  end.

(** spatial.py:983-987, 1032-1036: the data fields, sorted *)
Definition coordinate_names : list string := ["t"; "time"; "lon"; "longitude"; "x"; "lat"; "latitude"; "y"].
Definition crs_names : list string := ["crs"; "crs_wkt"; "crs_proj4"; "projection"].
Fixpoint insert (s : string) (l : list string) : list string :=
  match l with [] => [s] | t :: l' => if String.leb s t then s :: l else t :: insert s l' end.
Definition sorted (l : list string) : list string := fold_right insert [] l.
Definition fields (output : list (string * arr)) : list string :=
  sorted (filter (fun k => negb (mem_str k coordinate_names) && negb (mem_str k crs_names)) (map fst output)).
Definition reference (n : nat) (output : list (string * arr)) : res (list nat) :=
  match filter (fun sh => Nat.eqb (List.length sh) n)
         (map (fun k => match get k output with Some a => shape a | None => [] end) (fields output)) with
  | [] => Err IndexError
  | sh :: _ => Ok sh
  end.
(** spatial.py:969-1017 _grid_netCDF4 *)
Definition grid_dims (ny nx nt : nat) (a : arr) : list string :=
  match shape a with
  | [_; _; _] => ["y"; "x"; "time"]
  | [_; _] => ["y"; "x"]
  | n :: _ => if Nat.eqb n ny then ["y"] else if Nat.eqb n nx then ["x"] else if Nat.eqb n nt then ["time"] else []
  | [] => []
  end.
Definition write_grid (attributes : list (string * nat)) (h : heap) (f : ncfile) (output : list (string * arr)) : heap * res ncfile :=
  match reference 3 output with
  | Ok [ny; nx; nt] =>
      match (do f1 <- create_dim "y" ny f ;; do f2 <- create_dim "x" nx f1 ;; create_dim "time" nt f2) with
      | Err e => (h, Err e)
      | Ok f3 => write_vars ["y"; "x"; "time"] (grid_dims ny nx nt) attributes h f3 output
      end
  | Ok _ => (h, Err ValueError)
  | Err e => (h, Err e)
  end.
(** spatial.py:1019-1062 _time_series_netCDF4 *)
Definition series_dims (nstation nt : nat) (a : arr) : list string :=
  match shape a with
  | [_; _] => ["station"; "time"]
  | n :: _ => if Nat.eqb n nt then ["time"] else if Nat.eqb n nstation then ["station"] else []
  | [] => []
  end.
Definition write_series (attributes : list (string * nat)) (h : heap) (f : ncfile) (output : list (string * arr)) : heap * res ncfile :=
  match reference 2 output with
  | Ok [nstation; nt] =>
      match (do f1 <- create_dim "station" nstation f ;; create_dim "time" nt f1) with
      | Err e => (h, Err e)
      | Ok f2 => write_vars ["station"; "time"] (series_dims nstation nt) attributes h f2 output
      end
  | Ok _ => (h, Err ValueError)
  | Err e => (h, Err e)
  end.

(** spatial.py:877-932 to_netCDF4 on the file as opened: empty for mode 'w', the file
    on disk for mode 'a'.  [stamp] holds the creation date and software version. *)
Definition to_netcdf (stamp : dict) (data_type : string) (opened : ncfile) (attributes : list (string * nat)) (h : heap)
    (output : list (string * arr)) : heap * res ncfile :=
  let '(h1, r) :=
    if String.eqb data_type "drift" then write_drift attributes h opened output
    else if String.eqb data_type "grid" then write_grid attributes h opened output
    else if String.eqb data_type "time series" then write_series attributes h opened output
    else (h, Ok opened) in
  (h1, do f <- r ;;
       let root := match get "ROOT" attributes with Some q => at_ref h1 q | None => [] end in
       Ok (NcFile (nc_dims f) (nc_vars f) (update (update (nc_attrs f) stamp) root))).

(** ** HDF5 files *)
Record h5var := H5Var { hv_shape : list nat; hv_data : list Z; hv_attrs : dict }.
Record h5file := H5File { h5_vars : list (string * h5var); h5_attrs : dict }.
Definition empty_h5 : h5file := H5File [] [].
(** one pass of the loop at 1092-1109; [made] are the datasets created by this call *)
Definition write_h5 (attributes : list (string * nat)) (h : heap) (made : list string) (f : h5file) (key : string) (val : arr)
  : heap * res (list string * h5file) :=
  let raw := map fst (cells val) in
  let finish (h : heap) (made : list string) (r : nat) (v : h5var) : heap * res (list string * h5file) :=
    (h, let d := at_ref h r in
        match d with
        | [] => Ok (made, H5File (put key v (h5_vars f)) (h5_attrs f))
        | _ => if mem_str key made
               then Ok (made, H5File (put key (H5Var (hv_shape v) (hv_data v) (update (hv_attrs v) d)) (h5_vars f)) (h5_attrs f))
               else Err KeyError
        end) in
  match get key (h5_vars f) with
  | Some v =>
      if match shape val with [] => true | _ => false end then (h, Err IndexError)
      else if list_eq_dec Nat.eq_dec (hv_shape v) (shape val) then
        match get key attributes with
        | None => (h, Err KeyError)
        | Some r => finish h made r (H5Var (hv_shape v) raw (hv_attrs v))
        end
      else match raw with
           | [x] => match get key attributes with
                    | None => (h, Err KeyError)
                    | Some r => finish h made r (H5Var (hv_shape v) (repeat x (size (hv_shape v))) (hv_attrs v))
                    end
           | _ => (h, Err TypeError)
           end
  | None =>
      match get key attributes with
      | None => (h, Err KeyError)
      | Some r =>
          match get "_FillValue" (at_ref h r) with
          | Some _ =>
              if match shape val with [] => true | _ => false end then (h, Err TypeError)
              else finish (set_ref h r (del "_FillValue" (at_ref h r))) (key :: made) r (H5Var (shape val) raw [])
          | None =>
              finish h (key :: made) r
                (H5Var (shape val) (match shape val with [] => [0%Z] | _ => raw end) [])
          end
      end
  end.
Fixpoint write_h5s (attributes : list (string * nat)) (h : heap) (made : list string) (f : h5file) (output : list (string * arr))
  : heap * res h5file :=
  match output with
  | [] => (h, Ok f)
  | (key, val) :: rest =>
      match write_h5 attributes h made f key val with
      | (h', Ok (made', f')) => write_h5s attributes h' made' f' rest
      | (h', Err e) => (h', Err e)
      end
  end.
(** spatial.py:1064-1122 to_HDF5 *)
Definition to_hdf5 (stamp : dict) (opened : h5file) (attributes : list (string * nat)) (h : heap) (output : list (string * arr))
  : heap * res h5file :=
  let '(h1, r) := write_h5s attributes h [] opened output in
  (h1, do f <- r ;;
       let root := match get "ROOT" attributes with Some q => at_ref h1 q | None => [] end in
       Ok (H5File (h5_vars f) (update (update (h5_attrs f) stamp) root))).

(** ** Readers *)
(** What from_netCDF4 and from_HDF5 return: arrays by output name, file attributes,
    variable attributes ('crs' among them). *)
Record input := Input { in_vars : list (string * arr); in_file : dict; in_attrs : list (string * dict) }.

(** re.match(attr, s, re.I) for a pattern of letters and underscores *)
Fixpoint prefix (p s : string) : bool :=
  match p, s with
  | EmptyString, _ => true
  | String a p', String b s' => Ascii.eqb a b && prefix p' s'
  | _, _ => false
  end.
Definition matches (attr s : string) : bool := prefix (lower attr) (lower s).
(** "ncattr, = [...]": one match exactly, otherwise the attribute is passed over *)
Definition get_one (attr : string) (d : dict) : option aval :=
  match filter (fun q => matches attr (fst q)) d with [q] => Some (snd q) | _ => None end.
Definition pick_attrs (one : string -> dict -> option aval) (names : list string) (d : dict) : dict :=
  flat_map (fun n => match one n d with Some v => [(n, v)] | None => [] end) names.
Definition file_names : list string := ["title"; "description"; "projection"].
Definition attr_names : list string :=
  ["description"; "units"; "long_name"; "calendar"; "standard_name"; "grid_mapping"; "_FillValue"].
(** the attributes a netCDF variable lists: its fill value is one of them *)
Definition listed (v : ncvar) : dict :=
  (match nv_fill v with Some x => [("_FillValue", x)] | None => [] end ++ nv_attrs v)%list.

(** spatial.py:417-425, 528-536: the mapping used, which is the caller's dictionary *)
Definition mapping (given : list (string * string)) (xname yname : string) (varname timename : option string) : list (string * string) :=
  match given with
  | [] => ([("x", xname); ("y", yname)] ++ match varname with Some v => [("data", v)] | None => [] end
             ++ match timename with Some t => [("time", t)] | None => [] end)%list
  | _ => given
  end.
(** spatial.py:459-463, 567-571 *)
Definition mask_fill (fill : aval) (a : arr) : arr :=
  Arr (shape a) (map (fun c => (fst c, match fill with ANum x => Z.eqb (fst c) x | AText _ => false end)) (cells a)).

Section Read.
  (** osr: the proj4 string of a coordinate reference system in wkt *)
  Variable proj4 : string -> string.
  Definition with_crs (r : input) (crs : string -> res dict) : res input :=
    match get "data" (in_vars r), get "data" (in_attrs r) with
    | Some _, Some d =>
        match get "grid_mapping" d with
        | Some (AText g) =>
            do c <- crs g ;;
            do w <- sub "crs_wkt" c ;;
            match w with
            | AText w => Ok (Input (in_vars r) (put "projection" (AText (proj4 w)) (in_file r)) (put "crs" c (in_attrs r)))
            | ANum _ => Err TypeError
            end
        | Some (ANum _) => Err TypeError
        | None => Ok r
        end
    | _, _ => Ok r
    end.
  Definition with_mask (r : input) : input :=
    match get "data" (in_vars r), get "data" (in_attrs r) with
    | Some a, Some d =>
        match get "_FillValue" d with
        | Some f => Input (put "data" (mask_fill f a) (in_vars r)) (in_file r) (in_attrs r)
        | None => r
        end
    | _, _ => r
    end.
  (** fileID.variables[nc][:] *)
  Definition nc_read (f : ncfile) (v : ncvar) : arr :=
    Arr (map (dim_size f) (nv_dims v)) (map (fun x => (x, Z.eqb x (fill_of (nv_fill v)))) (nv_data v)).
  (** spatial.py:364-472 from_netCDF4, root group *)
  Definition from_netcdf (f : ncfile) (given : list (string * string)) (xname yname : string) (varname timename : option string) : res input :=
    do vs <- mapM (fun q => do v <- sub (snd q) (nc_vars f) ;; Ok (fst q, v)) (mapping given xname yname varname timename) ;;
    do r <- with_crs (Input (map (fun q => (fst q, nc_read f (snd q))) vs) (pick_attrs get_one file_names (nc_attrs f))
                        (map (fun q => (fst q, pick_attrs get_one attr_names (listed (snd q)))) vs))
              (fun g => do v <- sub g (nc_vars f) ;; Ok (listed v)) ;;
    Ok (with_mask r).
  (** spatial.py:474-583 from_HDF5, root group *)
  Definition from_hdf5 (f : h5file) (given : list (string * string)) (xname yname : string) (varname timename : option string) : res input :=
    do vs <- mapM (fun q => do v <- sub (snd q) (h5_vars f) ;;
                            match hv_shape v with [] => Err ValueError | _ => Ok (fst q, v) end)
               (mapping given xname yname varname timename) ;;
    do r <- with_crs (Input (map (fun q => (fst q, Arr (hv_shape (snd q)) (map (fun x => (x, false)) (hv_data (snd q))))) vs)
                        (pick_attrs get file_names (h5_attrs f))
                        (map (fun q => (fst q, pick_attrs get attr_names (hv_attrs (snd q)))) vs))
              (fun g => do v <- sub g (h5_vars f) ;; Ok (hv_attrs v)) ;;
    Ok (with_mask r).
End Read.

(** spatial.py:1332-1360 default_field_mapping and 1362-1371 inverse_mapping *)
Fixpoint zip {A B} (l : list A) (m : list B) : list (A * B) :=
  match l, m with a :: l', b :: m' => (a, b) :: zip l' m' | _, _ => [] end.
Definition default_field_mapping (variables : list string) : list (string * string) :=
  zip ["time"; "y"; "x"; "data"] variables.
Definition inverse_mapping (m : list (string * string)) : list (string * string) :=
  update [] (map (fun q => (snd q, fst q)) m).
