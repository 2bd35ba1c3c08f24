(** Model of reading a definition file, pyTMD/io/model.py _parse_json, lines
    679-835 (from_file and _parse_file, lines 630-677, open the file and call it).
    The file is given as the JSON object in it.

    [glob dir pattern] is what directory.glob finds, in its order; [expand] is
    expanduser; [resolve] makes a path absolute. *)
From Coq Require Import String Ascii List QArith Bool Arith.
From Verif Require Import PyBase StrBase ValueBase ObjModel.
Import ListNotations.
Open Scope nat_scope.
Open Scope string_scope.

Notation "'let*' x := m 'in' k" := (andthen m (fun x => k)) (at level 200, x name, k at level 200).

Section Definition_file.
  Context {C : Type}.
  Variable glob : string -> string -> res (list string).
  Variable expand resolve : string -> string.

  (** assert self.k *)
  Definition assert_attr (k : string) (o : obj C) : obj C * res unit :=
    (let* v := getattr k in if truthy v then ret tt else fail AssertionError) o.

  (** type == ['u','v'] and type == 'z' *)
  Definition is_uv (v : val) : bool :=
    match v with VList [VStr a; VStr b] => (String.eqb a "u" && String.eqb b "v")%bool | _ => false end.

  (** list(directory.glob(s)), or the concatenation over an iterable; anything
      else is left as it is; iterating a dictionary gives its keys *)
  Definition search (d : string) (v : val) : res val :=
    match v with
    | VStr s => do l <- glob d s ;; Ok (VList (map VPath l))
    | VList l =>
        do ls <- mapM (fun x => match x with VStr s => glob d s | _ => Err TypeError end) l ;;
        Ok (VList (map VPath (concat ls)))
    | VDict kv => do ls <- mapM (fun x => glob d (fst x)) kv ;; Ok (VList (map VPath (concat ls)))
    | v => Ok v
    end.
  (** the characters of a text, each as a text *)
  Fixpoint characters (s : string) : list string :=
    match s with EmptyString => [] | String c s' => String c EmptyString :: characters s' end.
  (** pathlib.Path(f).expanduser() *)
  Definition as_path (v : val) : res val :=
    match v with VStr s | VPath s => Ok (VPath (expand s)) | _ => Err TypeError end.
  (** [pathlib.Path(f).expanduser() for f in v]: the elements of a text are its
      characters *)
  Definition each_path (v : val) : res val :=
    match v with
    | VStr s => Ok (VList (map (fun c => VPath (expand c)) (characters s)))
    | VList l => do ps <- mapM as_path l ;; Ok (VList ps)
    | VDict kv => Ok (VList (map (fun x => VPath (expand (fst x))) kv))
    | _ => Err TypeError
    end.
  (** for key, x in v.items(): v[key] = f(x) *)
  Definition over_items (f : val -> res val) (v : val) : res val :=
    match v with
    | VDict kv => do ps <- mapM (fun x => do y <- f (snd x) ;; Ok (fst x, y)) kv ;; Ok (VDict ps)
    | _ => Err AttributeError
    end.

  (** the grid file, lines 702-707 and 746-751 *)
  Definition grid_path (directory grid : val) : res val :=
    match directory, grid with
    | VNone, _ => as_path grid
    | VPath d, (VStr s | VPath s) => Ok (VPath (resolve (join d s)))
    | VPath _, _ => Err TypeError
    | _, _ => Err AttributeError
    end.

  (** the model files: lines 708-744 for OTIS, 752-786 for ATLAS-netcdf and
      787-821 for FES and GOT *)
  Definition model_paths (otis : bool) (type directory mf : val) : res val :=
    if is_uv type then
      match directory with
      | VNone =>
          if otis then match mf with VDict _ => over_items each_path mf | _ => as_path mf end
          else over_items each_path mf
      | VPath d => over_items (search d) mf
      | _ => Err AttributeError
      end
    else if is_str type "z" then
      match directory with
      | VNone =>
          if otis then match mf with VList _ => each_path mf | _ => as_path mf end
          else each_path mf
      | VPath d => search d mf
      | _ => Err AttributeError
      end
    else if otis then as_path mf else Ok mf.

  Definition is_otis (f : val) : bool := (is_str f "OTIS" || is_str f "ATLAS-compact" || is_str f "TMD3")%bool.

  Definition parse_definition (d : list (string * val)) : obj C -> obj C * res unit :=
    let* _ := from_dict d in
    let* _ := assert_attr "name" in
    let* _ := validate_format in
    let* _ := assert_attr "type" in
    let* _ := assert_attr "model_file" in
    let* f := getattr "format" in
    let* type := getattr "type" in
    let* dir := getattr "directory" in
    let* _ := if (is_otis f || is_str f "ATLAS-netcdf")%bool then
                let* _ := assert_attr "grid_file" in
                let* g := getattr "grid_file" in
                let* p := lift (grid_path dir g) in
                setattr "grid_file" p
              else ret tt in
    let* _ := if (is_otis f || is_str f "ATLAS-netcdf" || is_fes f || is_str f "GOT-ascii" || is_str f "GOT-netcdf")%bool then
                let* mf := getattr "model_file" in
                let* p := lift (model_paths (is_otis f) type dir mf) in
                setattr "model_file" p
              else ret tt in
    let* _ := if is_otis f then assert_attr "projection" else ret tt in
    let* _ := if (is_str f "ATLAS-netcdf" || is_str f "GOT-ascii" || is_str f "GOT-netcdf" || is_fes f)%bool
              then assert_attr "scale" else ret tt in
    if is_fes f then
      let* _ := assert_attr "version" in
      let* c := getattr "constituents" in
      match c with VNone => parse_constituents | _ => ret tt end
    else ret tt.
End Definition_file.
