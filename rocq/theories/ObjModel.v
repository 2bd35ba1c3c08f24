(** Model of the tide model object, pyTMD/io/model.py: the database (lines
    83-131), the selection of a model (elevation 229-260, current 262-294),
    pathfinder (604-628), validate_format (837-848), from_dict, to_dict and
    serialize (850-912), parse_constituents and parse_file (914-968), the
    properties corrections and file_format (302-325), and what the readers are
    asked for (extract_constants 970-1054, read_constants 1056-1126,
    interpolate_constants 1128-1174).

    An object is its attributes by name and the constituents read before
    ("_constituents").  A method that raises leaves the attributes changed so
    far: methods return the new object with the result.  Simplifications: the
    file system is a predicate on path names and does not change; a path is its
    text and joinpath puts a slash between directory and name unless the name
    starts with one; a definition does not replace methods of the class
    (setattr would allow it); what the readers return is a function of what
    they are asked for. *)
From Coq Require Import String Ascii List QArith Bool Arith.
From Verif Require Import PyBase StrBase ValueBase DatabaseData ParseModel.
Import ListNotations.
Open Scope nat_scope.
Open Scope string_scope.

(** ** Dictionaries and the database *)
Definition dict_get {A : Type} (k : string) (d : list (string * A)) : option A :=
  option_map snd (find (fun kv => String.eqb k (fst kv)) d).
Fixpoint dict_set {A : Type} (k : string) (v : A) (d : list (string * A)) : list (string * A) :=
  match d with
  | [] => [(k, v)]
  | kv :: d' => if String.eqb k (fst kv) then (k, v) :: d' else kv :: dict_set k v d'
  end.
(** d.update(e) *)
Definition dict_update {A : Type} (d e : list (string * A)) : list (string * A) :=
  fold_left (fun d kv => dict_set (fst kv) (snd kv) d) e d.

(** a table of definitions by model name *)
Notation table := (list (string * list (string * val))).

Record database := { db_current : table; db_elevation : table }.

(** load_database, lines 107-131: the extra databases are the JSON objects of the
    files; DataBase(current, elevation) takes no other keyword *)
Definition load_database (extra : list (list (string * table))) : res database :=
  let parameters := fold_left dict_update extra [("current", builtin_current); ("elevation", builtin_elevation)] in
  if forallb (fun kv => mem_str (fst kv) ["current"; "elevation"]) parameters then
    match dict_get "current" parameters, dict_get "elevation" parameters with
    | Some c, Some e => Ok {| db_current := c; db_elevation := e |}
    | _, _ => Err TypeError
    end
  else Err TypeError.

(** ** Objects *)
Section Object.
  (** what reading constituents returns *)
  Context {C : Type}.

  Record obj := { attrs : string -> option val; cache : option C }.

  Definition set_attr (o : obj) (k : string) (v : val) : obj :=
    {| attrs := fun k' => if String.eqb k' k then Some v else attrs o k'; cache := cache o |}.
  Definition get (o : obj) (k : string) : res val :=
    match attrs o k with Some v => Ok v | None => Err AttributeError end.

  (** read-only properties, lines 296-449 *)
  Definition properties : list string :=
    ["gzip"; "corrections"; "file_format"; "atl03"; "atl06"; "atl07"; "atl10"; "atl11"; "atl12"; "gla12";
     "long_name"; "description"].

  (** __init__, lines 203-227 *)
  Definition fresh (directory : option string) (compressed verify : bool) : obj :=
    {| attrs := fun k =>
         option_map snd (find (fun kv => String.eqb k (fst kv))
           [("compressed", VBool compressed); ("constituents", VNone); ("minor", VNone);
            ("directory", match directory with Some d => VPath d | None => VNone end);
            ("flexure", VBool false); ("format", VNone); ("grid_file", VNone); ("model_file", VNone);
            ("name", VNone); ("projection", VNone); ("reference", VNone); ("scale", VNone); ("type", VNone);
            ("variable", VNone); ("verify", VBool verify); ("version", VNone)]);
       cache := None |}.

  (** computations on an object *)
  Notation comp A := (obj -> obj * res A).
  Definition ret {A : Type} (a : A) : comp A := fun o => (o, Ok a).
  Definition fail {A : Type} (e : exn) : comp A := fun o => (o, Err e).
  Definition lift {A : Type} (r : res A) : comp A := fun o => (o, r).
  Definition andthen {A B : Type} (m : comp A) (k : A -> comp B) : comp B :=
    fun o => let '(o1, r) := m o in match r with Ok a => k a o1 | Err e => (o1, Err e) end.
  Notation "'let*' x := m 'in' k" := (andthen m (fun x => k)) (at level 200, x name, k at level 200).
  Definition getattr (k : string) : comp val := fun o => (o, get o k).
  Definition setattr (k : string) (v : val) : comp unit :=
    fun o => if mem_str k properties then (o, Err AttributeError) else (set_attr o k v, Ok tt).

  (** from_dict, lines 850-862 *)
  Fixpoint from_dict (d : list (string * val)) : comp unit :=
    match d with
    | [] => ret tt
    | (k, v) :: d' => let* _ := setattr k v in from_dict d'
    end.

  Section Files.
    (** the working directory of the process and the files that exist *)
    Variable cwd : string.
    Variable file_exists : string -> bool.

    (** pathlib's joinpath *)
    Definition join (d s : string) : string :=
      match s with String "/" _ => s | _ => d ++ "/" ++ s end.

    (** if self.directory is None: self.directory = pathlib.Path().absolute() *)
    Definition default_directory : comp unit :=
      let* d := getattr "directory" in
      match d with VNone => setattr "directory" (VPath cwd) | _ => ret tt end.

    (** pathfinder, lines 604-628: neither branch for a path, where output_file
        is unbound *)
    Fixpoint find_path (dir : val) (gz : string) (verify : bool) (v : val) : res val :=
      match v with
      | VStr s =>
          match dir with
          | VPath d =>
              let p := join d (s ++ gz) in
              if (verify && negb (file_exists p))%bool then Err FileNotFoundError else Ok (VPath p)
          | _ => Err AttributeError
          end
      | VList l =>
          do out <- (fix go (l : list val) : res (list val) :=
                       match l with
                       | [] => Ok []
                       | x :: l' => do y <- find_path dir gz verify x ;; do ys <- go l' ;; Ok (y :: ys)
                       end) l ;;
          do valid <- mapM (fun f => match f with VPath p => Ok (file_exists p) | _ => Err AttributeError end) out ;;
          if (verify && negb (forallb id valid))%bool then Err FileNotFoundError else Ok (VList out)
      | _ => Err NameError
      end.
    Definition pathfinder (v : val) : comp val :=
      let* _ := default_directory in
      let* dir := getattr "directory" in
      let* z := getattr "compressed" in
      let* ver := getattr "verify" in
      lift (find_path dir (if truthy z then ".gz" else "") (truthy ver) v).

    (** validate_format, lines 837-848; formats(), lines 452-465, reads the built-in
        database *)
    Definition known_format (f : val) : bool :=
      existsb (fun m => match dict_get "format" (snd m), f with
                        | Some (VStr g), VStr s => String.eqb g s
                        | _, _ => false
                        end) (builtin_current ++ builtin_elevation)%list.
    Definition remap_format (f : val) : val :=
      fold_left (fun f m => if is_str f (fst m) then VStr (snd m) else f)
        [("ATLAS", "ATLAS-compact"); ("netcdf", "ATLAS-netcdf"); ("FES", "FES-netcdf"); ("GOT", "GOT-ascii")] f.
    Definition validate_format : comp unit :=
      let* f := getattr "format" in
      let* _ := setattr "format" (remap_format f) in
      if known_format (remap_format f) then ret tt else fail AssertionError.

    (** pathlib.Path(f).name: the text after the last slash *)
    Fixpoint has_slash (s : string) : bool :=
      match s with EmptyString => false | String c s' => if ascii_dec c "/" then true else has_slash s' end.
    Fixpoint base_name (s : string) : string :=
      match s with
      | EmptyString => EmptyString
      | String c s' => if has_slash s then base_name s' else s
      end.
    (** parse_file, lines 935-968, without raise_error *)
    Definition parse_file (v : val) : res val :=
      match v with
      | VStr s | VPath s => Ok (match parse (base_name s) with Ok c => VStr c | Err _ => VNone end)
      | _ => Err TypeError
      end.
    (** parse_constituents, lines 914-933 *)
    Definition parse_constituents : comp unit :=
      let* m := getattr "model_file" in
      let single f := let* c := lift (parse_file f) in setattr "constituents" (VList [c]) in
      let many l := let* cs := lift (mapM parse_file l) in setattr "constituents" (VList cs) in
      match m with
      | VStr _ | VPath _ => single m
      | VList l => many l
      | VDict d =>
          match dict_get "u" d with
          | None => fail KeyError
          | Some (VStr s) => single (VStr s)
          | Some (VPath s) => single (VPath s)
          | Some (VList l) => many l
          | Some _ => ret tt
          end
      | _ => ret tt
      end.

    Definition is_fes (f : val) : bool := (is_str f "FES-ascii" || is_str f "FES-netcdf")%bool.

    (** hasattr(self, 'grid_file') and getattr(self, 'grid_file') *)
    Definition resolve_grid : comp unit :=
      fun o => match attrs o "grid_file" with
               | Some g => if truthy g then (let* p := pathfinder g in setattr "grid_file" p) o else (o, Ok tt)
               | None => (o, Ok tt)
               end.
    Definition constituents_if_fes : comp unit :=
      let* f := getattr "format" in if is_fes f then parse_constituents else ret tt.

    Definition definition_of (t : res table) (m : string) : res (list (string * val)) :=
      do t <- t ;; match dict_get m t with Some d => Ok d | None => Err ValueError end.

    (** elevation, lines 229-260 *)
    Definition elevation (extra : list (list (string * table))) (m : string) : comp unit :=
      let* _ := default_directory in
      let* d := lift (definition_of (do db <- load_database extra ;; Ok (db_elevation db)) m) in
      let* _ := from_dict d in
      let* _ := resolve_grid in
      let* mf := getattr "model_file" in
      let* p := pathfinder mf in
      let* _ := setattr "model_file" p in
      let* _ := constituents_if_fes in
      validate_format.

    (** for key, val in self.model_file.items(): self.model_file[key] = self.pathfinder(val) *)
    Fixpoint resolve_each (keys : list (string * val)) : comp unit :=
      match keys with
      | [] => ret tt
      | (k, v) :: keys' =>
          let* p := pathfinder v in
          let* mf := getattr "model_file" in
          let* _ := match mf with
                    | VDict d => setattr "model_file" (VDict (dict_set k p d))
                    | _ => fail TypeError
                    end in
          resolve_each keys'
      end.

    (** current, lines 262-294 *)
    Definition current (extra : list (list (string * table))) (m : string) : comp unit :=
      let* _ := default_directory in
      let* d := lift (definition_of (do db <- load_database extra ;; Ok (db_current db)) m) in
      let* _ := from_dict d in
      let* _ := resolve_grid in
      let* mf := getattr "model_file" in
      let* _ := match mf with VDict d => resolve_each d | _ => fail AttributeError end in
      let* _ := constituents_if_fes in
      validate_format.
  End Files.

  (** ** Dictionaries of models *)
  (** to_dict, lines 864-891, without serialize; the value of a property is not
      modelled *)
  Definition default_fields : list string :=
    ["name"; "format"; "type"; "grid_file"; "model_file"; "projection"; "variable"; "scale"; "constituents";
     "version"; "reference"].
  Definition to_dict (fields : list string) (o : obj) : list (string * val) :=
    fold_left (fun d k => match attrs o k with
                          | Some VNone | None => d
                          | Some v => dict_set k v d
                          end) fields [].

  (** serialize, lines 893-912: a list is looked at through its first element
      (simplification: str() of the elements that are not paths is left out) *)
  Fixpoint serialize_val (v : val) : res val :=
    match v with
    | VPath p => Ok (VStr p)
    | VList l =>
        match l with
        | [] => Err IndexError
        | VPath _ :: _ => Ok (VList (map (fun x => match x with
                                                   | VPath p => VStr p
                                                   | x => x
                                                   end) l))
        | _ => Ok v
        end
    | VDict d =>
        do d' <- (fix go (d : list (string * val)) : res (list (string * val)) :=
                    match d with
                    | [] => Ok []
                    | (k, x) :: d' => do y <- serialize_val x ;; do ys <- go d' ;; Ok ((k, y) :: ys)
                    end) d ;;
        Ok (VDict d')
    | v => Ok v
    end.
  Definition serialize (d : list (string * val)) : res (list (string * val)) :=
    do v <- serialize_val (VDict d) ;; match v with VDict d' => Ok d' | _ => Err TypeError end.

  (** ** The properties used with the readers *)
  (** str.partition('-') *)
  Fixpoint partition (s : string) : string * string :=
    match s with
    | EmptyString => ("", "")
    | String c s' => if ascii_dec c "-" then ("", s')
                     else let '(a, b) := partition s' in (String c a, b)
    end.
  Fixpoint has_dash (s : string) : bool :=
    match s with EmptyString => false | String c s' => if ascii_dec c "-" then true else has_dash s' end.
  (** corrections, lines 302-311 *)
  Definition corrections (o : obj) : res string :=
    match attrs o "format" with
    | Some (VStr f) => if String.eqb f "GOT-ascii" then Ok "perth3" else Ok (fst (partition f))
    | _ => Err AttributeError
    end.
  (** file_format, lines 313-325: "in ('ATLAS-compact')" is a substring test *)
  Definition file_format (o : obj) : res string :=
    match attrs o "format" with
    | Some (VStr f) =>
        if contains f "ATLAS-compact" then Ok (fst (partition f))
        else if has_dash f then Ok (snd (partition f)) else Ok f
    | _ => Err AttributeError
    end.

  (** ** What the readers are asked for *)
  Inductive reader := OTIS | ATLAS | GOT | FES.
  (** reader, grid file, model file(s), projection, file format, version, compression, type, scale *)
  Record request := { q_reader : reader; q_grid : val; q_files : val; q_projection : val; q_format : string;
                      q_version : val; q_compressed : val; q_type : val; q_scale : val }.

  Definition reader_of (f : val) : option reader :=
    if (is_str f "OTIS" || is_str f "ATLAS-compact" || is_str f "TMD3")%bool then Some OTIS
    else if is_str f "ATLAS-netcdf" then Some ATLAS
    else if (is_str f "GOT-ascii" || is_str f "GOT-netcdf")%bool then Some GOT
    else if is_fes f then Some FES
    else None.

  (** the files of the component asked for: dictionaries have one entry per
      component; OTIS has both in one file *)
  Definition files_for (r : reader) (mf type : val) : res val :=
    match r, mf with
    | OTIS, VDict d => match dict_get "u" d with Some f => Ok f | None => Err KeyError end
    | (ATLAS | FES), VDict d =>
        match type with
        | VStr t => match dict_get (lower t) d with Some f => Ok f | None => Err KeyError end
        | _ => Err AttributeError
        end
    | _, _ => Ok mf
    end.

  (** [type] and [scale] are keyword arguments: the attributes by default.
      [extracting] tells extract_constants, where FES is given all the files
      (lines 1039-1041), from read_constants (line 1106).  The attributes that a
      reader is not given are part of the request all the same. *)
  Definition ask (extracting : bool) (type scale : option val) (o : obj) : res request :=
    do ty <- match type with Some t => Ok t | None => get o "type" end ;;
    do sc <- match scale with Some s => Ok s | None => get o "scale" end ;;
    do f <- get o "format" ;;
    match reader_of f with
    | None => Err NameError
    | Some r =>
        do mf <- get o "model_file" ;;
        do files <- files_for r mf ty ;;
        do grid <- get o "grid_file" ;;
        do proj <- get o "projection" ;;
        do ff <- file_format o ;;
        do ver <- get o "version" ;;
        do z <- get o "compressed" ;;
        Ok {| q_reader := r; q_grid := grid;
              q_files := match r, extracting with FES, true => mf | _, _ => files end;
              q_projection := proj; q_format := ff; q_version := ver; q_compressed := z;
              q_type := ty; q_scale := sc |}
    end.

  Section Reading.
    (** one column of constants *)
    Variable A : Type.
    (** the readers: constants by constituent and the constituents (FES does not
        return any); the constants of the node tide *)
    Variable read : request -> res (list A * list val).
    Variable node_column : A.

    (** extract_constants: for FES the list of constituents is that of the object
        itself (no constituents if it is None), and appending to it changes
        the object *)
    Definition extract (type scale : option val) (append_node : bool) : comp (list A * list val) :=
      fun o =>
        (let* q := lift (ask true type scale o) in
         let* r := lift (read q) in
         match q_reader q with
         | FES =>
             let* cs := getattr "constituents" in
             match cs with
             | VList l =>
                 if (append_node && negb (existsb (fun c => is_str c "node") l))%bool then
                   let* _ := setattr "constituents" (VList (l ++ [VStr "node"])%list) in
                   ret (fst r ++ [node_column], l ++ [VStr "node"])%list
                 else ret (fst r, l)
             | _ => if append_node then fail TypeError else ret (fst r, [])
             end
         | _ =>
             if (append_node && negb (existsb (fun c => is_str c "node") (snd r)))%bool
             then ret (fst r ++ [node_column], snd r ++ [VStr "node"])%list else ret r
         end) o.

    (** read_constants and interpolate_constants *)
    Variable read_all : request -> res C.
    Variable interpolate_at : reader -> C -> A.

    Definition read_constants (type : option val) : comp C :=
      fun o =>
        match (do q <- ask false type None o ;; read_all q) with
        | Ok c => ({| attrs := attrs o; cache := Some c |}, Ok c)
        | Err e => (o, Err e)
        end.
    Definition interpolate_constants (type : option val) : comp A :=
      let* _ := fun o => match cache o with
                         | Some _ => (o, Ok tt)
                         | None => (let* _ := read_constants type in ret tt) o
                         end in
      fun o =>
        match attrs o "format", cache o with
        | Some f, Some c => match reader_of f with Some r => (o, Ok (interpolate_at r c)) | None => (o, Err NameError) end
        | _, _ => (o, Err AttributeError)
        end.
  End Reading.
End Object.
Arguments obj C : clear implicits.
