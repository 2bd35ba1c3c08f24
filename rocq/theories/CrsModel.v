(** Model of the crs class: coordinate reference systems of tide models and the conversion of
    points to and from them (pyTMD/crs.py:69-248).

    pyproj is a parameter: what CRS.from_user_input, CRS.from_epsg and CRS.from_string make of
    an argument, what Transformer.from_crs makes of two systems and what its transform makes of
    a direction and points are arbitrary functions that may fail.  int() of a string is a
    parameter as well.  Points stand for the pair of arrays.  An instance is its attributes
    name, crs (missing until get succeeds), _direction and transformer; __getitem__ and
    __setitem__ and attributes set from outside are not modelled.  Keywords of transform other
    than direction are part of pyproj's function. *)
From Coq Require Import String Ascii List Bool ZArith.
From Verif Require Import StrBase.
Import ListNotations.
Open Scope string_scope.

(** exceptions; CRSError is pyproj's, [Foreign] any other that pyproj raises *)
Inductive fault := ValueFault | CrsFault | TypeFault | IndexFault | AttributeFault | Foreign (n : nat).
Inductive out (A : Type) := Good (a : A) | Bad (e : fault).
Arguments Good {A}. Arguments Bad {A}.

(** the argument for a projection: crs.py:184 int, str or dict *)
Inductive given (D : Type) := GInt (z : Z) | GStr (s : string) | GDict (d : D).
Arguments GInt {D}. Arguments GStr {D}. Arguments GDict {D}.

(** pyproj.enums.TransformDirection, None where the property direction ends without a value,
    or another value passed as keyword *)
Inductive way_of := Forward | Inverse | NoDirection | Passed (s : string).

Record pyproj (D C P : Type) := Pyproj {
  user_input : given D -> out C;                      (* CRS.from_user_input *)
  epsg_code : Z -> out C;                             (* CRS.from_epsg *)
  crs_string : given D -> out C;                      (* CRS.from_string *)
  int_of : string -> option Z;                        (* int of a string *)
  title : C -> string;                                (* CRS.name *)
  geographic : C -> bool;                             (* CRS.is_geographic *)
  pair_up : C -> C -> out unit;                       (* Transformer.from_crs *)
  move : C -> C -> way_of -> P -> out P               (* Transformer.transform *)
}.
Arguments user_input {D C P}. Arguments epsg_code {D C P}. Arguments crs_string {D C P}. Arguments int_of {D C P}.
Arguments title {D C P}. Arguments geographic {D C P}. Arguments pair_up {D C P}. Arguments move {D C P}.

Section Class.
  Context {D C P : Type} (lib : pyproj D C P).

  (** int(PROJECTION): crs.py:202 *)
  Definition to_int (g : given D) : out Z :=
    match g with
    | GInt z => Good z
    | GStr s => match int_of lib s with Some z => Good z | None => Bad ValueFault end
    | GDict _ => Bad TypeFault
    end.
  (** except (ValueError, CRSError): crs.py:196, 203, 210 *)
  Definition caught (e : fault) : bool := match e with ValueFault | CrsFault => true | _ => false end.
  Definition otherwise {A} (r : out A) (k : unit -> out A) : out A :=
    match r with Good a => Good a | Bad e => if caught e then k tt else Bad e end.
  (** from_input: crs.py:184-215 *)
  Definition from_input (g : given D) : out C :=
    otherwise (user_input lib g) (fun _ =>
    otherwise (match to_int g with Good z => epsg_code lib z | Bad e => Bad e end) (fun _ =>
    otherwise (crs_string lib g) (fun _ => Bad CrsFault))).

  (** the attribute name: None, the request, or the name of a system *)
  Inductive label := NoName | Asked (g : given D) | Named (s : string).
  Record instance := Instance { name : label; crs : option C; letter : option ascii; transformer : option (C * C) }.
  (** __init__: crs.py:79-82 *)
  Definition fresh : instance := Instance NoName None None None.

  (** get: crs.py:126-144 *)
  Definition get (s : instance) (g : given D) : instance * out unit :=
    match from_input g with
    | Good c => (Instance (Named (title lib c)) (Some c) (letter s) (transformer s), Good tt)
    | Bad _ => (s, Bad CrsFault)
    end.
  (** direction: crs.py:217-227 *)
  Definition direction (s : instance) : way_of :=
    match letter s with
    | None => Forward
    | Some a => if Ascii.eqb (upper_ascii a) "F" then Forward else if Ascii.eqb (upper_ascii a) "B" then Inverse else NoDirection
    end.
  (** transform: crs.py:146-181; [d] is the keyword direction *)
  Definition transform (s : instance) (p : P) (epsg : given D) (d : option way_of) : instance * out P :=
    let dir := match d with Some d => d | None => direction s end in
    match from_input epsg with
    | Bad e => (s, Bad e)
    | Good source =>
        match crs s with
        | None => (s, Bad AttributeFault)
        | Some target =>
            match pair_up lib source target with
            | Bad e => (s, Bad e)
            | Good _ => (Instance (name s) (crs s) (letter s) (Some (source, target)), move lib source target dir p)
            end
        end
    end.
  (** convert: crs.py:84-123 *)
  Definition convert (s : instance) (p : P) (proj : given D) (bf : string) (epsg : given D) : instance * out P :=
    let s1 := Instance (Asked proj) (crs s) (letter s) (transformer s) in
    let (s2, r) := get s1 proj in
    match r with
    | Bad e => (s2, Bad e)
    | Good _ =>
        match bf with
        | EmptyString => (s2, Bad IndexFault)
        | String a _ => transform (Instance (name s2) (crs s2) (Some (upper_ascii a)) (transformer s2)) p epsg None
        end
    end.
  (** is_geographic: crs.py:229-234 *)
  Definition is_geographic (s : instance) : out bool := match crs s with Some c => Good (geographic lib c) | None => Bad AttributeFault end.
  (** __str__: crs.py:236-242: the name and the name of the direction *)
  Definition describe (s : instance) : out (label * way_of) :=
    match direction s with NoDirection => Bad AttributeFault | d => Good (name s, d) end.

  (** a sequence of calls on one instance, exceptions caught by the caller *)
  Inductive call :=
  | Convert (p : P) (proj : given D) (bf : string) (epsg : given D)
  | Get (proj : given D)
  | Transform (p : P) (epsg : given D) (d : option way_of).
  Definition after_call (s : instance) (c : call) : instance :=
    match c with
    | Convert p g bf e => fst (convert s p g bf e)
    | Get g => fst (get s g)
    | Transform p e d => fst (transform s p e d)
    end.
  Definition after (calls : list call) (s : instance) : instance := fold_left after_call calls s.
End Class.
