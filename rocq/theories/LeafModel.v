(** The map of pyTMD/tools.py:184-301 (class leaflet): its construction, and what moving the marker, typing
    its location, moving the map and moving the cursor change.

    The widgets of ipyleaflet and ipywidgets are modelled by the values read and assigned here.  As in
    traitlets, assigning a value calls the functions observing it only if the value changes.  The text of
    the marker is either what format wrote, given by the two numbers of units of 1e-8, or the fields the
    user typed.  Exact real arithmetic; the sign of zero is not modelled. *)
From Coq Require Import Reals String List Bool ZArith.
From Verif Require Import PyBase RBase StrBase.
Import ListNotations.
Open Scope R_scope.

(** tools.py:275-278 wrap_longitudes *)
Definition wrap_longitudes (lon : R) : R :=
  let phi := atan2 (sin (lon * PI / 180)) (cos (lon * PI / 180)) in
  phi * 180 / PI.

(** format: round half to even *)
Definition rint (x : R) : Z :=
  let f := Int_part x in
  let d := x - IZR f in
  if Rlt_dec d (1 / 2) then f else if Rlt_dec (1 / 2) d then (f + 1)%Z
  else if Z.even f then f else (f + 1)%Z.
(** '{0:0.8f}': the number of units of 1e-8, and float() of what is written *)
Definition digits (x : R) : Z := rint (x * 100000000).
Definition written (z : Z) : R := IZR z / 100000000.

Inductive label := Formatted (lat lon : Z) | Typed (fields : list (option R)).
Record view := View {
  location : R * R;             (* marker.location *)
  shown : label;                (* marker_text.value *)
  center : R * R;               (* map.center *)
  cursor : option (Z * Z) }.    (* cursor.value: numbers of units of 1e-4 *)

Definition same_pair (a b : R * R) : bool :=
  (if Req_EM_T (fst a) (fst b) then true else false) && (if Req_EM_T (snd a) (snd b) then true else false).
Definition same_label (t : label) (lat lon : Z) : bool :=
  match t with Formatted a b => Z.eqb a lat && Z.eqb b lon | Typed _ => false end.

(** marker.location = l (by dragging, or by set_marker_location): the observer set_marker_text
    (tools.py:281-284) writes the text, whose observer set_marker_location (291-293) assigns the location
    read from it, and so on; [n] bounds the depth of these calls *)
Fixpoint move (n : nat) (s : view) (l : R * R) : option view :=
  match n with
  | O => None
  | S m =>
      if same_pair (location s) l then Some s else
      let s1 := View l (shown s) (center s) (cursor s) in
      let lat := digits (fst l) in
      let lon := digits (wrap_longitudes (snd l)) in
      if same_label (shown s1) lat lon then Some s1 else
      let s2 := View l (Formatted lat lon) (center s) (cursor s) in
      move m s2 (written lat, written lon)
  end.

(** the user types a text, other than the one shown: set_marker_location, tools.py:291-293 *)
Definition type_text (n : nat) (s : view) (fields : list (option R)) : option (view * option exn) :=
  let s1 := View (location s) (Typed fields) (center s) (cursor s) in
  match fields with
  | [Some lat; Some lon] => match move n s1 (lat, lon) with Some s' => Some (s', None) | None => None end
  | _ => Some (s1, Some ValueError)
  end.

(** the map is moved: set_map_center observes the map, tools.py:262, 287-288; [n] bounds the depth *)
Fixpoint pan (n : nat) (s : view) (c : R * R) : option view :=
  match n with
  | O => None
  | S m => if same_pair (center s) c then Some s
           else pan m (View (location s) (shown s) c (cursor s)) (location s)
  end.

(** tools.py:296-301 handle_interaction *)
Definition handle_interaction (s : view) (type : string) (c : R * R) : view :=
  if String.eqb type "mousemove" then
    View (location s) (shown s) (center s)
      (Some (rint (fst c * 10000), rint (wrap_longitudes (snd c) * 10000)))
  else s.

(** ** tools.py:185-264 leaflet.__init__ *)
(** the keyword arguments given, None where left out; [k_map] is the map passed in, by the name of its system *)
Record keywords := Keywords {
  k_map : option (option string); k_zoom_control : option bool; k_scale_control : option bool;
  k_cursor_control : option bool; k_layer_control : option bool; k_marker_control : option bool;
  k_center : option (R * R) }.
Record leaflet := Leaflet { crs : string; controls : list string; marker : option ((R * R) * label) }.
(** kwargs.setdefault(key, default) and kwargs[key] *)
Definition default {A} (k : option A) (d : A) : A := match k with Some v => v | None => d end.
Definition init (projection : string) (k : keywords) : res leaflet :=
  (* 187-194: no default for marker_control *)
  let the_map := default (k_map k) None in
  let zoom_control := default (k_zoom_control k) false in
  let scale_control := default (k_scale_control k) false in
  let cursor_control := default (k_cursor_control k) true in
  let layer_control := default (k_layer_control k) true in
  let c := default (k_center k) (39, -108) in
  do name <- (if String.eqb projection "Global" then Ok "EPSG:3857"%string      (* 196-201 *)
              else if String.eqb projection "North" then Ok "EPSG:5936"%string  (* 202-209 *)
              else if String.eqb projection "South" then Ok "EPSG:3031"%string  (* 210-216 *)
              else match the_map with Some n => Ok n | None => Err AttributeError end) ;;  (* 217-220 *)
  let l1 := if layer_control then ["layers"%string] else [] in     (* 222-225 *)
  let l2 := if zoom_control then ["zoom"%string] else [] in        (* 227-233 *)
  let l3 := if scale_control then ["scale"%string] else [] in      (* 235-237 *)
  let l4 := if cursor_control then ["cursor"%string] else [] in    (* 239-245 *)
  do marker_control <- match k_marker_control k with Some b => Ok b | None => Err KeyError end ;;  (* 247 *)
  if marker_control then
    Ok (Leaflet name (l1 ++ l2 ++ l3 ++ l4 ++ ["marker"%string])%list
      (Some (c, Formatted (digits (fst c)) (digits (snd c)))))     (* 249-264 *)
  else Ok (Leaflet name (l1 ++ l2 ++ l3 ++ l4)%list None).
