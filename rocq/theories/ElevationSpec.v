(** Vocabulary of C78: the height of the tide at a node of a grid, and what a request
    returns for a point and a time. *)
From Coq Require Import String Reals List Arith.
From Verif Require Import StrBase ComputeModel ComputeSpec.
Import ListNotations.
Open Scope R_scope.
Open Scope list_scope.

(** the real part of f z exp(i u) *)
Definition rise (f u : R) (z : R * R) : R := f * (fst z * cos u - snd z * sin u).
(** the sum over the constituents by name, if all of them have a constant *)
Fixpoint height (f u : string -> R) (names : list string) (zs : list (option (R * R))) : option R :=
  match names, zs with
  | [], [] => Some 0
  | c :: names, Some z :: zs => option_map (Rplus (rise (f c) (u c) z)) (height f u names zs)
  | _, _ => None
  end.
(** the same from amplitudes and lags in degrees *)
Fixpoint cosines (f u : string -> R) (names : list string) (row : list (option (R * R))) : option R :=
  match names, row with
  | [], [] => Some 0
  | c :: names, Some (a, p) :: row => option_map (Rplus (f c * a * cos (u c - p * PI / 180))) (cosines f u names row)
  | _, _ => None
  end.
(** at a node there are all the constants or none *)
Definition all_or_none (zs : list (option (R * R))) : Prop := (forall z, In z zs -> z <> None) \/ (forall z, In z zs -> z = None).

(** v is what is returned by a request of type T (in any case) at the coordinates x
    and y for the times ts; the points in order are pts, and w is the entry of v for
    point n and time t *)
Inductive shows {X} (T : string) (x y : coords) (ts : list R) (v : out X) (pts : list (R * R)) (n : nat) (t : R) (w : X) : Prop :=
| shows_drift vs : lower T = "drift"%string -> x = C1 (map fst pts) -> y = C1 (map snd pts) -> List.length pts = List.length ts ->
    v = A1 vs -> nth_error ts n = Some t -> nth_error vs n = Some w -> shows T x y ts v pts n t w
| shows_series rows row k : lower T = "time series"%string -> x = C1 (map fst pts) -> y = C1 (map snd pts) ->
    v = A2 rows -> nth_error rows n = Some row -> nth_error ts k = Some t -> nth_error row k = Some w -> shows T x y ts v pts n t w
| shows_grid P rows row k : lower T = "grid"%string -> grid_of x y P -> pts = concat P ->
    v = A3 rows -> nth_error (concat rows) n = Some row -> nth_error ts k = Some t -> nth_error row k = Some w -> shows T x y ts v pts n t w.
(** the request is well formed *)
Inductive asks (T : string) (x y : coords) (ts : list R) (pts : list (R * R)) : Prop :=
| asks_drift : lower T = "drift"%string -> x = C1 (map fst pts) -> y = C1 (map snd pts) -> List.length pts = List.length ts -> asks T x y ts pts
| asks_series : lower T = "time series"%string -> x = C1 (map fst pts) -> y = C1 (map snd pts) -> asks T x y ts pts
| asks_grid P : lower T = "grid"%string -> grid_of x y P -> pts = concat P -> asks T x y ts pts.
(** the shape of what is returned: a value for each point, or for each point and time in
    rows of times, or in an array of these rows like the points of the grid *)
Inductive arranged {X} (T : string) (x y : coords) (ts : list R) (pts : list (R * R)) (v : out X) : Prop :=
| arranged_drift vs : lower T = "drift"%string -> v = A1 vs -> List.length vs = List.length pts -> arranged T x y ts pts v
| arranged_series rows : lower T = "time series"%string -> v = A2 rows -> List.length rows = List.length pts ->
    (forall row, In row rows -> List.length row = List.length ts) -> arranged T x y ts pts v
| arranged_grid P rows : lower T = "grid"%string -> grid_of x y P -> pts = concat P -> v = A3 rows -> map (@List.length _) rows = map (@List.length _) P ->
    (forall r row, In r rows -> In row r -> List.length row = List.length ts) -> arranged T x y ts pts v.
(** times with which point n is paired *)
Definition paired (T : string) (ts : list R) (n : nat) (t : R) : Prop :=
  if string_dec (lower T) "drift" then nth_error ts n = Some t else In t ts.
(** a value and its mask *)
Definition flagged (v : option R) : option R * bool := (v, match v with None => true | Some _ => false end).
