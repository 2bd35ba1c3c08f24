(** What it means that a computed correction does not depend on the packaging of
    the request (C46). *)
From Coq Require Import Reals String List.
From Verif Require Import PyBase StrBase ComputeModel.
Import ListNotations.
Open Scope R_scope.

(** The points of a grid given by axes of different lengths, or point by point
    by two arrays of the same shape, row by row. *)
Definition grid_of (x y : coords) (P : list (list (R * R))) : Prop :=
  (exists xs ys, x = C1 xs /\ y = C1 ys /\ List.length xs <> List.length ys /\ xs <> [] /\ ys <> [] /\
     P = map (fun v => map (fun u => (u, v)) xs) ys) \/
  (exists X Y nx, x = C2 X /\ y = C2 Y /\ List.length X = List.length Y /\ X <> [] /\ (0 < nx)%nat /\
     Forall (fun r => List.length r = nx) X /\ Forall (fun r => List.length r = nx) Y /\
     P = map (fun q => combine (fst q) (snd q)) (combine X Y)).

(** A request returns the values [f x y t] arranged according to its type: drift,
    one value for each point and its time; time series, one row of times for each
    station; grid, one row of times for each cell.  [spelled T k]: the keyword T
    stands for type k. *)
Section Requests.
  Context {A : Type}.
  Variable spelled : string -> string -> Prop.
  Variable F : string -> coords -> coords -> list R -> res (out A).
  Variable f : R -> R -> R -> A.
  Definition drift_returns : Prop :=
    forall T pts, spelled T "drift"%string -> pts <> [] ->
      F T (C1 (map (fun p => fst (fst p)) pts)) (C1 (map (fun p => snd (fst p)) pts)) (map snd pts)
      = Ok (A1 (map (fun p => f (fst (fst p)) (snd (fst p)) (snd p)) pts)).
  Definition series_returns : Prop :=
    (forall T pts ts, spelled T "time series"%string -> pts <> [] -> ts <> [] ->
       F T (C1 (map fst pts)) (C1 (map snd pts)) ts = Ok (A2 (map (fun p => map (f (fst p) (snd p)) ts) pts))) /\
    (forall T x y ts, spelled T "time series"%string -> ts <> [] ->
       F T (C0 x) (C0 y) ts = Ok (A2 [map (f x y) ts])).
  Definition grid_returns : Prop :=
    forall T x y P ts, spelled T "grid"%string -> grid_of x y P -> ts <> [] ->
      F T x y ts = Ok (A3 (map (map (fun p => map (f (fst p) (snd p)) ts)) P)).

  (** There is one value for each location and time, whatever the request. *)
  Definition one_value_per_point : Prop := drift_returns /\ series_returns /\ grid_returns.
End Requests.

Definition as_written (T k : string) : Prop := T = k.
Definition in_any_case (T k : string) : Prop := lower T = k.

(** The type of the data when the keyword is left out: one point is a time series,
    as many points as times a drift, two dimensional coordinates or coordinates of
    different sizes a grid; anything else is refused. *)
Definition count (c : coords) : nat := match c with C0 _ => 1 | C1 l => List.length l | C2 rows => List.length (concat rows) end.
Definition guesses_type {A} (F : option string -> coords -> coords -> list R -> res A) : Prop :=
  (forall x y t, count x = 1%nat -> count y = 1%nat -> t <> [] -> F None x y t = F (Some "time series"%string) x y t) /\
  (forall x y t, count x <> 1%nat -> count x = count y -> count x = List.length t -> F None x y t = F (Some "drift"%string) x y t) /\
  (forall rows y t, let x := C2 rows in
     count x <> 1%nat -> count x = count y -> count x <> List.length t -> F None x y t = F (Some "grid"%string) x y t) /\
  (forall x y t, count x <> count y -> F None x y t = F (Some "grid"%string) x y t) /\
  (forall xs y t, let x := C1 xs in
     count x <> 1%nat -> count x = count y -> count x <> List.length t -> exists e, F None x y t = Err e) /\
  (forall x y t, F (Some EmptyString) x y t = F None x y t).
