(** Vocabulary of the statements about models that are read before they are interpolated
    (C89), independent of the model of the code. *)
From Coq Require Import Reals List ZArith.
From Verif Require Import ExtractSpec.
Import ListNotations.
Open Scope R_scope.

(** the points in the longitudes of the columns: as they are, unless some are west of
    Greenwich and some column is beyond 180 degrees (then they are moved east), or some
    are beyond 180 degrees and some column is west of Greenwich (then they are moved west) *)
Inductive moved (column : R -> Prop) (pts : list (R * R)) : list (R * R) -> Prop :=
| moved_east : (exists p, In p pts /\ fst p < 0) -> (exists a, column a /\ 180 < a) ->
    moved column pts (map (fun p => (eastward (fst p), snd p)) pts)
| moved_west : (forall p, In p pts -> 0 <= fst p) \/ (forall a, column a -> a <= 180) ->
    (exists p, In p pts /\ 180 < fst p) -> (exists a, column a /\ a < 0) ->
    moved column pts (map (fun p => (westward (fst p), snd p)) pts)
| moved_not : (forall p, In p pts -> 0 <= fst p) \/ (forall a, column a -> a <= 180) ->
    (forall p, In p pts -> fst p <= 180) \/ (forall a, column a -> 0 <= a) ->
    moved column pts pts.
