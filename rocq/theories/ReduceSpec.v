(** What reducing an OTIS grid to a region is to give (used by C93). *)
From Coq Require Import String Ascii Reals ZArith List Bool.
Import ListNotations.
Open Scope R_scope.

(** the least and greatest of some numbers *)
Definition bounds_of (l : list R) (lo hi : R) : Prop := In lo l /\ In hi l /\ Forall (fun x => lo <= x <= hi) l.
Definition in_box (lo hi x : R) : bool := if Rle_dec lo x then if Rle_dec x hi then true else false else false.
(** the entries of a list that stand at places of an axis within the limits *)
Definition kept {A} (lo hi : R) (axis : list R) (l : list A) : list A :=
  map snd (filter (fun p => in_box lo hi (fst p)) (combine axis l)).
(** the part of a matrix within the box *)
Definition restricted {A} (lx hx ly hy : R) (xs ys : list R) (m : list (list A)) : list (list A) :=
  map (kept lx hx xs) (kept ly hy ys m).
(** distance of the first two places of an axis *)
Definition pitch (axis : list R) : R := nth 1 axis 0 - nth 0 axis 0.
