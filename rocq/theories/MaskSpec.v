(** Vocabulary of the statements about the domain of a tide model (C72), independent of
    the functions of the model. *)
From Coq Require Import Reals List Bool Arith ZArith.
From Verif Require Import ExtractModel ExtractSpec SeriesModel AtlasNcModel AtlasNcSpec MaskModel.
Import ListNotations.
Open Scope R_scope.

Definition ascending (l : list R) : Prop := (2 <= length l)%nat /\ forall i j, (i < j < length l)%nat -> nth i l 0 < nth j l 0.
(** node i of an axis is next to x: the nodes before it are below x and those after it
    above *)
Definition beside (l : list R) (i : nat) (x : R) : Prop :=
  (i < length l)%nat /\ (forall k, (k < i)%nat -> nth k l 0 < x) /\ (forall k, (i < k < length l)%nat -> x < nth k l 0).
(** node i is the nearest to x, the lower one of two *)
Definition nearest (l : list R) (i : nat) (x : R) : Prop :=
  (i < length l)%nat /\ forall k, (k < length l)%nat -> k <> i ->
    Rabs (x - nth i l 0) < Rabs (x - nth k l 0) \/ (i < k)%nat /\ Rabs (x - nth i l 0) = Rabs (x - nth k l 0).
(** within the axes *)
Definition spanned (l : list R) (x : R) : Prop := nth 0 l 0 <= x <= nth (length l - 1) l 0.
Definition boxed (xi yi : list R) (x y : R) : Prop := spanned xi x /\ spanned yi y.

(** what was read has these axes *)
Inductive gridded (xi yi : list R) : source -> Prop :=
  | On_otis g : gx g = xi -> gy g = yi -> rect (length yi) (length xi) (gmz g) -> gridded xi yi (Sotis g)
  | On_atlas t g nd : nodes_for g t nd -> nlon nd = xi -> nlat nd = yi -> fny g = length yi -> rect (length xi) (length yi) (ndepth nd) -> gridded xi yi (Satlas t g)
  | On_got sh : slon sh = xi -> slat sh = yi -> rect (length yi) (length xi) (shc sh) -> gridded xi yi (Sgot sh)
  | On_fes sh : slon sh = xi -> slat sh = yi -> rect (length yi) (length xi) (shc sh) -> gridded xi yi (Sfes sh).
(** there is water at the node in row j and column i *)
Inductive open_at (j i : nat) : source -> Prop :=
  | Open_otis g : entry 0%Z (gmz g) j i <> 0%Z -> open_at j i (Sotis g)
  | Open_atlas t g nd d : nodes_for g t nd -> depth_of nd j i = Some d -> open_at j i (Satlas t g)
  | Open_got sh : snd (entry (None, true) (shc sh) j i) = false -> open_at j i (Sgot sh)
  | Open_fes sh : snd (entry (None, true) (shc sh) j i) = false -> open_at j i (Sfes sh).
(** where a model is asked for a point: in its projection, or from 0 to 360 degrees east *)
Definition position (fwd : R * R -> R * R) (s : source) (lonlat : R * R) : R * R :=
  match s with Sotis _ => fwd lonlat | _ => (eastward (fst lonlat), snd lonlat) end.
