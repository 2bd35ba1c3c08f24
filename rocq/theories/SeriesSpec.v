(** Vocabulary of the statements about models with a file for each constituent (C69),
    independent of the model. *)
From Coq Require Import Reals List ZArith.
From Verif Require Import ExtractSpec.
Import ListNotations.
Open Scope R_scope.

(** the longitudes of a model: 0 to 360, or -180 to 180, or within both *)
Inductive frame := Eastern | Western | Either.
Definition framed (f : frame) (lons : list R) : Prop :=
  match f with
  | Eastern => (exists a, In a lons /\ 180 < a) /\ forall a, In a lons -> 0 <= a
  | Western => (exists a, In a lons /\ a < 0) /\ forall a, In a lons -> a <= 180
  | Either => lons <> [] /\ forall a, In a lons -> 0 <= a <= 180
  end.
(** the longitude of a point in the frame of the model *)
Definition placed (f : frame) (x : R) : R :=
  match f with Eastern => eastward x | Western => westward x | Either => x end.

(** the columns there are: around the globe one before the first and some after the last *)
Definition reached (after : Z) (around : bool) (nx : nat) (i : Z) : Prop :=
  if around then (-1 <= i < Z.of_nat nx + after)%Z else (0 <= i < Z.of_nat nx)%Z.
Definition first_of (around : bool) : Z := if around then (-1)%Z else 0%Z.
Definition last_of (after : Z) (around : bool) (nx : nat) : Z := if around then (Z.of_nat nx + after - 1)%Z else (Z.of_nat nx - 1)%Z.

(** the constant of a node *)
Definition valid (c : option (R * R) * bool) : option (R * R) := if snd c then None else fst c.
(** what is returned: the amplitude in other units and the phase *)
Definition scaled (sc : R) (z out : option (R * R)) : Prop :=
  match z with
  | None => out = None
  | Some z => exists a p, amplitude_phase z a p /\ out = Some (a * sc, p)
  end.
