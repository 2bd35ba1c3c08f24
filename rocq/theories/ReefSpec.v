(** Vocabulary of the statements about the options for ATLAS models (C87, C88),
    independent of the functions of the model. *)
From Coq Require Import Reals List Bool Arith ZArith.
From Verif Require Import ExtractModel ExtractSpec AtlasNcModel AtlasNcSpec CropModel.
Import ListNotations.
Open Scope R_scope.

(** no cropping was asked for, or the bounds (those of the points if none are given) are all
    zero *)
Definition not_cropped (crop : bool) (bounds : option limits) (pts : list (R * R)) : Prop :=
  crop = false \/
  match bounds with
  | Some b => x_min b = 0 /\ x_max b = 0 /\ y_min b = 0 /\ y_max b = 0
  | None => forall p, In p pts -> p = (0, 0)
  end.
(** the depth by which the transports are divided where the depth D is masked: the fill
    value 1e20 with bilinear interpolation, and otherwise the number under the mask *)
Definition divisor (w : way) (D : option R * bool) (d : R) : Prop :=
  match w with Quick Bilinear => d = 10 ^ 20 | _ => fst D = Some d end.
(** the constant of a node as it is returned for another point *)
Definition lent (velocity : bool) (sc d : R) (z out : option (R * R)) : Prop :=
  exists v a p, z = Some v /\ amplitude_phase v a p /\ out = Some ((if velocity then a / (d / 100) else a) * sc, p).
(** the nodes n' of a smaller model are those of rows c to c + nr - 1 and columns a to
    a + na - 1 of n, the same for the numbers of a file *)
Definition nodes_block (nx : nat) (a : Z) (na c nr : nat) (n n' : nodes) : Prop :=
  forall j i, (j < nr)%nat -> (i < na)%nat -> depth_of n' j i = depth_of n (c + j) (column nx (a + Z.of_nat i)).
Definition parts_block (nx : nat) (a : Z) (na c nr : nat) (p p' : parts) : Prop :=
  forall j i, (j < nr)%nat -> (i < na)%nat -> number_of p' j i = number_of p (c + j) (column nx (a + Z.of_nat i)).
