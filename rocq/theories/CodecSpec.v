(** What reading back a written constituent should give. *)
From Coq Require Import List Reals.
From Verif Require Import RBase.
Open Scope R_scope.

(** the same mask, and the same value where it is not masked *)
Definition same_cell (c d : bool * option cpx) : Prop :=
  fst c = fst d /\ (fst c = false -> snd c = snd d).
Definition same_field (h k : list (list (bool * option cpx))) : Prop :=
  Forall2 (Forall2 same_cell) h k.

(** a property of all unmasked values *)
Definition unmasked (P : cpx -> Prop) (h : list (list (bool * option cpx))) : Prop :=
  forall row, In row h -> forall z, In (false, z) row -> exists v, z = Some v /\ P v.
