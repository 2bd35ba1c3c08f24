(** Vocabulary of the statements about the methods linear and nearest (C82), independent
    of the model. *)
From Coq Require Import Reals List ZArith.
From Verif Require Import ExtractSpec.
Import ListNotations.
Open Scope R_scope.

(** (a, b) is the node nearest to (x, y); halfway the western and the southern one *)
Definition nearest_node (k : kind) (x0 dx y0 dy x y : R) (a : Z) (b : nat) : Prop :=
  node_x k x0 dx a - dx / 2 < x <= node_x k x0 dx a + dx / 2 /\
  node_y k y0 dy b - dy / 2 < y <= node_y k y0 dy b + dy / 2.
(** numpy's fill value of complex numbers is not among the constants *)
Definition unfilled (z : option (R * R)) : Prop := z <> Some (100000000000000000000, 0).
(** the constant of a node with numpy's fill value where there is none *)
Definition refilled (w : option R) (c : option (R * R) * bool) : option (R * R) :=
  match tide w c with Some z => Some z | None => Some (100000000000000000000, 0) end.
