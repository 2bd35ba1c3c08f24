(** Vocabulary of the statements about extrapolation when constituents that were read are
    interpolated (C91), independent of the model of the code. *)
From Coq Require Import Reals List ZArith.
From Verif Require Import ExtractSpec.
Import ListNotations.
Open Scope R_scope.

(** the constant a node offers: where there is water and a number, also if it is zero, which
    counts as numpy's fill value for scipy's interpolation on regular grids and as none
    otherwise *)
Definition offered (regular : bool) (w : option R) (c : option (R * R) * bool) : option (R * R) :=
  match tide w c with
  | Some z => Some z
  | None => match w, c with
            | Some _, (Some _, false) => if regular then Some (100000000000000000000, 0) else None
            | _, _ => None
            end
  end.
(** beyond the nodes of kind k *)
Definition off_nodes (around : bool) (k : kind) (x0 dx : R) (nx : nat) (y0 dy : R) (ny : nat) (x y : R) : Prop :=
  ~ (node_x k x0 dx (first_column around) <= x <= node_x k x0 dx (last_column around nx)) \/
  ~ (node_y k y0 dy 0 <= y <= node_y k y0 dy (ny - 1)).
(** what is returned for the constant of a node: for velocities the transport is divided by
    the depth at the point in hundreds if there is one, left as it is if the depth is masked,
    and lost if the depth is not a number *)
Definition refetched (velocity : bool) (depth : option R * bool) (z : option (R * R)) (out : option (R * R)) : Prop :=
  exists v a p, z = Some v /\ amplitude_phase v a p /\
    out = if velocity
          then match depth with
               | (_, true) => Some (a, p)
               | (Some d, false) => Some (a / (d / 100), p)
               | (None, false) => None
               end
          else Some (a, p).
