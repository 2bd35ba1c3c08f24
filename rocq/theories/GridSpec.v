(** Independent vocabulary for the grid properties (C30-C34). *)
From Coq Require Import List ZArith Lia.
Import ListNotations.
Open Scope Z_scope.

(** Two longitudes (in units of 1/u degree) denote the same meridian. *)
Definition same_meridian (u x y : Z) : Prop := exists k : Z, x = y + k * (360 * u).

(** Evenly spaced axis [x0, x0+step, ..., x0+(n-1)*step]. *)
Definition even_axis (x0 step : Z) (n : nat) : list Z :=
  map (fun i => x0 + Z.of_nat i * step) (seq 0 n).

(** A global axis: evenly spaced, positive step, exactly once around the globe. *)
Definition global_axis (u x0 step : Z) (n : nat) : Prop :=
  0 < u /\ 0 < step /\ Z.of_nat n * step = 360 * u.

(** Strictly increasing list. *)
Definition increasing (l : list Z) : Prop :=
  forall i j, (i < j < length l)%nat -> nth i l 0 < nth j l 0.

(** [node m xs ys x y v]: the grid [m] (rows indexed by [ys], columns by [xs])
    holds the value [v] at coordinates [(x,y)]. *)
Definition node {A} (m : list (list A)) (xs ys : list Z) (x y : Z) (v : A) : Prop :=
  exists i j row, nth_error ys i = Some y /\ nth_error xs j = Some x /\
                  nth_error m i = Some row /\ nth_error row j = Some v.

(** A well-formed grid: one row per [ys], one column per [xs]. *)
Definition grid {A} (m : list (list A)) (xs ys : list Z) : Prop :=
  length m = length ys /\ Forall (fun row => length row = length xs) m.

Definition within (lo hi x : Z) : Prop := lo <= x <= hi.

(** Every query point is found inside the model ([false] = not outside) at a
    longitude on its own meridian, whatever the other points. *)
Definition per_point_ok (u : Z) (xs : list Z) (out : list (Z * bool)) : Prop :=
  length out = length xs /\
  forall i x, nth_error xs i = Some x ->
    exists x', nth_error out i = Some (x', false) /\ same_meridian u x' x.

(** A global model stored in the 0..360 convention: first node in [0,step];
    in the -180..180 convention: first node in [-180,-180+step]. *)
Definition conv_0_360 (u x0 step : Z) : Prop := 0 <= x0 <= step.
Definition conv_180 (u x0 step : Z) : Prop := -180 * u <= x0 <= -180 * u + step.

