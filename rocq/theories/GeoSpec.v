(** Specification vocabulary for the coordinate functions: plain vector geometry,
    independent of the model's helpers. *)
From Coq Require Import Reals.
From Verif Require Import MathModel.
Open Scope R_scope.

Definition dot3 (a b : vec) : R := vx a * vx b + vy a * vy b + vz a * vz b.
Definition cross (a b : vec) : vec :=
  Vec (vy a * vz b - vz a * vy b) (vz a * vx b - vx a * vz b) (vx a * vy b - vy a * vx b).
Definition minus3 (a b : vec) : vec := Vec (vx a - vx b) (vy a - vy b) (vz a - vz b).
Definition plus3 (a b : vec) : vec := Vec (vx a + vx b) (vy a + vy b) (vz a + vz b).
Definition scale3 (k : R) (a : vec) : vec := Vec (k * vx a) (k * vy a) (k * vz a).
Definition norm3 (a : vec) : R := sqrt (dot3 a a).
Definition distance3 (a b : vec) : R := norm3 (minus3 a b).
Definition zero3 : vec := Vec 0 0 0.
(** the axis of rotation of the Earth *)
Definition pole_axis : vec := Vec 0 0 1.
(** [e], [n], [u] is a right-handed frame of orthogonal unit vectors *)
Definition right_handed (e n u : vec) : Prop :=
  dot3 e e = 1 /\ dot3 n n = 1 /\ dot3 u u = 1 /\ dot3 e n = 0 /\ dot3 e u = 0 /\ dot3 n u = 0 /\ cross e n = u.
(** degrees to radians *)
Definition rad (x : R) : R := x * (PI / 180).
