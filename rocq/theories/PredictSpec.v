(** Vocabulary for C01-C06. *)
From Coq Require Import String List Reals Bool.
From Verif Require Import PyBase RBase.
Import ListNotations.
Open Scope R_scope.

(** Elementwise a*h1 + b*h2 of two arrays of masked complex constants (numpy
    semantics: the mask of the result is the union of the masks). *)
Definition lin (a b : R) (p : (cpx * bool) * (cpx * bool)) : cpx * bool :=
  let '((z1, m1), (z2, m2)) := p in
  (cadd (cscale a z1) (cscale b z2), m1 || m2).
Definition lin_row (a b : R) (r1 r2 : list (cpx * bool)) : list (cpx * bool) :=
  map (lin a b) (combine r1 r2).
Definition lin_hc (a b : R) (h1 h2 : list (list (cpx * bool))) : list (list (cpx * bool)) :=
  map (fun p => lin_row a b (fst p) (snd p)) (combine h1 h2).

(** a*o1 + b*o2 of two masked outputs. *)
Definition lin_out (a b : R) (o1 o2 : list (R * bool)) : list (R * bool) :=
  map (fun p => (a * fst (fst p) + b * fst (snd p), snd (fst p) || snd (snd p))) (combine o1 o2).

(** Same shape: rows of equal lengths. *)
Definition same_shape {X} (h1 h2 : list (list X)) : Prop := Forall2 (fun r1 r2 => length r1 = length r2) h1 h2.

(** The complex constant of amplitude [amp] and phase lag [ph] (radians). *)
Definition constant (amp ph : R) : cpx := (amp * cos ph, - (amp * sin ph)).

Fixpoint rsum (l : list R) : R := match l with [] => 0 | x :: l' => x + rsum l' end.

(** Matrix-vector product and residuals. *)
Fixpoint dot (r p : list R) : R :=
  match r, p with x :: r', y :: p' => x * y + dot r' p' | _, _ => 0 end.
Definition sq_res (M : list (list R)) (y p : list R) : R :=
  rsum (map (fun q => (snd q - dot (fst q) p) * (snd q - dot (fst q) p)) (combine M y)).

(** [p] (with [n] entries) is a least-squares solution. *)
Definition least_squares (n : nat) (M : list (list R)) (y p : list R) : Prop :=
  length p = n /\ forall q, length q = n -> sq_res M y p <= sq_res M y q.

(** Full column rank. *)
Definition full_rank (n : nat) (M : list (list R)) : Prop :=
  forall p q, length p = n -> length q = n ->
    (forall r, In r M -> dot r p = dot r q) -> p = q.
