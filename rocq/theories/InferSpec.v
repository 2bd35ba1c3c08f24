(** Vocabulary for C07-C09 and C54. *)
From Coq Require Import String List Reals Bool Arith.
From Verif Require Import PyBase RBase StrBase PredictModel PredictSpec InferModel.
Import ListNotations.
Open Scope R_scope.

(** The constant and mask supplied for constituent [c] (any case) in a row;
    zero and unmasked if not supplied. *)
Definition supplied (cs : list string) (row : list (cpx * bool)) (c : string) : cpx * bool :=
  match find (fun p => String.eqb (lower (fst p)) c) (combine cs row) with
  | Some p => snd p
  | None => ((0, 0), false)
  end.

(** Number of the majors [l] present among the supplied names (any case). *)
Definition n_present (cs l : list string) : nat :=
  length (filter (fun c => mem_str c (map lower cs)) l).

(** Minor [m] must be inferred: asked for, and not supplied. *)
Definition wanted (cs : list string) (minor : option (list string)) (names : list string) (m : string) : Prop :=
  In m names /\ ~ In m cs /\
  match minor with None | Some [] => True | Some l => In m l end.

(** Indices of the minors that must be inferred. *)
Definition wanted_idx (cs : list string) (minor : option (list string)) (names : list string) : list nat :=
  filter (fun k => let m := nth k names EmptyString in
                   negb (mem_str m cs) &&
                   match minor with None | Some [] => true | Some l => mem_str m l end)
    (seq 0 (length names)).

(** One harmonic term: f (Re z cos th - Im z sin th). *)
Definition term (f th : R) (z : cpx) : R := f * (cre z * cos th - cim z * sin th).

(** Elementwise a*d1 + b*d2 of two results. *)
Definition lin_dh (a b : R) (d1 d2 : dh) : dh :=
  match d1, d2 with
  | Arr l1, Arr l2 => Arr (lin_out a b l1 l2)
  | _, _ => Scalar0
  end.

(** Two sets of arguments that agree except for constituent [m]. *)
Definition agree_except (m : string) (A A' : tide_args) : Prop :=
  forall tm c, c <> m -> a_u A tm c = a_u A' tm c /\ a_f A tm c = a_f A' tm c /\ a_G A tm c = a_G A' tm c.
Definition agree_except_idx (m : string) (B B' : minor_args) : Prop :=
  forall tm k, nth k sp_minors EmptyString <> m ->
    b_u B tm k = b_u B' tm k /\ b_f B tm k = b_f B' tm k /\ b_G B tm k = b_G B' tm k.

(** Times and rows that can be combined: one row for all times, one time for
    all rows, or as many times as rows. *)
Definition compatible (ts : list (R * R)) (rows : list (list (cpx * bool)))
    (ps : list ((R * R) * list (cpx * bool))) : Prop :=
  (exists row, rows = [row] /\ ts <> [] /\ ps = map (fun tm => (tm, row)) ts) \/
  (exists tm, ts = [tm] /\ ps = map (fun row => (tm, row)) rows) \/
  (length ts = length rows /\ rows <> [] /\ ps = combine ts rows).

(** Value at [x] of the straight line through (x0,y0) and (x1,y1). *)
Definition line (x0 x1 x : R) (y0 y1 : cpx) : cpx :=
  (cre y0 + (cre y1 - cre y0) * (x - x0) / (x1 - x0),
   cim y0 + (cim y1 - cim y0) * (x - x0) / (x1 - x0)).

(** Piecewise linear interpolation between three pivots. *)
Definition piecewise (o0 o1 o2 w : R) (z0 z1 z2 : cpx) : cpx :=
  if Rlt_dec o0 o1 then
    (if Rlt_dec w o1 then line o0 o1 w z0 z1 else line o1 o2 w z1 z2)
  else line o1 o2 w z1 z2.

(** Normalised constant of pivot [c]: supplied constant divided by [s]. *)
Definition normalised (cs : list string) (row : list (cpx * bool)) (c : string) (s : R) : cpx :=
  (cre (fst (supplied cs row c)) / s, cim (fst (supplied cs row c)) / s).

(** Inferred constant of the minor [m] with amplitude [am], from pivots
    c0, c1, c2 of amplitudes a0, a1, a2 and tilt factor [g]. *)
Definition inferred (freq : string -> R) (g : R -> R) (cs : list string) (row : list (cpx * bool))
    (c0 c1 c2 : string) (a0 a1 a2 : R) (m : string) (am : R) : cpx :=
  cscale (am * g (freq m))
    (piecewise (freq c0) (freq c1) (freq c2) (freq m)
       (normalised cs row c0 (a0 * g (freq c0)))
       (normalised cs row c1 (a1 * g (freq c1)))
       (normalised cs row c2 (a2 * g (freq c2)))).

(** The tide of one minor with inferred constant [z]. *)
Definition minor_tide (A : tide_args) (tm : R * R) (m : string) (z : cpx) : R :=
  term (a_f A tm m) (a_G A tm m * PI / 180 + a_u A tm m) z.

(** Values of a result, masks dropped. *)
Definition values (d : dh) : option (list R) :=
  match d with Scalar0 => None | Arr l => Some (map fst l) end.
