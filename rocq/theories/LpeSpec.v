(** Long-period equilibrium tide (C49): the spectral lines of Cartwright, Tayler and
    Edden and the response of an ocean in equilibrium.  Nothing of the tide code is used. *)
From Coq Require Import Reals List String ZArith Bool.
Import ListNotations.
Open Scope R_scope.

(** name, amplitude in micrometres of the normalised potential, multipliers of
    s, h, p, N' = -N, pp (Doodson number without the leading 0) *)
Definition line : Type := (string * Z * (Z * Z * Z * Z * Z))%type.
Definition lines : list line :=
  [("node"%string, 27929, (0, 0, 0, 1, 0)); ("sa"%string, -4922, (0, 1, 0, 0, -1)); ("ssa"%string, -30988, (0, 2, 0, 0, 0));
   ("msm"%string, -6728, (1, -2, 1, 0, 0)); ("065.445"%string, 2310, (1, 0, -1, -1, 0)); ("mm"%string, -35184, (1, 0, -1, 0, 0));
   ("065.465"%string, 2280, (1, 0, -1, 1, 0)); ("msf"%string, -5837, (2, -2, 0, 0, 0)); ("075.355"%string, -2880, (2, 0, -2, 0, 0));
   ("mf"%string, -66607, (2, 0, 0, 0, 0)); ("mf+"%string, -27630, (2, 0, 0, 1, 0)); ("075.575"%string, -2580, (2, 0, 0, 2, 0));
   ("mst"%string, -2422, (3, -2, 1, 0, 0)); ("mt"%string, -12753, (3, 0, -1, 0, 0)); ("085.465"%string, -5280, (3, 0, -1, 1, 0))]%Z.

(** Angle in degrees from the longitudes of moon, sun, lunar perigee, ascending node, solar perigee *)
Definition angle (k : Z * Z * Z * Z * Z) (s h p n pp : R) : R :=
  let '(a, b, c, d, e) := k in IZR a * s + IZR b * h + IZR c * p + IZR d * - n + IZR e * pp.

(** Height in metres: Love factor, normalised Legendre function, sum of the chosen lines *)
Definition height (chosen : string -> bool) (s h p n pp lat : R) : R :=
  (1 + 0.299 - 0.606) * (sqrt (5 / (4 * PI)) * ((3 * sin (lat * (PI / 180)) ^ 2 - 1) / 2))
  * fold_right (fun (w : line) acc => let '(name, amp, k) := w in
      (if chosen name then IZR amp / 10 ^ 6 * cos (angle k s h p n pp * (PI / 180)) else 0) + acc) 0 lines.

(** Sum of the amplitudes of the chosen lines *)
Definition amplitude_sum (chosen : string -> bool) : R :=
  fold_right (fun (w : line) acc => let '(name, amp, _) := w in (if chosen name then Rabs (IZR amp) / 10 ^ 6 else 0) + acc) 0 lines.
