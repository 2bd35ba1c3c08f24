(** Deformation of an elastic Earth by a potential: what C49, C50 and C51 mean.
    No function of the tide code is used here. *)
From Coq Require Import Reals List ZArith.
From Verif Require Import MathModel.
Import ListNotations.
Open Scope R_scope.

Definition dotv (a b : vec) : R := vx a * vx b + vy a * vy b + vz a * vz b.
Definition norm (a : vec) : R := sqrt (dotv a a).
Definition cross (a b : vec) : vec :=
  Vec (vy a * vz b - vz a * vy b) (vz a * vx b - vx a * vz b) (vx a * vy b - vy a * vx b).
Definition shift_by (x d : vec) (s : R) : vec := Vec (vx x + s * vx d) (vy x + s * vy d) (vz x + s * vz d).
(** Off the axis of rotation *)
Definition off_axis (x : vec) : Prop := vx x <> 0 \/ vy x <> 0.

(** The displacement [u] at [x] has radial component [U], and its tangential part is
    the surface gradient of [W] (times the radius): along every tangent direction
    the derivative of [W] is the component of [u] divided by the radius. *)
Definition field (U : R) (W : vec -> R) (x u : vec) : Prop :=
  dotv u x = norm x * U /\
  forall d, dotv d x = 0 -> derivable_pt_lim (fun s => W (shift_by x d s)) 0 (dotv u d / norm x).

(** The displacement has no radial component and its tangential part is the surface
    gradient of [W] turned by a right angle about the vertical, times [k] sin(latitude). *)
Definition swirl (k : R) (W : vec -> R) (x u : vec) : Prop :=
  dotv u x = 0 /\
  forall d, dotv d x = 0 -> exists D,
    derivable_pt_lim (fun s => W (shift_by x (cross d x) s)) 0 D /\ dotv u d = k * (vz x / norm x) * D.

Definition P2 (c : R) : R := (3 * c ^ 2 - 1) / 2.
Definition P3 (c : R) : R := (5 * c ^ 3 - 3 * c) / 2.
(** Cosine of the angle between two vectors, sine of the latitude *)
Definition cosang (x b : vec) : R := dotv x b / (norm x * norm b).
Definition sinlat (x : vec) : R := vz x / norm x.

(** Tide generating potential of a body at [b] on the Earth's surface (over gravity),
    degrees 2 and 3; [mass] is the ratio to the mass of the Earth. *)
Definition V2 (mass a : R) (b x : vec) : R := mass * a ^ 4 / norm b ^ 3 * P2 (cosang x b).
Definition V3 (mass a : R) (b x : vec) : R := mass * a ^ 5 / norm b ^ 4 * P3 (cosang x b).
(** Its zonal, diurnal and semidiurnal parts *)
Definition V20 (mass a : R) (b x : vec) : R := mass * a ^ 4 / norm b ^ 3 * P2 (sinlat x) * P2 (sinlat b).
Definition V21 (mass a : R) (b x : vec) : R :=
  3 * mass * a ^ 4 / norm b ^ 5 * (vz x * vz b * (vx x * vx b + vy x * vy b)) / dotv x x.
Definition V22 (mass a : R) (b x : vec) : R :=
  3 / 4 * mass * a ^ 4 / norm b ^ 5 *
  ((vx x ^ 2 - vy x ^ 2) * (vx b ^ 2 - vy b ^ 2) + 4 * (vx x * vy x) * (vx b * vy b)) / dotv x x.
(** The body turned about the axis of rotation *)
Definition turned (al : R) (b : vec) : vec :=
  Vec (vx b * cos al - vy b * sin al) (vx b * sin al + vy b * cos al) (vz b).

(** Latitude dependent Love and Shida numbers *)
Definition love_h (h x : R) : R := h - 0.0006 * P2 x.
Definition love_l (l x : R) : R := l + 0.0002 * P2 x.

(** Waves fixed by an angle: [sin phi cos phi sin(theta + lambda)] *)
Definition wave (theta : R) (x : vec) : R := vz x * (vx x * sin theta + vy x * cos theta) / dotv x x.

(** IERS Conventions, tables 7.3a and 7.3b (as reduced in the code): multipliers of
    s, h, p, N', ps, then in-phase and out-of-phase amplitudes, radial and
    transverse, in units of 0.01 mm *)
Definition zrow : Type := ((Z * Z * Z * Z * Z) * (Z * Z * Z * Z))%type.
Open Scope Z_scope.
Definition table_a : list zrow :=
  [((-3,0,2,0,0),(-1,0,0,0)); ((-3,2,0,0,0),(-1,0,0,0)); ((-2,0,1,-1,0),(-2,0,0,0)); ((-2,0,1,0,0),(-8,0,-1,1));
   ((-2,2,-1,0,0),(-2,0,0,0)); ((-1,0,0,-1,0),(-10,0,0,0)); ((-1,0,0,0,0),(-51,0,-2,3)); ((-1,2,0,0,0),(1,0,0,0));
   ((0,-2,1,0,0),(1,0,0,0)); ((0,0,-1,0,0),(2,0,0,0)); ((0,0,1,0,0),(6,0,0,0)); ((0,0,1,1,0),(1,0,0,0));
   ((0,2,-1,0,0),(1,0,0,0)); ((1,-3,0,0,1),(-6,0,0,0)); ((1,-2,0,-1,0),(1,0,0,0)); ((1,-2,0,0,0),(-123,-7,6,1));
   ((1,-1,0,0,-1),(2,0,0,0)); ((1,-1,0,0,1),(4,0,0,0)); ((1,0,0,-1,0),(-22,1,1,0)); ((1,0,0,0,0),(1200,-80,-67,-3));
   ((1,0,0,1,0),(173,-12,-10,0)); ((1,0,0,2,0),(-4,0,0,0)); ((1,1,0,0,-1),(-50,-1,3,0)); ((1,1,0,0,1),(1,0,0,0));
   ((0,1,0,1,-1),(-1,0,0,0)); ((1,2,-2,0,0),(-1,0,0,0)); ((1,2,0,0,0),(-11,1,1,0)); ((2,-2,1,0,0),(-1,0,0,0));
   ((2,0,-1,0,0),(-2,0,0,0)); ((3,0,0,0,0),(0,0,0,0)); ((3,0,0,1,0),(0,0,0,0))].
(** radial in-phase, radial out-of-phase, transverse in-phase, transverse out-of-phase *)
Definition table_b : list zrow :=
  [((0,0,0,1,0),(47,16,23,7)); ((0,2,0,0,0),(-20,-11,-12,-5)); ((1,0,-1,0,0),(-11,-9,-8,-4));
   ((2,0,0,0,0),(-13,-15,-11,-7)); ((2,0,0,1,0),(-5,-6,-5,-3))].
Close Scope Z_scope.

Definition combo (k : Z * Z * Z * Z * Z) (s h p n ps : R) : R :=
  let '(a, b, c, d, e) := k in IZR a * s + IZR b * h + IZR c * p + IZR d * n + IZR e * ps.
Definition total {A} (f : A -> R) (l : list A) : R := fold_right (fun a acc => f a + acc) 0 l.

(** Radial and transverse potentials of the frequency dependence (metres); tau, s, ...
    are the six Doodson arguments *)
Definition da_radial (tau s h p n ps : R) (x : vec) : R :=
  total (fun w => let '(k, (a, b, _, _)) := w in let th := tau + combo k s h p n ps in
     2 * (IZR a / 10^5 * wave th x + IZR b / 10^5 * wave (th + PI / 2) x)) table_a.
Definition da_tangent (tau s h p n ps : R) (x : vec) : R :=
  total (fun w => let '(k, (_, _, c, d)) := w in let th := tau + combo k s h p n ps in
     IZR c / 10^5 * wave th x + IZR d / 10^5 * wave (th + PI / 2) x) table_a.
Definition db_radial (s h p n ps : R) (x : vec) : R :=
  total (fun w => let '(k, (a, b, _, _)) := w in let th := combo k s h p n ps in
     (IZR a / 10^5 * cos th + IZR b / 10^5 * sin th) * P2 (sinlat x)) table_b.
Definition db_tangent (s h p n ps : R) (x : vec) : R :=
  total (fun w => let '(k, (_, _, c, d)) := w in let th := combo k s h p n ps in
     (IZR c / 10^5 * cos th + IZR d / 10^5 * sin th) * sinlat x ^ 2) table_b.

(** Doodson arguments in radians, without reduction, from the Modified Julian Day *)
Definition poly (cs : list R) (t : R) : R := fold_right (fun c acc => c + t * acc) 0 cs.
Definition centuries (mjd : R) : R := (mjd - 51544.5) / 36525.
Definition arg_moon0 (mjd : R) : R := poly [218.3164477; 481267.88123421; -1.5786e-3; 1.855835e-6; -1.53388e-8] (centuries mjd).
Definition arg_s (mjd : R) : R := PI / 180 * (arg_moon0 mjd + poly [0; 1.396971278; 3.08889e-4; 2.1e-8; 7.0e-9] (centuries mjd)).
Definition arg_h (mjd : R) : R := PI / 180 * poly [280.46645; 36000.7697489; 3.0322222e-4; 2.0e-8; -6.54e-9] (centuries mjd).
Definition arg_p (mjd : R) : R := PI / 180 * poly [83.3532465; 4069.0137287; -1.032172222e-2; -1.24991e-5; 5.263e-8] (centuries mjd).
Definition arg_n (mjd : R) : R := PI / 180 * poly [234.95544499; 1934.13626197; -2.07561111e-3; -2.13944e-6; 1.65e-8] (centuries mjd).
Definition arg_ps (mjd : R) : R := PI / 180 * poly [282.93734098; 1.71945766667; 4.5688889e-4; -1.778e-8; -3.34e-9] (centuries mjd).
(** one turn a day, sidereal correction, less the mean longitude of the moon *)
Definition arg_tau (mjd : R) : R :=
  PI / 180 * (360 * mjd - arg_moon0 mjd + poly [280.4606184; 36000.7700536; 3.8793e-4; -2.58e-8] (centuries mjd)).

(** Permanent tide: the constant part of the zonal potential, H0 = -0.3146 m *)
Definition permanent (x : vec) : R := -0.3146 * sqrt (5 / (4 * PI)) * P2 (sinlat x).

(** Centrifugal potential of the displaced pole (mx, my in radians), over gravity *)
Definition pole_potential (gamma_0 omega mx my : R) (x : vec) : R :=
  - (omega ^ 2 / gamma_0) * (vz x * (mx * vx x + my * vy x)).

(** ** The whole solid earth tide *)
Record love_numbers := LoveNumbers { n_h2 : R; n_l2 : R; n_h3 : R; n_l3 : R; n_sun : R; n_moon : R }.
(** Radial displacement at [x] *)
Definition body_radial (n : love_numbers) (a mjd : R) (sun moon x : vec) : R :=
  love_h (n_h2 n) (sinlat x) * (V2 (n_sun n) a sun x + V2 (n_moon n) a moon x)
  + n_h3 n * (V3 (n_sun n) a sun x + V3 (n_moon n) a moon x)
  - 0.0025 * (V21 (n_sun n) a (turned (- (PI / 2)) sun) x + V21 (n_moon n) a (turned (- (PI / 2)) moon) x)
  - 0.0022 * (V22 (n_sun n) a (turned (- (PI / 4)) sun) x + V22 (n_moon n) a (turned (- (PI / 4)) moon) x)
  + da_radial (arg_tau mjd) (arg_s mjd) (arg_h mjd) (arg_p mjd) (arg_n mjd) (arg_ps mjd) x
  + db_radial (arg_s mjd) (arg_h mjd) (arg_p mjd) (arg_n mjd) (arg_ps mjd) x.
(** Potential [y |-> ...] whose surface gradient at [x] is the tangential displacement *)
Definition body_tangent (n : love_numbers) (a mjd : R) (sun moon x y : vec) : R :=
  love_l (n_l2 n) (sinlat x) * (V2 (n_sun n) a sun y + V2 (n_moon n) a moon y)
  + n_l3 n * (V3 (n_sun n) a sun y + V3 (n_moon n) a moon y)
  - 0.0007 * (V21 (n_sun n) a (turned (- (PI / 2)) sun) y + V21 (n_moon n) a (turned (- (PI / 2)) moon) y)
  - 0.0007 * (V22 (n_sun n) a (turned (- (PI / 4)) sun) y + V22 (n_moon n) a (turned (- (PI / 4)) moon) y)
  + da_tangent (arg_tau mjd) (arg_s mjd) (arg_h mjd) (arg_p mjd) (arg_n mjd) (arg_ps mjd) y
  + db_tangent (arg_s mjd) (arg_h mjd) (arg_p mjd) (arg_n mjd) (arg_ps mjd) y.

(** Element [k] of an array broadcast along its first axis *)
Definition pick {A} (l : list A) (k : nat) : option A := match l with [x] => Some x | _ => nth_error l k end.

(** Real part of [m conj(g) conj(u)], for complex numbers given as pairs *)
Definition real_part3 (m g u : R * R) : R :=
  let '(a, b) := m in let '(c, d) := g in let '(e, f) := u in
  (* m conj(g) = (ac + bd) + i (bc - ad) *)
  (a * c + b * d) * e + (b * c - a * d) * f.
