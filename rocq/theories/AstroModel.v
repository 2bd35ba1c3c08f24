(** Model of pyTMD/astro.py: mean longitudes, Doodson and Delaunay arguments,
    rotation matrices, approximate positions of sun and moon.
    Simplifications: arrays element-wise; quantities supplied by the external
    timescale package (Greenwich hour angle, sidereal time, polar motion,
    nutation tables, the various time arguments) are parameters; JPL kernels
    are parameters. *)
From Coq Require Import String List Reals ZArith Bool.
From Verif Require Import PyBase RBase StrBase MathModel.
Import ListNotations.
Open Scope R_scope.

(** astro.py:98-104 *)
Definition mjd_j2000 : R := 51544.5.
Definition century : R := 36525.

Record longitudes := Lon { lS : R; lH : R; lP : R; lN : R; lPP : R }.

(** Element-wise difference of coefficient arrays (astro.py:171) *)
Fixpoint zip_sub (a b : list R) : list R :=
  match a, b with x :: a', y :: b' => (x - y) :: zip_sub a' b' | _, _ => [] end.

(** astro.py:150-193: the longitudes before normalisation *)
Definition raw_longitudes (MJD : R) (MEEUS ASTRO5 : bool) : longitudes :=
  if MEEUS then
    let T := MJD - mjd_j2000 in
    Lon (polynomial_sum [218.3164591; 13.17639647754579; -9.9454632e-13; 3.8086292e-20; -8.6184958e-27] T)
        (polynomial_sum [280.46645; 0.985647360164271; 2.2727347e-13] T)
        (polynomial_sum [83.3532430; 0.11140352391786447; -7.7385418e-12; -2.5636086e-19; 2.95738836e-26] T)
        (polynomial_sum [125.0445550; -0.052953762762491446; 1.55628359e-12; 4.390675353e-20; -9.26940435e-27] T)
        (282.94 + (1.7192 * T) / century)
  else if ASTRO5 then
    let T := (MJD - mjd_j2000) / century in
    let lunar_longitude := [218.3164477; 481267.88123421; -1.5786e-3; 1.855835e-6; -1.53388e-8] in
    let lunar_elongation := [297.8501921; 445267.1114034; -1.8819e-3; 1.83195e-6; -8.8445e-9] in
    Lon (polynomial_sum lunar_longitude T)
        (polynomial_sum (zip_sub lunar_longitude lunar_elongation) T)
        (polynomial_sum [83.3532465; 4069.0137287; -1.032e-2; -1.249172e-5] T)
        (polynomial_sum [125.04452; -1934.136261; 2.0708e-3; 2.22222e-6] T)
        (282.94 + 1.7192 * T)
  else
    let T := MJD - 51544.4993 in
    Lon (218.3164 + 13.17639648 * T) (280.4661 + 0.98564736 * T)
        (83.3535 + 0.11140353 * T) (125.0445 - 0.05295377 * T) 282.8.

(** astro.py:108-203 mean_longitudes *)
Definition mean_longitudes (MJD : R) (MEEUS ASTRO5 : bool) : longitudes :=
  let l := raw_longitudes MJD MEEUS ASTRO5 in
  Lon (normalize_angle (lS l) 360) (normalize_angle (lH l) 360)
      (normalize_angle (lP l) 360) (normalize_angle (lN l) 360) (lPP l).

(** astro.py:217-298 doodson_arguments; [st] is the sidereal time of the
    timescale package (used only when equinox). *)
Definition dood_S0 (T : R) : R :=
  polynomial_sum [218.3164477; 481267.88123421; -1.5786e-3; 1.855835e-6; -1.53388e-8] T.
Definition dood_TAU (MJD st : R) (equinox : bool) : R :=
  let T := (MJD - mjd_j2000) / century in
  let hour := rmod MJD 1 * 24 in
  if equinox then 360 * st + 180 - dood_S0 T
  else hour * 15 - dood_S0 T + polynomial_sum [280.4606184; 36000.7700536; 3.8793e-4; -2.58e-8] T.
Definition dood_S (MJD : R) (apply_correction : bool) : R :=
  let T := (MJD - mjd_j2000) / century in
  if apply_correction
  then dood_S0 T + polynomial_sum [0; 1.396971278; 3.08889e-4; 2.1e-8; 7.0e-9] T
  else dood_S0 T.
Definition dtr : R := PI / 180.
Definition doodson_arguments (MJD st : R) (equinox apply_correction : bool) : R * R * R * R * R * R :=
  let T := (MJD - mjd_j2000) / century in
  let H := polynomial_sum [280.46645; 36000.7697489; 3.0322222e-4; 2.0e-8; -6.54e-9] T in
  let P := polynomial_sum [83.3532465; 4069.0137287; -1.032172222e-2; -1.24991e-5; 5.263e-8] T in
  let Np := polynomial_sum [234.95544499; 1934.13626197; -2.07561111e-3; -2.13944e-6; 1.65e-8] T in
  let Ps := polynomial_sum [282.93734098; 1.71945766667; 4.5688889e-4; -1.778e-8; -3.34e-9] T in
  (dtr * normalize_angle (dood_TAU MJD st equinox) 360,
   dtr * normalize_angle (dood_S MJD apply_correction) 360,
   dtr * normalize_angle H 360, dtr * normalize_angle P 360,
   dtr * normalize_angle Np 360, dtr * normalize_angle Ps 360).

(** astro.py:206-214 phase_angles (deprecated wrapper): (S,H,P,TAU,ZNS,PS) *)
Definition phase_angles (MJD st : R) : R * R * R * R * R * R :=
  let '(TAU, lS, H, P, ZNS, PS) := doodson_arguments MJD st false true in
  (lS, H, P, TAU, ZNS, PS).

(** astro.py:300-353 delaunay_arguments *)
Definition atr : R := PI / 648000.
Definition circle : R := 1296000.
Definition delaunay_coefs : list (list R) :=
  [ [485868.249036; 1717915923.2178; 31.8792; 0.051635; -2.447e-04];
    [1287104.79305; 129596581.0481; -0.5532; 1.36e-4; -1.149e-05];
    [335779.526232; 1739527262.8478; -12.7512; -1.037e-3; 4.17e-6];
    [1072260.70369; 1602961601.2090; -6.3706; 6.593e-3; -3.169e-05];
    [450160.398036; -6962890.5431; 7.4722; 7.702e-3; -5.939e-05] ].
Definition delaunay_arguments (MJD : R) : list R :=
  let T := (MJD - mjd_j2000) / century in
  map (fun cs => atr * normalize_angle (polynomial_sum cs T) circle) delaunay_coefs.

(** astro.py:718-735 first five fundamental arguments of _eqeq_complement:
    polynomial with the full turns of the linear term removed, plus
    tau*mod(n*T,1) *)
Definition eqeq_coefs : list (list R * R) :=
  [ ([485868.249036; 715923.2178; 31.8792; 0.051635; -2.447e-04], 1325);
    ([1287104.79305; 1292581.0481; -0.5532; 1.36e-4; -1.149e-05], 99);
    ([335779.526232; 295262.8478; -12.7512; -1.037e-3; 4.17e-6], 1342);
    ([1072260.70369; 1105601.2090; -6.3706; 6.593e-3; -3.169e-05], 1236);
    ([450160.398036; -482890.5431; 7.4722; 7.702e-3; -5.939e-05], -5) ].
Definition eqeq_arguments (T : R) : list R :=
  map (fun p => atr * polynomial_sum (fst p) T + 2 * PI * rmod (snd p * T) 1) eqeq_coefs.

(** astro.py:355-370 mean_obliquity *)
Definition mean_obliquity (MJD : R) : R :=
  atr * polynomial_sum [84381.406; -46.836769; -1.831e-4; 2.00340e-4; -5.76e-07; -4.34e-08]
          ((MJD - mjd_j2000) / century).

(** ** Rotation matrices *)
(** astro.py:764-786 _frame_bias_matrix *)
Definition xi0 : R := -0.0166170 * atr.
Definition eta0 : R := -0.0068192 * atr.
Definition da0 : R := -0.01460 * atr.
Definition frame_bias_matrix : mat :=
  Mat (1 - 0.5 * (da0 ^ 2 + xi0 ^ 2)) da0 (- xi0)
    (- da0) (1 - 0.5 * (da0 ^ 2 + eta0 ^ 2)) (- eta0)
    xi0 eta0 (1 - 0.5 * (eta0 ^ 2 + xi0 ^ 2)).

(** astro.py:835-868 _nutation_matrix *)
Definition nutation_matrix (mean true psi : R) : mat :=
  Mat (cos psi) (- sin psi * cos mean) (- sin psi * sin mean)
    (sin psi * cos true)
    (cos psi * cos mean * cos true + sin mean * sin true)
    (cos psi * sin mean * cos true - cos mean * sin true)
    (sin psi * sin true)
    (cos psi * cos mean * sin true - sin mean * cos true)
    (cos psi * sin mean * sin true + cos mean * cos true).

(** astro.py:870-890 _polar_motion_matrix; px, py from the IERS tables *)
Definition polar_motion_matrix (T px py : R) : mat :=
  let sprime := -4.7e-5 * T in
  mmul (mmul (rot_x (py * atr)) (rot_y (px * atr))) (rot_z (- sprime * atr)).

(** astro.py:892-944 _precession_matrix *)
Definition prec_EPS : R := 84381.406 * atr.
Definition prec_PSI (T : R) : R :=
  atr * polynomial_sum [0; 5038.481507; -1.0790069; -1.14045e-3; 1.32851e-4; -9.51e-8] T.
Definition prec_OMEGA (T : R) : R :=
  atr * polynomial_sum [84381.406; -2.5754e-2; 5.12623e-2; -7.72503e-3; -4.67e-7; 3.337e-7] T.
Definition prec_CHI (T : R) : R :=
  atr * polynomial_sum [0; 10.556403; -2.3814292; -1.21197e-3; 1.70663e-4; -5.60e-8] T.
Definition precession_entries (EPS PSI OMEGA CHI : R) : mat :=
  Mat (cos CHI * cos (- PSI) - sin (- PSI) * sin CHI * cos (- OMEGA))
    (cos CHI * sin (- PSI) * cos EPS + sin CHI * cos (- OMEGA) * cos (- PSI) * cos EPS
       - sin EPS * sin CHI * sin (- OMEGA))
    (cos CHI * sin (- PSI) * sin EPS + sin CHI * cos (- OMEGA) * cos (- PSI) * sin EPS
       + cos EPS * sin CHI * sin (- OMEGA))
    (- sin CHI * cos (- PSI) - sin (- PSI) * cos CHI * cos (- OMEGA))
    (- sin CHI * sin (- PSI) * cos EPS + cos CHI * cos (- OMEGA) * cos (- PSI) * cos EPS
       - sin EPS * cos CHI * sin (- OMEGA))
    (- sin CHI * sin (- PSI) * sin EPS + cos CHI * cos (- OMEGA) * cos (- PSI) * sin EPS
       + cos EPS * cos CHI * sin (- OMEGA))
    (sin (- PSI) * sin (- OMEGA))
    (- sin (- OMEGA) * cos (- PSI) * cos EPS - sin EPS * cos (- OMEGA))
    (- sin (- OMEGA) * cos (- PSI) * sin EPS + cos (- OMEGA) * cos EPS).
Definition precession_matrix (T : R) : mat :=
  precession_entries prec_EPS (prec_PSI T) (prec_OMEGA T) (prec_CHI T).

(** astro.py:666-704 itrs; [gast] is the Greenwich apparent sidereal time in
    turns, [dpsi], [deps] the nutation angles, [epsilon] the mean obliquity,
    [px], [py] the polar motion. *)
Definition itrs (T gast epsilon dpsi deps px py : R) : mat :=
  let M1 := precession_matrix T in
  let M2 := nutation_matrix epsilon (epsilon + deps) dpsi in
  let M3 := frame_bias_matrix in
  let M4 := polar_motion_matrix T px py in
  mmul (rot_z (2 * PI * gast)) (mmul (mmul (mmul M1 M2) M3) M4).

(** ** Approximate ephemerides *)
Definition asec2rad : R := PI / 648000.

(** astro.py:402-443 solar_approximate; T in centuries, gha in degrees *)
Definition solar_anomaly (T : R) : R :=
  dtr * polynomial_sum [357.5256; 35999.049; -1.559e-4; -4.8e-7] T.
Definition r_sun (T : R) : R :=
  let M := solar_anomaly T in
  1e9 * (149.619 - 2.499 * cos M - 0.021 * cos (2 * M)).
Definition lambda_sun (T : R) : R :=
  let M := solar_anomaly T in
  dtr * (282.94 + 1.7192 * T) + M + asec2rad * (6892 * sin M + 72 * sin (2 * M)).
Definition eps_j2000 : R := 23.43929111 * dtr.
Definition solar_approximate (T gha : R) : vec :=
  let x := r_sun T * cos (lambda_sun T) in
  let y := r_sun T * sin (lambda_sun T) * cos eps_j2000 in
  let z := r_sun T * sin (lambda_sun T) * sin eps_j2000 in
  mapply (rot_z (gha * dtr)) (Vec x y z).

(** astro.py:522-597 lunar_approximate *)
Record lunar := Lun { us : R; uD : R; uF : R; uM : R; ul : R }.
Definition lunar_args (T : R) : lunar :=
  let s := dtr * polynomial_sum [218.3164477; 481267.88123421; -1.5786e-3; 1.855835e-6; -1.53388e-8] T in
  let D := dtr * polynomial_sum [297.8501921; 445267.1114034; -1.8819e-3; 1.83195e-6; -8.8445e-9] T in
  let N := dtr * polynomial_sum [125.04452; -1934.136261; 2.0708e-3; 2.22222e-6] T in
  Lun s D (s - N) (dtr * (357.5256 + 35999.049 * T)) (dtr * (134.96292 + 477198.86753 * T)).
Definition r_moon (a : lunar) : R :=
  let '(Lun s D F M l) := a in
  1e3 * (385000 - 20905 * cos l - 3699 * cos (2 * D - l) -
    2956 * cos (2 * D) - 570 * cos (2 * l) +
    246 * cos (2 * l - 2 * D) - 205 * cos (M - 2 * D) -
    171 * cos (l + 2 * D) - 152 * cos (l + M - 2 * D)).
Definition lambda_moon (a : lunar) : R :=
  let '(Lun s D F M l) := a in
  s + asec2rad * (
    22640 * sin l + 769 * sin (2 * l) -
    4586 * sin (l - 2 * D) + 2370 * sin (2 * D) -
    668 * sin M - 412 * sin (2 * F) -
    212 * sin (2 * l - 2 * D) - 206 * sin (l + M - 2 * D) +
    192 * sin (l + 2 * D) - 165 * sin (M - 2 * D) -
    148 * sin (l - M) - 125 * sin D -
    110 * sin (l + M) - 55 * sin (2 * F - 2 * D)).
Definition beta_moon (a : lunar) : R :=
  let '(Lun s D F M l) := a in
  let q := asec2rad * (412 * sin (2 * F) + 541 * sin M) in
  asec2rad * (18520 * sin (F + lambda_moon a - s + q) -
    526 * sin (F - 2 * D) + 44 * sin (l + F - 2 * D) -
    31 * sin (- l + F - 2 * D) - 25 * sin (- (2) * l + F) -
    23 * sin (M + F - 2 * D) + 21 * sin (- l + F) +
    11 * sin (- M + F - 2 * D)).
Definition lunar_approximate (T gha : R) : vec :=
  let a := lunar_args T in
  let r := r_moon a in let lam := lambda_moon a in let beta := beta_moon a in
  let p := Vec (r * cos lam * cos beta) (r * sin lam * cos beta) (r * sin beta) in
  mapply (rot_z (gha * dtr)) (mapply (rot_x (- eps_j2000)) p).

(** astro.py:373-400, 491-520 solar_ecef / lunar_ecef: dispatch on the name of
    the ephemerides; an unknown name falls through (returns None). *)
Definition ecef (ephemerides : string) (approx jpl : vec) : option vec :=
  if String.eqb (lower ephemerides) "approximate" then Some approx
  else if String.eqb (upper ephemerides) "JPL" then Some jpl
  else None.

(** astro.py:445-489, 599-643: positions from JPL kernels: difference of
    barycentric positions (km) rotated to ECEF. *)
Definition scale3 (k : R) (v : vec) : vec := Vec (k * vx v) (k * vy v) (k * vz v).
Definition sub3 (a b : vec) : vec := Vec (vx a - vx b) (vy a - vy b) (vz a - vz b).
Definition solar_ephemerides (rot : mat) (ssb_sun ssb_emb emb_earth : vec) : vec :=
  mapply rot (scale3 1e3 (sub3 (sub3 ssb_sun ssb_emb) emb_earth)).
Definition lunar_ephemerides (rot : mat) (emb_moon emb_earth : vec) : vec :=
  mapply rot (scale3 1e3 (sub3 emb_moon emb_earth)).
