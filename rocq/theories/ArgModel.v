(** Model of pyTMD/arguments.py: arguments (111-176), minor_arguments (178-328),
    nodal (479-1170, branches in NodalData.v), frequency (1172-1225),
    aliasing_period (1227-1264), _constituent_parameters (1328-1412) and
    _love_numbers (1414-1492).  Functions are given for one time and one
    constituent: in the code every array element is computed from its own time
    and constituent only. *)
From Coq Require Import Reals String List Bool ZArith.
From Verif Require Import PyBase RBase StrBase DoodsonData DoodsonModel MathModel AstroModel.
From Verif Require Import PredictModel InferModel NodalBase NodalData.
Import ListNotations.
Open Scope R_scope.

(** ** nodal *)
Fixpoint first_rule (bs : list branch) (o : opts) (e : env) (c : string) : rule :=
  match bs with
  | [] => default_rule
  | (t, g, b) :: bs' => if holds t c && g o then b e else first_rule bs' o e c
  end.
Definition nodal_rule (o : opts) (e : env) (c : string) : rule := first_rule branches o e c.

(** Product and signed sum of the corrections of the parents (u, f) *)
Fixpoint combine_parents (val : string -> R * R) (l : list (string * nat * Z)) : R * R :=
  match l with
  | [] => (0, 1)
  | (c, a, b) :: l' =>
      let (u, f) := combine_parents val l' in
      (IZR b * fst (val c) + u, snd (val c) ^ a * f)
  end.

(** Value (u, f) of a rule; [val] gives the corrections of the parents *)
Definition rule_value (val : string -> R * R) (r : rule) : R * R :=
  match r with
  | Terms t1 t2 => (atan2 t1 t2, sqrt (t1 ^ 2 + t2 ^ 2))
  | Direct f u => (u, f)
  | Compound l => combine_parents val l
  end.

(** The recursive calls: parents are looked up by the same function.  [k] bounds
    the depth; NodalProps shows that depth 1 suffices. *)
Fixpoint nodal_rec (k : nat) (o : opts) (e : env) (c : string) : R * R :=
  match k with
  | O => (0, 0)
  | S k' => rule_value (nodal_rec k' o e) (nodal_rule o e c)
  end.
Definition nodal (o : opts) (n p : R) (c : string) : R * R := nodal_rec 2 o (mk_env n p) c.

(** ** arguments *)
Definition dot (coef : list Z) (fargs : list R) : R :=
  fold_right Rplus 0 (map (fun kx => IZR (fst kx) * snd kx) (combine coef fargs)).

(** arguments.py:158-167: fundamental arguments from the longitudes [l] and the
    time of day *)
Definition fargs (l : longitudes) (hour : R) : list R :=
  [15 * hour - lS l + lH l; lS l; lH l; lP l; lN l; lPP l; 90].
Definition hour_of (MJD : R) : R := 24 * rmod MJD 1.

(** (pu, pf, G) from given longitudes (arguments.py:164-173) *)
Definition arguments_from (corr m1 : string) (l : longitudes) (hour : R) (c : string)
  : res (R * R * R) :=
  do coef <- coefficients corr c ;;
  let G := dot coef (fargs l hour) in
  let uf := nodal (options corr m1) (lN l) (lP l) c in
  Ok (fst uf, snd uf, G).

(** arguments.py:111-176 *)
Definition arguments (corr m1 : string) (MJD deltat : R) (c : string) : res (R * R * R) :=
  arguments_from corr m1 (mean_longitudes (MJD + deltat) false (negb (otis_corr corr)))
    (hour_of MJD) c.

(** ** frequency (arguments.py:1172-1225) *)
Definition frequency (corr c : string) : res R :=
  do coef <- coefficients corr c ;;
  let lon m := fargs (mean_longitudes m false (negb (otis_corr corr))) (hour_of m) in
  let t0 := 51544.5 in
  let t1 := 51544.55 in
  let deltat := 86400 * (t1 - t0) in
  let rates := map (fun ab => (snd ab - fst ab) / deltat) (combine (lon t0) (lon t1)) in
  Ok (2 * PI * dot coef rates / 360).

(** arguments.py:1227-1264 *)
Definition aliasing_period (corr c : string) (sampling : R) : res R :=
  do omega <- frequency corr c ;;
  Ok (1 / aliasing (omega / (2 * PI)) (1 / sampling)).

(** ** _constituent_parameters (arguments.py:1328-1412):
    (name, (amplitude, phase, omega, alpha), species), one row per entry *)
Record param := Par { p_amp : R; p_phase : R; p_omega : R; p_alpha : R; p_species : Z }.
Definition parameters : list (string * param) := [
  ("m2", Par 0.2441 1.731557546 1.405189e-04 0.693 2);
  ("s2", Par 0.112743 0 1.454441e-04 0.693 2);
  ("k1", Par 0.141565 0.173003674 7.292117e-05 0.736 1);
  ("o1", Par 0.100661 1.558553872 6.759774e-05 0.695 1);
  ("n2", Par 0.046397 6.050721243 1.378797e-04 0.693 2);
  ("p1", Par 0.046848 6.110181633 7.252295e-05 0.706 1);
  ("k2", Par 0.030684 3.487600001 1.458423e-04 0.693 2);
  ("q1", Par 0.019273 5.877717569 6.495854e-05 0.695 1);
  ("2n2", Par 0.006141 4.086699633 1.352405e-04 0.693 2);
  ("mu2", Par 0.007408 3.463115091 1.355937e-04 0.693 2);
  ("nu2", Par 0.008811 5.427136701 1.382329e-04 0.693 2);
  ("l2", Par 0.006931 0.553986502 1.431581e-04 0.693 2);
  ("t2", Par 0.006608 0.050398470 1.452450e-04 0.693 2);
  ("j1", Par 0.007915 2.137025284 7.556036e-05 0.695 1);
  ("m1", Par 0.007915 2.436575000 7.025945e-05 0.695 1);
  ("oo1", Par 0.004338 1.929046130 7.824458e-05 0.695 1);
  ("rho1", Par 0.003661 5.254133027 6.531174e-05 0.695 1);
  ("mf", Par 0.042041 1.756042456 0.053234e-04 0.693 0);
  ("mm", Par 0.022191 1.964021610 0.026392e-04 0.693 0);
  ("ssa", Par 0.019567 3.487600001 0.003982e-04 0.693 0);
  ("m4", Par 0 3.463115091 2.810377e-04 0.693 4);
  ("ms4", Par 0 1.731557546 2.859630e-04 0.693 4);
  ("mn4", Par 0 1.499093481 2.783984e-04 0.693 4);
  ("m6", Par 0 5.194672637 4.215566e-04 0.693 6);
  ("m8", Par 0 6.926230184 5.620755e-04 0.693 8);
  ("mk3", Par 0 1.904561220 2.134402e-04 0.693 3);
  ("s6", Par 0 0 4.363323e-04 0.693 6);
  ("2sm2", Par 0 4.551627762 1.503693e-04 0.693 2);
  ("2mk3", Par 0 3.290111417 2.081166e-04 0.693 3);
  ("msf", Par 0.003681 4.551627762 4.925200e-06 0.693 0);
  ("sa", Par 0.003104 6.232786837 1.990970e-07 0.693 0);
  ("mt", Par 0.008044 3.720064066 7.962619e-06 0.693 0);
  ("2q1", Par 0.002565 3.91369596 6.231934e-05 0.693 1)
]%string.
Definition constituent_parameters (c : string) (raise_error : bool) : res param :=
  match assoc (lower c) parameters with
  | Some q => Ok q
  | None => if raise_error then Err ValueError else Ok (Par 0 0 0 0 0)
  end.

(** ** _love_numbers (arguments.py:1414-1492) *)
Definition earth_model (m : string) : res (R * (R * R) * (R * R) * (R * R)) :=
  if String.eqb m "1066A" then Ok (1.0021714, (6.03e-1, -2.46e-3), (2.98e-1, -1.23e-3), (8.42e-2, 7.81e-5))
  else if String.eqb m "PEM-C" then Ok (1.0021771, (6.02e-1, -2.46e-3), (2.98e-1, -1.24e-3), (8.39e-2, 7.69e-5))
  else if String.eqb m "C2" then Ok (1.0021844, (6.02e-1, -2.45e-3), (2.98e-1, -1.23e-3), (8.46e-2, 7.58e-5))
  else if String.eqb m "PREM" then Ok (1.0023214, (5.994e-1, -2.532e-3), (2.962e-1, -1.271e-3), (8.378e-2, 7.932e-5))
  else Err ValueError.
(** (h2, k2, l2) *)
Definition love_numbers (omega : R) (m : string) : res (R * R * R) :=
  do em <- earth_model m ;;
  let '(fcn, (h0, h1), (k0, k1), (l0, l1)) := em in
  if Rlt_dec 1e-4 omega then Ok (0.609, 0.302, 0.0852)
  else if Rlt_dec omega 2e-5 then Ok (0.606, 0.299, 0.0840)
  else
    do omega_o1 <- frequency "OTIS" "o1" ;;
    let omega_fcn := fcn * (7292115 * 1e-11) in
    let ratio := (omega - omega_o1) / (omega_fcn - omega) in
    Ok (h0 + h1 * ratio, k0 + k1 * ratio, l0 + l1 * ratio).

(** ** minor_arguments (arguments.py:178-328) *)
(** _minor_table (arguments.py:1303-1326): always with the default corrections *)
Definition minor_names : list string :=
  ["2q1"; "sigma1"; "rho1"; "m1b"; "m1a"; "chi1"; "pi1"; "phi1"; "theta1"; "j1"; "oo1";
   "2n2"; "mu2"; "nu2"; "lambda2"; "l2a"; "l2b"; "t2"; "eps2"; "eta2"]%string.

Definition amp2 (a b : R) : R := sqrt (a ^ 2 + b ^ 2).
(** arguments.py:239-273: (u, f) of the minors before the scheme overrides *)
Definition minor_default (e : env) : list (R * R) :=
  let q := (atan2 (0.189 * sinn e - 0.0058 * sin2n e) (1 + 0.189 * cosn e - 0.0058 * sin2n e),
            amp2 (1 + 0.189 * cosn e - 0.0058 * cos2n e) (0.189 * sinn e - 0.0058 * sin2n e)) in
  let m12 := (atan2 (0.185 * sinn e) (1 + 0.185 * cosn e), amp2 (1 + 0.185 * cosn e) (0.185 * sinn e)) in
  let m11 := (atan2 (- 0.201 * sinn e) (1 + 0.201 * cosn e), amp2 (1 + 0.201 * cosn e) (0.201 * sinn e)) in
  let chi := (atan2 (- 0.221 * sinn e) (1 + 0.221 * cosn e), amp2 (1 + 0.221 * cosn e) (0.221 * sinn e)) in
  let j1 := (atan2 (- 0.198 * sinn e) (1 + 0.198 * cosn e), amp2 (1 + 0.198 * cosn e) (0.198 * sinn e)) in
  let oo := (atan2 (- 0.640 * sinn e - 0.134 * sin2n e) (1 + 0.640 * cosn e + 0.134 * cos2n e),
             amp2 (1 + 0.640 * cosn e + 0.134 * cos2n e) (0.640 * sinn e + 0.134 * sin2n e)) in
  let n2 := (atan2 (- 0.0373 * sinn e) (1 - 0.0373 * cosn e), amp2 (1 - 0.0373 * cosn e) (0.0373 * sinn e)) in
  let l2 := (atan2 (- 0.441 * sinn e) (1 + 0.441 * cosn e), amp2 (1 + 0.441 * cosn e) (0.441 * sinn e)) in
  let one := (0, 1) in
  [q; q; q; m12; m11; chi; one; one; one; j1; oo; n2; n2; n2; one; n2; l2; one; one; one].

(** arguments.py:275-318: FES overrides *)
Definition minor_fes (e : env) : list (R * R) :=
  let d := minor_default e in
  let q := (2 * xi e - nu e, sin (incl e) * (cos (incl e / 2)) ^ 2 / 0.38) in
  let m11 := (- nu e, sin (2 * incl e) / 0.7214) in
  let oo := (- 2 * xi e - nu e, sin (incl e) * (sin (incl e / 2)) ^ 2 / 0.01640) in
  let n2 := (2 * xi e - 2 * nu e, (cos (incl e / 2)) ^ 4 / 0.9154) in
  let l2 := (2 * xi e - 2 * nu e - rr e, (cos (incl e / 2)) ^ 4 / 0.9154 * ra1 e) in
  let eta := (- 2 * nu e, (sin (incl e)) ^ 2 / 0.1565) in
  let one := (0, 1) in
  [q; q; q; q; m11; m11; one; one; one; m11; oo; n2; n2; n2; n2; l2; nth 16 d one; one; n2; eta].

(** arguments.py:319-323: GOT overrides *)
Definition minor_got (e : env) : list (R * R) :=
  let d := minor_default e in
  let n2 := nth 11 d (0, 1) in
  let eta := (atan (- 0.436 * sinn e / (1 + 0.436 * cosn e)), amp2 (1 + 0.436 * cosn e) (0.436 * sinn e)) in
  firstn 18 d ++ [n2; eta].

Definition minor_nodal (corr : string) (n p : R) (k : nat) : R * R :=
  let e := mk_env n p in
  nth k (if String.eqb corr "FES" then minor_fes e
         else if String.eqb corr "GOT" then minor_got e else minor_default e) (0, 1).

(** (pu, pf, G) of minor [k] *)
Definition minor_arguments (corr : string) (MJD deltat : R) (k : nat) : res (R * R * R) :=
  do coef <- coefficients "OTIS" (nth k minor_names EmptyString) ;;
  let l := mean_longitudes (MJD + deltat) false (negb (otis_corr corr)) in
  let uf := minor_nodal corr (lN l) (lP l) k in
  Ok (fst uf, snd uf, dot coef (fargs l (hour_of MJD))).

(** ** Instances for the predictors (predict.py:135-141: t + 48622 is MJD) *)
Definition mjd_tide : R := 48622.
Definition pu_of (r : res (R * R * R)) : R := match r with Ok (u, _, _) => u | Err _ => 0 end.
Definition pf_of (r : res (R * R * R)) : R := match r with Ok (_, f, _) => f | Err _ => 0 end.
Definition pG_of (r : res (R * R * R)) : R := match r with Ok (_, _, g) => g | Err _ => 0 end.

Definition code_args (corr : string) : tide_args := {|
  a_known := fun c => is_ok (coefficients corr c);
  a_u := fun tm c => pu_of (arguments corr "perth5" (fst tm + mjd_tide) (snd tm) c);
  a_f := fun tm c => pf_of (arguments corr "perth5" (fst tm + mjd_tide) (snd tm) c);
  a_G := fun tm c => pG_of (arguments corr "perth5" (fst tm + mjd_tide) (snd tm) c);
  a_omega := fun c => match constituent_parameters c false with Ok q => p_omega q | Err _ => 0 end;
  a_phase := fun c => match constituent_parameters c false with Ok q => p_phase q | Err _ => 0 end |}.

Definition code_minor (corr : string) : minor_args := {|
  b_u := fun tm k => pu_of (minor_arguments corr (fst tm + mjd_tide) (snd tm) k);
  b_f := fun tm k => pf_of (minor_arguments corr (fst tm + mjd_tide) (snd tm) k);
  b_G := fun tm k => pG_of (minor_arguments corr (fst tm + mjd_tide) (snd tm) k) |}.
