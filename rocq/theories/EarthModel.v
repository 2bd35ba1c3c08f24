(** Model of the body tide, pole tide and long-period equilibrium tide part of
    pyTMD/predict.py (924-1747) and of pyTMD/io/model.py:1177-1209.
    Simplifications: exact real arithmetic; the polar motion and the mean pole
    come from the timescale package and are parameters (one value for each
    time); an array of times is a list, deltat is paired with the times (a scalar
    is the constant list); an (n,3) array of coordinates is a list of vectors.
    numpy broadcasting along the first axis is modelled ([bcast_to]). *)
From Coq Require Import Reals String List Bool ZArith.
From Verif Require Import PyBase RBase StrBase MathModel AstroModel.
Import ListNotations.
Open Scope R_scope.

(** numpy broadcasting of a one-dimensional array to length n *)
Definition bcast_to {A} (n : nat) (l : list A) : res (list A) :=
  if Nat.eqb (List.length l) n then Ok l
  else match l with [x] => Ok (repeat x n) | _ => Err ValueError end.

(** predict.py:100 *)
Definition mjd_tide : R := 48622.

(** ** Long-period equilibrium tide *)

(** predict.py:953-955 *)
Definition lpe_index : list string :=
  ["node"; "sa"; "ssa"; "msm"; "065.445"; "mm"; "065.465"; "msf"; "075.355"; "mf"; "mf+"; "075.575";
   "mst"; "mt"; "085.465"]%string.
(** predict.py:977-1000 (centimetres) *)
Definition lpe_major : list R :=
  [2.7929; -0.4922; -3.0988; -0.6728; 0.231; -3.5184; 0.228; -0.5837; -0.288; -6.6607; -2.763; -0.258;
   -0.2422; -1.2753; -0.528].
(** predict.py:1015-1034: columns of coef *)
Definition lpe_coef : list (list R) :=
  [[0; 0; 0; 1; 0]; [0; 1; 0; 0; -1]; [0; 2; 0; 0; 0];
   [1; -2; 1; 0; 0]; [1; 0; -1; -1; 0]; [1; 0; -1; 0; 0]; [1; 0; -1; 1; 0];
   [2; -2; 0; 0; 0]; [2; 0; -2; 0; 0]; [2; 0; 0; 0; 0]; [2; 0; 0; 1; 0]; [2; 0; 0; 2; 0];
   [3; -2; 1; 0; 0]; [3; 0; -1; 0; 0]; [3; 0; -1; 1; 0]].

(** The constituents keyword: absent, a string or a list (predict.py:956, 1002-1006) *)
Inductive names := Default | One (s : string) | Many (l : list string).
Definition lpe_selected (k : names) : list string :=
  match k with Default => map lower lpe_index | One s => [lower s] | Many l => map lower l end.
(** predict.py:1008-1012 *)
Definition lpe_cte (k : names) : list R :=
  map (fun p => if mem_str (fst p) (lpe_selected k) then snd p else 0) (combine lpe_index lpe_major).

Fixpoint rdot (a b : list R) : R :=
  match a, b with x :: a', y :: b' => x * y + rdot a' b' | _, _ => 0 end.

(** predict.py:966-975 *)
Definition lpe_fargs (corrections : string) (t deltat : R) : list R :=
  let ASTRO5 := negb (mem_str corrections ["OTIS"; "ATLAS"; "TMD3"; "netcdf"]%string) in
  let l := mean_longitudes (t + mjd_tide + deltat) false ASTRO5 in
  [lS l; lH l; lP l; normalize_angle (360 - lN l) 360; lPP l].
(** predict.py:1036-1038 (centimetres) *)
Definition lpe_potential (corrections : string) (k : names) (t deltat : R) : R :=
  rdot (map (fun c => cos (rdot (lpe_fargs corrections t deltat) c * PI / 180)) lpe_coef) (lpe_cte k).
(** predict.py:1040-1046 *)
Definition lpe_gamma : R := 1 + 0.299 - 0.606.
Definition lpe_p20 (lat : R) : R := 0.5 * (3 * sin (lat * PI / 180) ^ 2 - 1).
(** predict.py:1049-1052: one product *)
Definition lpe_value (corrections : string) (k : names) (t deltat lat : R) : R :=
  lpe_gamma * sqrt ((4 + 1) / (4 * PI)) * lpe_p20 lat * (lpe_potential corrections k t deltat / 100).
(** predict.py:924-1053: an outer product when the numbers of latitudes and times
    differ (rows are latitudes), otherwise a product element by element *)
Inductive table := Flat (l : list R) | Outer (rows : list (list R)).
Definition equilibrium_tide (t : list (R * R)) (lat : list R) (corrections : string) (k : names) : table :=
  if negb (Nat.eqb (List.length lat) (List.length t)) then
    Outer (map (fun y => map (fun q => lpe_value corrections k (fst q) (snd q) y) t) lat)
  else Flat (map (fun p => lpe_value corrections k (fst (snd p)) (snd (snd p)) (fst p)) (combine lat t)).

(** io/model.py:1177-1209 node_equilibrium: amplitude (m) and phase (degrees) *)
Definition node_equilibrium (lat : R) : R * R :=
  (0.027929 * (1 + 0.299 - 0.606) * (0.5 * (3 * sin (lat * PI / 180) ^ 2 - 1)) * sqrt ((4 + 1) / (4 * PI)), 180).

(** ** Pole tides *)

(** predict.py:1113-1119: radius, colatitude, longitude *)
Definition pt_radius (p : vec) : R := sqrt (vx p ^ 2 + vy p ^ 2 + vz p ^ 2).
Definition pt_theta (p : vec) : R := PI / 2 - atan (vz p / sqrt (vx p ^ 2 + vy p ^ 2)).
Definition pt_phi (p : vec) : R := atan2 (vy p) (vx p).

(** Pole position: polar motion and mean pole (arcseconds); predict.py:1121-1130, 1240-1249 *)
Record pole := Pole { px : R; py : R; mpx : R; mpy : R }.
Definition pole_mx (q : pole) : R := px q - mpx q.
Definition pole_my (q : pole) : R := - (py q - mpy q).

(** predict.py:1133-1144: displacement in latitude, longitude and radial directions *)
Definition lpt_local (gamma_0 omega h2 l2 : R) (p : vec) (q : pole) : vec :=
  let radius := pt_radius p in let theta := pt_theta p in let phi := pt_phi p in
  let mx := pole_mx q in let my := pole_my q in
  let d0 := - l2 * atr * (omega ^ 2 * radius ^ 2) / gamma_0 in
  let d1 := l2 * atr * (omega ^ 2 * radius ^ 2) / gamma_0 in
  let d2 := - h2 * atr * (omega ^ 2 * radius ^ 2) / (2 * gamma_0) in
  Vec (d0 * cos (2 * theta) * (mx * cos phi + my * sin phi))
    (d1 * cos theta * (mx * sin phi - my * cos phi))
    (d2 * sin (2 * theta) * (mx * cos phi + my * sin phi)).
(** predict.py:1146-1155 *)
Definition lpt_rotation (p : vec) : mat :=
  let theta := pt_theta p in let phi := pt_phi p in
  Mat (cos phi * cos theta) (- sin phi) (cos phi * sin theta)
    (sin phi * cos theta) (cos phi) (sin phi * sin theta)
    (- sin theta) 0 (cos theta).
(** predict.py:1157: einsum 'ti,jit->tj' *)
Definition lpt_point (gamma_0 omega h2 l2 : R) (p : vec) (q : pole) : vec :=
  mapply (lpt_rotation p) (lpt_local gamma_0 omega h2 l2 p q).
(** predict.py:1056-1161 load_pole_tide; one pole position for each time; normal
    gravity may be an array (compute.py passes one value for each point) *)
Definition load_pole_tide_at (qs : list pole) (XYZ : list vec) (gamma_0 : list R) (omega h2 l2 : R) : res (list vec) :=
  let n := Nat.max (List.length qs) (List.length XYZ) in
  do p <- bcast_to n XYZ ;; do q <- bcast_to n qs ;; do g <- bcast_to n gamma_0 ;;
  Ok (map (fun pq => lpt_point (snd pq) omega h2 l2 (fst (fst pq)) (snd (fst pq))) (combine (combine p q) g)).
Definition load_pole_tide (qs : list pole) (XYZ : list vec) (gamma_0 omega h2 l2 : R) : res (list vec) :=
  load_pole_tide_at qs XYZ [gamma_0] omega h2 l2.

(** predict.py:1250-1261 ocean_pole_tide for one point; the coefficients of the
    maps of Desai are the real and imaginary vectors u *)
Definition opt_K (gamma_0 a_axis GM omega rho_w : R) : R :=
  let Hp := sqrt (8 * PI / 15) * (omega ^ 2 * a_axis ^ 4) / GM in
  4 * PI * 6.67430e-11 * rho_w * Hp * a_axis / (3 * gamma_0).
Definition opt_point (gamma_0 a_axis GM omega rho_w : R) (g2 : cpx) (q : pole) (u : vec * vec) : vec :=
  let K := opt_K gamma_0 a_axis GM omega rho_w in
  let mx := pole_mx q in let my := pole_my q in
  let c := mx * fst g2 + my * snd g2 in let d := my * fst g2 - mx * snd g2 in
  Vec (K * atr * (c * vx (fst u) + d * vx (snd u)))
    (K * atr * (c * vy (fst u) + d * vy (snd u)))
    (K * atr * (c * vz (fst u) + d * vz (snd u))).
(** predict.py:1164-1265 ocean_pole_tide; XYZ only gives the number of points *)
Definition ocean_pole_tide (qs : list pole) (XYZ : list vec) (U : list (vec * vec))
    (gamma_0 a_axis GM omega rho_w : R) (g2 : cpx) : res (list vec) :=
  let n := Nat.max (List.length qs) (List.length XYZ) in
  do u <- bcast_to n U ;; do q <- bcast_to n qs ;;
  Ok (map (fun p => opt_point gamma_0 a_axis GM omega rho_w g2 (fst p) (snd p)) (combine q u)).

(** ** Solid earth tides *)

Definition vadd (a b : vec) : vec := Vec (vx a + vx b) (vy a + vy b) (vz a + vz b).
Definition xyz_radius (p : vec) : R := sqrt (vx p ^ 2 + vy p ^ 2 + vz p ^ 2).
(** e.g. predict.py:1403-1408 *)
Definition sinphi (p : vec) : R := vz p / xyz_radius p.
Definition cosphi (p : vec) : R := sqrt (vx p ^ 2 + vy p ^ 2) / xyz_radius p.
Definition sinla (p : vec) : R := vy p / cosphi p / xyz_radius p.
Definition cosla (p : vec) : R := vx p / cosphi p / xyz_radius p.
(** e.g. predict.py:1430-1432: radial, north and east components to Cartesian *)
Definition to_xyz (p : vec) (DR DN DE : R) : vec :=
  Vec (DR * cosla p * cosphi p - DE * sinla p - DN * cosla p * sinphi p)
    (DR * sinla p * cosphi p + DE * cosla p - DN * sinla p * sinphi p)
    (DR * sinphi p + DN * cosphi p).

Record love := Love { lv_h2 : R; lv_l2 : R; lv_h3 : R; lv_l3 : R; lv_solar : R; lv_lunar : R }.
(** predict.py:1310-1316 *)
Definition default_love : love := Love 0.6078 0.0847 0.292 0.015 332946.0482 0.0123000371.

(** predict.py:1332-1334 *)
Definition set_h2 (lv : love) (p : vec) : R := lv_h2 lv - 0.0006 * (1 - 3 / 2 * cosphi p ^ 2).
Definition set_l2 (lv : love) (p : vec) : R := lv_l2 lv + 0.0002 * (1 - 3 / 2 * cosphi p ^ 2).
(** predict.py:1349-1352 *)
Definition set_F2 (mass a : R) (b : vec) : R := mass * a * (a / xyz_radius b) ^ 3.
Definition set_F3 (mass a : R) (b : vec) : R := mass * a * (a / xyz_radius b) ^ 4.
(** predict.py:1323-1360: one body, degrees 2 and 3, component c *)
Definition set_scalar (p b : vec) : R :=
  (vx p * vx b + vy p * vy b + vz p * vz b) / (xyz_radius p * xyz_radius b).
Definition set_deg2 (h2 l2 F : R) (p b : vec) (c : vec -> R) : R :=
  let s := set_scalar p b in
  F * (3 * l2 * s * c b / xyz_radius b + (3 * (h2 / 2 - l2) * s ^ 2 - h2 / 2) * c p / xyz_radius p).
Definition set_deg3 (h3 l3 F : R) (p b : vec) (c : vec -> R) : R :=
  let s := set_scalar p b in
  F * (3 * l3 / 2 * (5 * s ^ 2 - 1) * c b / xyz_radius b +
       (5 / 2 * (h3 - 3 * l3) * s ^ 3 + 3 / 2 * (l3 - h3) * s) * c p / xyz_radius p).
Definition set_main (lv : love) (a : R) (p sun moon : vec) : vec :=
  let h2 := set_h2 lv p in let l2 := set_l2 lv p in
  let f c := set_deg2 h2 l2 (set_F2 (lv_solar lv) a sun) p sun c + set_deg2 h2 l2 (set_F2 (lv_lunar lv) a moon) p moon c
    + set_deg3 (lv_h3 lv) (lv_l3 lv) (set_F3 (lv_solar lv) a sun) p sun c
    + set_deg3 (lv_h3 lv) (lv_l3 lv) (set_F3 (lv_lunar lv) a moon) p moon c in
  Vec (f vx) (f vy) (f vz).

(** predict.py:1375-1434 _out_of_phase_diurnal *)
Definition oop_diurnal_body (p b : vec) (F : R) : R * R * R :=
  let dhi := -0.0025 in let dli := -0.0007 in
  let cos2phi := cosphi p ^ 2 - sinphi p ^ 2 in
  (-3 * dhi * sinphi p * cosphi p * F * vz b * (vx b * sinla p - vy b * cosla p) / xyz_radius b ^ 2,
   -3 * dli * cos2phi * F * vz b * (vx b * sinla p - vy b * cosla p) / xyz_radius b ^ 2,
   -3 * dli * sinphi p * F * vz b * (vx b * cosla p + vy b * sinla p) / xyz_radius b ^ 2).
Definition add_bodies (p : vec) (s l : R * R * R) : vec :=
  to_xyz p (fst (fst s) + fst (fst l)) (snd (fst s) + snd (fst l)) (snd s + snd l).
Definition out_of_phase_diurnal (p sun moon : vec) (Fs Fl : R) : vec :=
  add_bodies p (oop_diurnal_body p sun Fs) (oop_diurnal_body p moon Fl).

(** predict.py:1436-1502 _out_of_phase_semidiurnal *)
Definition cos2la (p : vec) : R := cosla p ^ 2 - sinla p ^ 2.
Definition sin2la (p : vec) : R := 2 * cosla p * sinla p.
Definition oop_semidiurnal_body (p b : vec) (F : R) : R * R * R :=
  let dhi := -0.0022 in let dli := -0.0007 in
  let s := (vx b ^ 2 - vy b ^ 2) * sin2la p - 2 * vx b * vy b * cos2la p in
  let c := (vx b ^ 2 - vy b ^ 2) * cos2la p + 2 * vx b * vy b * sin2la p in
  (-3 / 4 * dhi * cosphi p ^ 2 * F * s / xyz_radius b ^ 2,
   3 / 2 * dli * sinphi p * cosphi p * F * s / xyz_radius b ^ 2,
   -3 / 2 * dli * cosphi p * F * c / xyz_radius b ^ 2).
Definition out_of_phase_semidiurnal (p sun moon : vec) (Fs Fl : R) : vec :=
  add_bodies p (oop_semidiurnal_body p sun Fs) (oop_semidiurnal_body p moon Fl).

(** predict.py:1504-1572 _latitude_dependence: north and east offsets of one body *)
Definition latdep_body (p b : vec) (F : R) : R * R :=
  let l1d := 0.0012 in let l1sd := 0.0024 in
  let s := (vx b ^ 2 - vy b ^ 2) * sin2la p - 2 * vx b * vy b * cos2la p in
  let c := (vx b ^ 2 - vy b ^ 2) * cos2la p + 2 * vx b * vy b * sin2la p in
  (- l1d * sinphi p ^ 2 * F * vz b * (vx b * cosla p + vy b * sinla p) / xyz_radius b ^ 2 +
   - l1sd / 2 * sinphi p * cosphi p * F * c / xyz_radius b ^ 2,
   l1d * sinphi p * (cosphi p ^ 2 - sinphi p ^ 2) * F * vz b * (vx b * sinla p - vy b * cosla p) / xyz_radius b ^ 2 +
   - l1sd / 2 * sinphi p ^ 2 * cosphi p * F * s / xyz_radius b ^ 2).
Definition latitude_dependence (p sun moon : vec) (Fs Fl : R) : vec :=
  let a := latdep_body p sun Fs in let b := latdep_body p moon Fl in
  let DN := 3 * (fst a + fst b) in let DE := 3 * (snd a + snd b) in
  Vec (- DE * sinla p - DN * cosla p * sinphi p) (DE * cosla p - DN * sinla p * sinphi p) (DN * cosphi p).

(** A row of the frequency tables: multipliers of S, H, P, N', Ps and four values *)
Record frow := FRow { f0 : R; f1 : R; f2 : R; f3 : R; f4 : R; f5 : R; f6 : R; f7 : R; f8 : R }.
(** predict.py:1593-1625 *)
Definition diurnal_table : list frow :=
  [FRow (-3) 0 2 0 0 (-0.01) 0 0 0;
   FRow (-3) 2 0 0 0 (-0.01) 0 0 0;
   FRow (-2) 0 1 (-1) 0 (-0.02) 0 0 0;
   FRow (-2) 0 1 0 0 (-0.08) 0 (-0.01) 0.01;
   FRow (-2) 2 (-1) 0 0 (-0.02) 0 0 0;
   FRow (-1) 0 0 (-1) 0 (-0.10) 0 0 0;
   FRow (-1) 0 0 0 0 (-0.51) 0 (-0.02) 0.03;
   FRow (-1) 2 0 0 0 0.01 0 0 0;
   FRow 0 (-2) 1 0 0 0.01 0 0 0;
   FRow 0 0 (-1) 0 0 0.02 0 0 0;
   FRow 0 0 1 0 0 0.06 0 0 0;
   FRow 0 0 1 1 0 0.01 0 0 0;
   FRow 0 2 (-1) 0 0 0.01 0 0 0;
   FRow 1 (-3) 0 0 1 (-0.06) 0 0 0;
   FRow 1 (-2) 0 (-1) 0 0.01 0 0 0;
   FRow 1 (-2) 0 0 0 (-1.23) (-0.07) 0.06 0.01;
   FRow 1 (-1) 0 0 (-1) 0.02 0 0 0;
   FRow 1 (-1) 0 0 1 0.04 0 0 0;
   FRow 1 0 0 (-1) 0 (-0.22) 0.01 0.01 0;
   FRow 1 0 0 0 0 12.00 (-0.80) (-0.67) (-0.03);
   FRow 1 0 0 1 0 1.73 (-0.12) (-0.10) 0;
   FRow 1 0 0 2 0 (-0.04) 0 0 0;
   FRow 1 1 0 0 (-1) (-0.50) (-0.01) 0.03 0;
   FRow 1 1 0 0 1 0.01 0 0 0;
   FRow 0 1 0 1 (-1) (-0.01) 0 0 0;
   FRow 1 2 (-2) 0 0 (-0.01) 0 0 0;
   FRow 1 2 0 0 0 (-0.11) 0.01 0.01 0;
   FRow 2 (-2) 1 0 0 (-0.01) 0 0 0;
   FRow 2 0 (-1) 0 0 (-0.02) 0 0 0;
   FRow 3 0 0 0 0 0 0 0 0;
   FRow 3 0 0 1 0 0 0 0 0].
(** predict.py:1675-1681 *)
Definition long_period_table : list frow :=
  [FRow 0 0 0 1 0 0.47 0.23 0.16 0.07;
   FRow 0 2 0 0 0 (-0.20) (-0.12) (-0.11) (-0.05);
   FRow 1 0 (-1) 0 0 (-0.11) (-0.08) (-0.09) (-0.04);
   FRow 2 0 0 0 0 (-0.13) (-0.11) (-0.15) (-0.07);
   FRow 2 0 0 1 0 (-0.05) (-0.05) (-0.06) (-0.03)].

(** Phase angles TAU, S, H, P, ZNS, PS (radians); predict.py:1627, 1683 *)
Record angles := Angles { aT : R; aS : R; aH : R; aP : R; aN : R; aPS : R }.
Definition phase_args (MJD : R) : angles :=
  let '(T, s, H, P, Z, Ps) := doodson_arguments MJD 0 false true in Angles T s H P Z Ps.
Definition lp_thetaf (g : angles) (w : frow) : R :=
  aS g * f0 w + aH g * f1 w + aP g * f2 w + aN g * f3 w + aPS g * f4 w.
Definition di_thetaf (g : angles) (w : frow) : R :=
  aT g + aS g * f0 w + aH g * f1 w + aP g * f2 w + aN g * f3 w + aPS g * f4 w.

Definition vscale (k : R) (v : vec) : vec := Vec (k * vx v) (k * vy v) (k * vz v).
(** predict.py:1636-1652 *)
Definition diurnal_row (p : vec) (g : angles) (w : frow) : vec :=
  let zla := atan2 (vy p) (vx p) in let th := di_thetaf g w in
  let dr := 2 * f5 w * sinphi p * cosphi p * sin (th + zla) + 2 * f6 w * sinphi p * cosphi p * cos (th + zla) in
  let dn := f7 w * (cosphi p ^ 2 - sinphi p ^ 2) * sin (th + zla) + f8 w * (cosphi p ^ 2 - sinphi p ^ 2) * cos (th + zla) in
  let de := f7 w * sinphi p * cos (th + zla) - f8 w * sinphi p * sin (th + zla) in
  vscale 1e-3 (to_xyz p dr dn de).
(** predict.py:1697-1705 *)
Definition long_period_row (p : vec) (g : angles) (w : frow) : vec :=
  let th := lp_thetaf g w in
  let dr := f5 w * (3 * sinphi p ^ 2 - 1) * cos th / 2 + f7 w * (3 * sinphi p ^ 2 - 1) * sin th / 2 in
  let dn := f6 w * (2 * cosphi p * sinphi p) * cos th + f8 w * (2 * cosphi p * sinphi p) * sin th in
  vscale 1e-3 (to_xyz p dr dn 0).
Definition vsum (l : list vec) : vec := fold_left vadd l (Vec 0 0 0).
(** predict.py:1574-1654, 1656-1707 *)
Definition frequency_dependence_diurnal (p : vec) (g : angles) : vec := vsum (map (diurnal_row p g) diurnal_table).
Definition frequency_dependence_long_period (p : vec) (g : angles) : vec := vsum (map (long_period_row p g) long_period_table).

(** predict.py:1709-1747 _free_to_mean *)
Definition free_to_mean (p : vec) (h2 l2 : R) : vec :=
  let H0 := -0.31460 in
  let dR0 := sqrt (5 / (4 * PI)) * h2 * H0 in
  let dN0 := sqrt (45 / (16 * PI)) * l2 * H0 in
  let dr := dR0 * (3 / 2 * sinphi p ^ 2 - 1 / 2) in
  let dn := 2 * dN0 * cosphi p * sinphi p in
  Vec (dr * cosla p * cosphi p - dn * cosla p * sinphi p)
    (dr * sinla p * cosphi p - dn * sinla p * sinphi p)
    (dr * sinphi p + dn * cosphi p).

(** predict.py:1271-1373 solid_earth_tide for one point and time *)
Definition set_point (lv : love) (a : R) (mean : bool) (t : R) (p sun moon : vec) : vec :=
  let Fs := set_F2 (lv_solar lv) a sun in let Fl := set_F2 (lv_lunar lv) a moon in
  let g := phase_args (t + mjd_tide) in
  let u := set_main lv a p sun moon in
  let u := vadd u (out_of_phase_diurnal p sun moon Fs Fl) in
  let u := vadd u (out_of_phase_semidiurnal p sun moon Fs Fl) in
  let u := vadd u (latitude_dependence p sun moon Fs Fl) in
  let u := vadd u (frequency_dependence_diurnal p g) in
  let u := vadd u (frequency_dependence_long_period p g) in
  if mean then vadd u (free_to_mean p (set_h2 lv p) (set_l2 lv p)) else u.
Definition solid_earth_tide (t : list R) (XYZ SXYZ LXYZ : list vec) (a : R) (tide_system : string) (lv : love) : res (list vec) :=
  if negb (mem_str (lower tide_system) ["tide_free"; "mean_tide"]%string) then Err AssertionError
  else
    let nt := List.length t in
    do p <- bcast_to nt XYZ ;; do s <- bcast_to nt SXYZ ;; do l <- bcast_to nt LXYZ ;;
    Ok (map (fun q => set_point lv a (String.eqb (lower tide_system) "mean_tide") (fst q) (fst (fst (snd q))) (snd (fst (snd q))) (snd (snd q)))
          (combine t (combine (combine p s) l))).
