(** Model of the coordinate functions of pyTMD/spatial.py (1373-1624 and
    1629-2275), element-wise over the reals unless a function is not
    element-wise (loops that stop for a whole batch, in-place assignment). *)
From Coq Require Import Reals String List Bool ZArith.
From Verif Require Import PyBase RBase StrBase MathModel AstroModel.
Import ListNotations.
Open Scope R_scope.

Definition rlt (x y : R) : bool := if Rlt_dec x y then true else false.
Definition rle (x y : R) : bool := if Rle_dec x y then true else false.
Definition req (x y : R) : bool := if Req_EM_T x y then true else false.
(** np.sign *)
Definition sign (x : R) : R := if Rlt_dec x 0 then -1 else if Rlt_dec 0 x then 1 else 0.
(** np.clip *)
Definition clip (x lo hi : R) : R := Rmin hi (Rmax lo x).

(** spatial.py:1564-1575 wrap_longitudes *)
Definition wrap_longitudes (lon : R) : R :=
  atan2 (sin (lon * PI / 180)) (cos (lon * PI / 180)) * 180 / PI.

(** np.divmod *)
Definition divmod (x y : R) : R * R := (IZR (rfloor (x / y)), rmod x y).

(** spatial.py:1577-1599 to_dms *)
Definition to_dms (d : R) : R * R * R :=
  let '(minute, second) := divmod (Rabs d * 3600) 60 in
  let '(degree, minute) := divmod minute 60 in
  (sign d * degree, minute, second).

(** spatial.py:1601-1624 from_dms *)
Definition from_dms (degree minute second : R) : R :=
  sign degree * (Rabs degree + minute / 60 + second / 3600).

(** ** Ellipsoid *)
Record ellipsoid := Ell { ax : R; fl : R }.
(** sqrt((2f - f^2) a^2), e.g. spatial.py:1658 *)
Definition lin_ecc (e : ellipsoid) : R := sqrt ((2 * fl e - fl e ^ 2) * ax e ^ 2).
Definition ecc1 (e : ellipsoid) : R := lin_ecc e / ax e.
Definition b_axis (e : ellipsoid) : R := (1 - fl e) * ax e.

(** spatial.py:1629-1680 to_cartesian *)
Definition prime_vertical (e : ellipsoid) (phi : R) : R :=
  ax e / sqrt (1 - ecc1 e ^ 2 * sin phi ^ 2).
Definition to_cartesian (e : ellipsoid) (lon lat h : R) : vec :=
  let lon := if Rlt_dec lon 0 then lon + 360 else lon in
  let phi := lat * dtr in
  let N := prime_vertical e phi in
  Vec ((N + h) * cos phi * cos (lon * dtr))
    ((N + h) * cos phi * sin (lon * dtr))
    ((N * (1 - ecc1 e ^ 2) + h) * sin phi).

(** spatial.py:1682-1720 to_sphere: (lon, lat, rad) *)
Definition to_sphere (v : vec) : R * R * R :=
  let rad := sqrt (vx v ^ 2 + vy v ^ 2 + vz v ^ 2) in
  let phi := atan2 (vy v) (vx v) in
  let th := acos (vz v / rad) in
  let lon := 180 * phi / PI in
  let lon := if Rlt_dec lon 0 then lon + 360 else lon in
  let lat := 90 - 180 * th / PI in
  (lon, clip lat (-90) 90, rad).

(** ** Iterative inverses.  A batch is iterated until every point has converged:
    [state] is the list of (p, z, current estimate, previous estimate); the
    previous estimate is infinite ([None]) before the first pass. *)
Definition far (eps : R) (cur : R) (prev : option R) : bool :=
  match prev with None => true | Some x => rlt eps (Rabs (cur - x)) end.

(** while np.any(far) and (i <= iterations); [fuel] is iterations + 1 - i *)
Section Iterate.
  Context {St : Type} (step : St -> St) (moved : St -> bool).
  Fixpoint iterate (fuel : nat) (l : list St) : list St :=
    match fuel with
    | O => l
    | S fuel' => if existsb moved l then iterate fuel' (map step l) else l
    end.
End Iterate.

(** spatial.py:1790-1848 _moritz_iterative *)
Record mstate := MState { mp : R; mz : R; mphi : R; mh : R; mh0 : option R }.
Definition m_start (e : ellipsoid) (v : vec) : mstate :=
  let p := sqrt (vx v ^ 2 + vy v ^ 2) in
  MState p (vz v) (atan (vz v / (p * (1 - ecc1 e ^ 2)))) 0 None.
Definition m_height (e : ellipsoid) (p phi : R) : R := p / cos phi - prime_vertical e phi.
Definition m_phi (e : ellipsoid) (p z phi h : R) : R :=
  let N := prime_vertical e phi in
  atan (z / (p * (1 - ecc1 e ^ 2 * N / (N + h)))).
Definition m_step (e : ellipsoid) (s : mstate) : mstate :=
  let h := m_height e (mp s) (mphi s) in
  MState (mp s) (mz s) (m_phi e (mp s) (mz s) (mphi s) h) h (Some (mh s)).
Definition longitude (v : vec) : R := atan2 (vy v) (vx v) / dtr.
Definition moritz (e : ellipsoid) (eps : R) (iterations : nat) (vs : list vec) : list (R * R * R) :=
  let l := iterate (m_step e) (fun s => far eps (mh s) (mh0 s)) (S iterations) (map (m_start e) vs) in
  map (fun q => (longitude (fst q), mphi (snd q) / dtr, mh (snd q))) (combine vs l).

(** spatial.py:1850-1916 _bowring_iterative *)
Definition e12 (e : ellipsoid) : R := lin_ecc e ^ 2 / ax e ^ 2.
Definition e22 (e : ellipsoid) : R := lin_ecc e ^ 2 / b_axis e ^ 2.
Record bstate := BState { bp : R; bz : R; bphi : R; bphi0 : option R }.
Definition b_phi (e : ellipsoid) (p z u : R) : R :=
  atan ((z + e22 e * b_axis e * sin u ^ 3) / (p - e12 e * ax e * cos u ^ 3)).
Definition b_start (e : ellipsoid) (v : vec) : bstate :=
  let p := sqrt (vx v ^ 2 + vy v ^ 2) in
  let u := atan (ax e * vz v / (b_axis e * p)) in
  BState p (vz v) (b_phi e p (vz v) u) None.
Definition b_step (e : ellipsoid) (s : bstate) : bstate :=
  let u := atan (b_axis e * tan (bphi s) / ax e) in
  BState (bp s) (bz s) (b_phi e (bp s) (bz s) u) (Some (bphi s)).
Definition b_height (e : ellipsoid) (p z phi : R) : R :=
  let N := ax e / sqrt (1 - e12 e * sin phi ^ 2) in
  p * cos phi + z * sin phi - ax e ^ 2 / N.
Definition bowring (e : ellipsoid) (eps : R) (iterations : nat) (vs : list vec) : list (R * R * R) :=
  let l := iterate (b_step e) (fun s => far eps (bphi s) (bphi0 s)) (S iterations) (map (b_start e) vs) in
  map (fun q => (longitude (fst q), bphi (snd q) / dtr, b_height e (bp (snd q)) (bz (snd q)) (bphi (snd q))))
    (combine vs l).

(** spatial.py:1918-1981 _zhu_closed_form.  Cube roots are [x ** (1/3)] of
    non-negative numbers ([Rpower], with 0 for 0). *)
Definition cbrt (x : R) : R := if Rlt_dec 0 x then Rpower x (1 / 3) else 0.
Definition zhu_t (e : ellipsoid) (w z : R) : R :=
  let l := e12 e / 2 in
  let m := (w / ax e) ^ 2 in
  let n := ((1 - e12 e) * z / b_axis e) ^ 2 in
  let i := - (2 * l ^ 2 + m + n) / 2 in
  let k := (l ^ 2 - m - n) * l ^ 2 in
  let q := 1 / 216 * (m + n - 4 * l ^ 2) ^ 3 + m * n * l ^ 2 in
  let D := sqrt ((2 * q - m * n * l ^ 2) * m * n * l ^ 2) in
  let B := i / 3 - cbrt (q + D) - cbrt (q - D) in
  sqrt (sqrt (B ^ 2 - k) - (B + i) / 2) - sign (m - n) * sqrt ((B - i) / 2).
Definition zhu_general (e : ellipsoid) (w z : R) : R * R :=
  let l := e12 e / 2 in
  let t := zhu_t e w z in
  let wi := w / (t + l) in
  let zi := (1 - e12 e) * z / (t - l) in
  (atan2 zi ((1 - e12 e) * wi) / dtr, sign (t - 1 + l) * sqrt ((w - wi) ^ 2 + (z - zi) ^ 2)).
Definition zhu_polar (e : ellipsoid) (z : R) : R * R := (90 * sign z, sign z * z - b_axis e).
(** The test is made for the whole array: when some point has w = 0 only those
    points are assigned and the others keep latitude and height 0. *)
Definition radius (v : vec) : R := sqrt (vx v ^ 2 + vy v ^ 2).
Definition zhu (e : ellipsoid) (vs : list vec) : list (R * R * R) :=
  let any := existsb (fun v => req (radius v) 0) vs in
  map (fun v =>
    let w := radius v in
    let '(lat, h) := if any then (if req w 0 then zhu_polar e (vz v) else (0, 0))
                     else zhu_general e w (vz v) in
    (longitude v, lat, h)) vs.

(** spatial.py:1722-1788 to_geodetic *)
Definition to_geodetic (e : ellipsoid) (method : string) (eps : R) (iterations : nat) (vs : list vec)
  : res (list (R * R * R)) :=
  if String.eqb (lower method) "moritz" then Ok (moritz e eps iterations vs)
  else if String.eqb (lower method) "bowring" then Ok (bowring e eps iterations vs)
  else if String.eqb (lower method) "zhu" then Ok (zhu e vs)
  else Err ValueError.

(** ** Local coordinates; one reference point (spatial.py:2030-2039, 2101-2110) *)
Definition enu_matrix (lon0 lat0 : R) : mat :=
  let sl := sin (dtr * lon0) in let cl := cos (dtr * lon0) in
  let sp := sin (dtr * lat0) in let cp := cos (dtr * lat0) in
  Mat (- sl) cl 0  (- sp * cl) (- sp * sl) cp  (cp * cl) (cp * sl) sp.
Definition enu_transpose (lon0 lat0 : R) : mat :=
  let sl := sin (dtr * lon0) in let cl := cos (dtr * lon0) in
  let sp := sin (dtr * lat0) in let cp := cos (dtr * lat0) in
  Mat (- sl) (- sp * cl) (cp * cl)  cl (- sp * sl) (cp * sl)  0 cp sp.
Definition vsub (a b : vec) : vec := Vec (vx a - vx b) (vy a - vy b) (vz a - vz b).
Definition vadd (a b : vec) : vec := Vec (vx a + vx b) (vy a + vy b) (vz a + vz b).
(** spatial.py:1983-2052 to_ENU *)
Definition to_ENU (e : ellipsoid) (lon0 lat0 h0 : R) (v : vec) : vec :=
  mapply (enu_matrix lon0 lat0) (vsub v (to_cartesian e lon0 lat0 h0)).
(** spatial.py:2054-2127 from_ENU *)
Definition from_ENU (e : ellipsoid) (lon0 lat0 h0 : R) (v : vec) : vec :=
  vadd (mapply (enu_transpose lon0 lat0) v) (to_cartesian e lon0 lat0 h0).

(** spatial.py:2129-2163 to_horizontal: (alpha, phi, D) *)
Definition to_horizontal (v : vec) : R * R * R :=
  let D := sqrt (vx v ^ 2 + vy v ^ 2 + vz v ^ 2) in
  (asin (vz v / D) * 180 / PI, rmod (atan2 (vx v / D) (vy v / D) * 180 / PI) 360, D).
(** spatial.py:2165-2211 to_zenith *)
Definition to_zenith (e : ellipsoid) (lon0 lat0 h0 : R) (v : vec) : R :=
  90 - fst (fst (to_horizontal (to_ENU e lon0 lat0 h0 v))).

(** ** scale_factors (spatial.py:2218-2275) *)
Inductive metric := Distance | Area.
Definition parse_metric (s : string) : res metric :=
  if String.eqb (lower s) "distance" then Ok Distance
  else if String.eqb (lower s) "area" then Ok Area
  else Err AssertionError.
Definition sf_m (ecc2 theta : R) : R := cos theta / sqrt (1 - ecc2 * sin theta ^ 2).
Definition sf_t (ecc theta : R) : R :=
  tan (PI / 4 - theta / 2) / Rpower ((1 - ecc * sin theta) / (1 + ecc * sin theta)) (ecc / 2).
Definition sf_k (flat theta theta_ref : R) : R :=
  let ecc2 := 2 * flat - flat ^ 2 in
  let ecc := sqrt ecc2 in
  sf_m ecc2 theta_ref / sf_m ecc2 theta * (sf_t ecc theta / sf_t ecc theta_ref).
Definition sf_kp (flat theta_ref : R) : R :=
  let ecc2 := 2 * flat - flat ^ 2 in
  let ecc := sqrt ecc2 in
  0.5 * sf_m ecc2 theta_ref * sqrt (Rpower (1 + ecc) (1 + ecc) * Rpower (1 - ecc) (1 - ecc)) / sf_t ecc theta_ref.
(** np.isclose(theta, pi/2): |theta - pi/2| <= 1e-8 + 1e-5*|pi/2| *)
Definition near_pole (theta : R) : bool := rle (Rabs (theta - PI / 2)) (1e-8 + 1e-5 * (PI / 2)).
Definition scale_factors (flat reference_latitude : R) (metric_name : string) (lat : R) : res R :=
  do mt <- parse_metric metric_name ;;
  let theta := Rabs lat * PI / 180 in
  let theta_ref := Rabs reference_latitude * PI / 180 in
  let k := sf_k flat theta theta_ref in
  let kp := sf_kp flat theta_ref in
  Ok (match mt with
      | Distance => if near_pole theta then 1 / kp else 1 / k
      | Area => if near_pole theta then 1 / kp ^ 2 else 1 / k ^ 2
      end).

(** ** Conversion between ellipsoids *)
(** spatial.py:1522-1562 compute_delta_h *)
Definition compute_delta_h (e1 e2 : ellipsoid) (lat : R) : R :=
  let phi := clip lat (-90) 90 * PI / 180 in
  - ((ax e2 - ax e1) * cos phi ^ 2 + (b_axis e2 - b_axis e1) * sin phi ^ 2).

(** Newton iteration of spatial.py:1452-1462 and 1492-1502: [n] passes of
    [range(0, itmax+1)] left. *)
Fixpoint newton (F F' : R -> R) (eps : R) (n : nat) (u : R) : R :=
  match n with
  | O => u
  | S n' =>
      if rlt (Rabs (F' u)) eps then u
      else let delta := F u / F' u in
           if rlt (Rabs delta) eps then u - delta
           else newton F F' eps n' (u - delta)
  end.
Definition limit90 (x : R) : R := if rlt 90 (Rabs x) then sign x * 90 else x.

(** spatial.py:1373-1520 convert_ellipsoid, one point; [phi1] already limited to
    [-90, 90] *)
Definition convert_point (e1 e2 : ellipsoid) (eps : R) (itmax : nat) (phi1 h1 : R) : R * R :=
  let a1 := ax e1 in let b1 := b_axis e1 in
  let a2 := ax e2 in let b2 := b_axis e2 in
  if rlt (Rabs phi1) eps then (phi1, h1 + a1 - a2)
  else if rlt (90 - Rabs phi1) eps then (phi1, h1 + b1 - b2)
  else
    let phi1r := phi1 * PI / 180 in
    let s := sin phi1r in
    let c := if rlt (cos phi1r) eps then eps else cos phi1r in
    let u1 := atan (b1 / a1 * (s / c)) in
    let hs := b1 * sin u1 + h1 * s in
    let hc := a1 * cos u1 + h1 * c in
    if rle (Rabs phi1) 45 then
      let F u := (b2 * b2 - a2 * a2) * sin u + a2 * hc * tan u - b2 * hs in
      let F' u := (b2 * b2 - a2 * a2) * cos u + a2 * hc / (cos u * cos u) in
      let u2 := newton F F' eps (S itmax) u1 in
      let phi2r := atan (a2 / b2 * tan u2) in
      (limit90 (phi2r * 180 / PI), (hc - a2 * cos u2) / cos phi2r)
    else
      let F u := (a2 * a2 - b2 * b2) * cos u + b2 * hs / tan u - a2 * hc in
      let F' u := - 1 * ((a2 * a2 - b2 * b2) * sin u + b2 * hs / (sin u * sin u)) in
      let u2 := newton F F' eps (S itmax) u1 in
      let phi2r := atan (a2 / b2 * tan u2) in
      (limit90 (phi2r * 180 / PI), (hs - b2 * sin u2) / sin phi2r).
(** The whole array: (latitudes of the caller afterwards, phi2, h2); lines
    1421-1423 assign to the caller's array. *)
Definition convert_ellipsoid (e1 e2 : ellipsoid) (eps : R) (itmax : nat) (phi1 h1 : list R)
  : res (list R * list R * list R) :=
  if negb (List.length phi1 =? List.length h1)%nat then Err ValueError
  else
    let phi1' := map limit90 phi1 in
    let out := map (fun q => convert_point e1 e2 eps itmax (fst q) (snd q)) (combine phi1' h1) in
    Ok (phi1', map fst out, map snd out).
