(** C18: geodetic to Cartesian conversion and its inverses (pyTMD/spatial.py). *)
From Coq Require Import Reals String List Bool ZArith Lra Lia.
From Verif Require Import PyBase RBase StrBase MathModel AstroModel GeoModel GeoSpec GeoProofs LocalProps.
Import ListNotations.
Open Scope R_scope.

(** A point of the ellipsoid with semi-axes a and b = (1-f)a. *)
Definition on_ellipsoid (a f : R) (v : vec) : Prop :=
  let b := (1 - f) * a in vx v ^ 2 / a ^ 2 + vy v ^ 2 / a ^ 2 + vz v ^ 2 / b ^ 2 = 1.
(** Gradient of the left-hand side, up to the factor 2: the direction of the outward
    normal. *)
Definition gradient (a f : R) (v : vec) : vec :=
  let b := (1 - f) * a in Vec (vx v / a ^ 2) (vy v / a ^ 2) (vz v / b ^ 2).

Theorem C18_surface a f lon lat : 0 < a -> 0 <= f < 1 -> on_ellipsoid a f (to_cartesian (Ell a f) lon lat 0).
Proof.
  intros Ha Hf. assert (V : valid (Ell a f)) by (split; auto). unfold on_ellipsoid.
  rewrite (cart_x _ _ _ _ V), (cart_y _ _ _ _ V), (cart_z _ _ _ _ V).
  pose proof (pv_sq _ (rad lat) V) as P. pose proof (one_esq (Ell a f)) as O.
  set (N := prime_vertical (Ell a f) (rad lat)) in *. cbn [ax fl] in *.
  pose proof (sq_cos (rad lon)) as L. pose proof (sq_cos (rad lat)) as Q.
  set (sl := sin (rad lon)) in *. set (cl := cos (rad lon)) in *.
  set (sp := sin (rad lat)) in *. set (cp := cos (rad lat)) in *.
  replace (((1 - f) * a) ^ 2) with ((1 - esq (Ell a f)) * (a * a)) by (rewrite O; ring).
  set (E := esq (Ell a f)) in *.
  assert (HE : 0 < 1 - E) by (rewrite O; apply Rmult_lt_0_compat; lra).
  assert (N * N = a * a / (1 - E * (sp * sp))).
  { rewrite <- P. field. pose proof (wsq_pos _ (rad lat) V) as W. fold sp E in W. lra. }
  replace (((N + 0) * cp * cl) ^ 2 / a ^ 2 + ((N + 0) * cp * sl) ^ 2 / a ^ 2 + ((N * (1 - E) + 0) * sp) ^ 2 / ((1 - E) * (a * a)))
    with (N * N * (cp * cp * (cl * cl + sl * sl) + (1 - E) * (sp * sp)) / (a * a)) by (field; split; [lra|lra]).
  replace (cp * cp * (cl * cl + sl * sl) + (1 - E) * (sp * sp)) with (1 - E * (sp * sp)) by (ring [L Q]).
  rewrite P. field. lra.
Qed.
Print Assumptions C18_surface.

(** Height is measured along the outward unit normal at the foot point. *)
Theorem C18_normal a f lon lat : 0 < a -> 0 <= f < 1 ->
  exists n k, 0 < k /\ n = scale3 k (gradient a f (to_cartesian (Ell a f) lon lat 0))
    /\ norm3 n = 1
    /\ (forall h, to_cartesian (Ell a f) lon lat h = plus3 (to_cartesian (Ell a f) lon lat 0) (scale3 h n)).
Proof.
  intros Ha Hf. assert (V : valid (Ell a f)) by (split; auto).
  set (N := prime_vertical (Ell a f) (rad lat)).
  assert (HN : 0 < N) by now apply pv_pos.
  exists (Vec (cos (rad lat) * cos (rad lon)) (cos (rad lat) * sin (rad lon)) (sin (rad lat))), (a ^ 2 / N).
  split; [apply Rdiv_lt_0_compat; auto; apply pow_lt; auto|].
  split; [|split].
  - unfold gradient, scale3; cbn [vx vy vz].
    rewrite (cart_x _ _ _ _ V), (cart_y _ _ _ _ V), (cart_z _ _ _ _ V). fold N.
    rewrite one_esq; cbn [fl]. f_equal; field; lra.
  - unfold norm3, dot3; cbn [vx vy vz]. rewrite <- sqrt_1 at 1. f_equal.
    pose proof (sq_cos (rad lon)) as L. pose proof (sq_cos (rad lat)) as Q. ring [L Q].
  - intros h. apply vec_ext; unfold plus3, scale3; cbn [vx vy vz].
    + rewrite !(cart_x _ _ _ _ V). ring.
    + rewrite !(cart_y _ _ _ _ V). ring.
    + rewrite !(cart_z _ _ _ _ V). ring.
Qed.
Print Assumptions C18_normal.

(** The geodetic latitude is the angle of that normal with the equatorial plane and
    the longitude is its azimuth, so the coordinates mean what they say. *)
Theorem C18_directions a f lon lat h : 0 < a -> 0 <= f < 1 ->
  minus3 (to_cartesian (Ell a f) lon lat (h + 1)) (to_cartesian (Ell a f) lon lat h)
  = Vec (cos (rad lat) * cos (rad lon)) (cos (rad lat) * sin (rad lon)) (sin (rad lat)).
Proof.
  intros Ha Hf. assert (V : valid (Ell a f)) by (split; auto).
  apply vec_ext; unfold minus3; cbn [vx vy vz].
  - rewrite !(cart_x _ _ _ _ V). ring.
  - rewrite !(cart_y _ _ _ _ V). ring.
  - rewrite !(cart_z _ _ _ _ V). ring.
Qed.
Print Assumptions C18_directions.

Theorem C18_turns e lon lat h k : valid e -> to_cartesian e (lon + 360 * IZR k) lat h = to_cartesian e lon lat h.
Proof.
  intros V. apply vec_ext.
  - rewrite !(cart_x _ _ _ _ V). replace (rad (lon + 360 * IZR k)) with (rad lon + 2 * IZR k * PI) by (unfold rad; field).
    now rewrite cos_turns.
  - rewrite !(cart_y _ _ _ _ V). replace (rad (lon + 360 * IZR k)) with (rad lon + 2 * IZR k * PI) by (unfold rad; field).
    now rewrite sin_turns.
  - now rewrite !(cart_z _ _ _ _ V).
Qed.
Print Assumptions C18_turns.

(** ** Spherical coordinates *)
(** to_sphere returns spherical coordinates of any vector but the origin. *)
Theorem C18_sphere v : v <> zero3 ->
  let '(lon, lat, r) := to_sphere v in
  0 <= lon < 360 /\ -90 <= lat <= 90 /\ r = norm3 v
  /\ v = Vec (r * (cos (rad lat) * cos (rad lon))) (r * (cos (rad lat) * sin (rad lon))) (r * sin (rad lat)).
Proof.
  intros H. unfold to_sphere.
  pose proof (norm_pos v H) as HD. set (Q := vx v ^ 2 + vy v ^ 2 + vz v ^ 2) in *.
  assert (HD' : 0 < sqrt Q) by now apply sqrt_lt_R0.
  assert (HQ : sqrt Q * sqrt Q = Q) by (apply sqrt_sqrt; lra).
  set (D := sqrt Q) in *. pose proof PI_RGT_0 as Hpi.
  set (t := atan2 (vy v) (vx v)). pose proof (atan2_range (vy v) (vx v)) as Ht. fold t in Ht.
  assert (Hz : -1 <= vz v / D <= 1).
  { assert (vz v * vz v <= D * D).
    { rewrite HQ. unfold Q. pose proof (pow2_ge_0 (vx v)). pose proof (pow2_ge_0 (vy v)). lra. }
    assert (Rabs (vz v) <= D).
    { apply Rsqr_incr_0_var; [|lra]. unfold Rsqr. rewrite <- Rabs_mult, Rabs_pos_eq; [lra|]. apply Rle_0_sqr. }
    assert (- D <= vz v <= D) by (unfold Rabs in *; destruct (Rcase_abs (vz v)); lra).
    split.
    - apply Rmult_le_reg_r with D; [lra|]. unfold Rdiv. rewrite Rmult_assoc, Rinv_l by lra. lra.
    - apply Rmult_le_reg_r with D; [lra|]. unfold Rdiv. rewrite Rmult_assoc, Rinv_l by lra. lra. }
  set (th := acos (vz v / D)). pose proof (acos_bound (vz v / D)) as Hth. fold th in Hth.
  assert (Hlat : -90 <= 90 - 180 * th / PI <= 90).
  { assert (0 <= 180 * th / PI <= 180).
    { split.
      - apply Rmult_le_reg_r with (PI / 180); [lra|]. replace (180 * th / PI * (PI / 180)) with th by (field; lra). lra.
      - apply Rmult_le_reg_r with (PI / 180); [lra|]. replace (180 * th / PI * (PI / 180)) with th by (field; lra). lra. }
    lra. }
  assert (Hclip : clip (90 - 180 * th / PI) (-90) 90 = 90 - 180 * th / PI).
  { unfold clip. rewrite Rmax_right by lra. rewrite Rmin_right by lra. reflexivity. }
  rewrite Hclip.
  set (lon := if Rlt_dec (180 * t / PI) 0 then 180 * t / PI + 360 else 180 * t / PI).
  assert (Hr : rad (90 - 180 * th / PI) = PI / 2 - th) by (unfold rad; field; lra).
  assert (Hlt : -180 < 180 * t / PI <= 180).
  { split.
    - apply Rmult_lt_reg_r with (PI / 180); [lra|]. replace (180 * t / PI * (PI / 180)) with t by (field; lra). lra.
    - apply Rmult_le_reg_r with (PI / 180); [lra|]. replace (180 * t / PI * (PI / 180)) with t by (field; lra). lra. }
  assert (Hlc : cos (rad lon) = cos t /\ sin (rad lon) = sin t).
  { unfold lon. destruct (Rlt_dec (180 * t / PI) 0).
    - replace (rad (180 * t / PI + 360)) with (t + 2 * IZR 1 * PI) by (unfold rad; field; lra).
      now rewrite cos_turns, sin_turns.
    - replace (rad (180 * t / PI)) with t by (unfold rad; field; lra). auto. }
  assert (Hl : 0 <= lon < 360) by (unfold lon; destruct (Rlt_dec (180 * t / PI) 0); lra).
  repeat split; try apply Hl; try lra.
  - unfold D, norm3, dot3, Q. f_equal. ring.
  - rewrite Hr, sin_shift, cos_shift. destruct Hlc as [-> ->].
    assert (C : cos th = vz v / D) by (unfold th; apply cos_acos; lra).
    assert (Sn : D * sin th = sqrt (vx v * vx v + vy v * vy v)).
    { unfold th. rewrite sin_acos by lra. rewrite <- (sqrt_square D) at 1 by lra.
      rewrite <- sqrt_mult_alt by (apply Rle_0_sqr). f_equal. unfold Rsqr.
      replace (D * D * (1 - vz v / D * (vz v / D))) with (D * D - vz v * vz v) by (field; lra).
      rewrite HQ. unfold Q. ring. }
    apply vec_ext; cbn [vx vy vz].
    + rewrite <- Rmult_assoc, Sn. unfold t. now rewrite atan2_cos.
    + rewrite <- Rmult_assoc, Sn. unfold t. now rewrite atan2_sin.
    + rewrite C. field. lra.
Qed.
Print Assumptions C18_sphere.

(** For a sphere (f = 0) it inverts the conversion, with the height measured from the
    radius. *)
Theorem C18_sphere_inverts a lon lat h : 0 < a -> 0 < a + h -> -90 < lat < 90 -> 0 <= lon < 360 ->
  to_sphere (to_cartesian (Ell a 0) lon lat h) = (lon, lat, a + h).
Proof.
  intros Ha Hh Hlat Hlon. assert (V : valid (Ell a 0)) by (split; cbn; lra).
  assert (E : to_cartesian (Ell a 0) lon lat h = Vec ((a + h) * (cos (rad lat) * cos (rad lon)))
      ((a + h) * (cos (rad lat) * sin (rad lon))) ((a + h) * sin (rad lat))).
  { assert (P : prime_vertical (Ell a 0) (rad lat) = a).
    { rewrite (pv_eq _ _ V). unfold pw. replace (1 - esq (Ell a 0) * (sin (rad lat) * sin (rad lat))) with 1
        by (unfold esq; cbn [fl]; ring). rewrite sqrt_1. cbn [ax]. lra. }
    apply vec_ext; cbn [vx vy vz].
    - rewrite (cart_x _ _ _ _ V), P. ring.
    - rewrite (cart_y _ _ _ _ V), P. ring.
    - rewrite (cart_z _ _ _ _ V), P. unfold esq; cbn [fl]. ring. }
  pose proof (cos_lat_pos _ Hlat) as Hc.
  assert (Hn : to_cartesian (Ell a 0) lon lat h <> zero3).
  { rewrite E. intros X. unfold zero3 in X. injection X as X1 X2 X3.
    pose proof (sin2_cos2' (rad lat)). pose proof (sin2_cos2' (rad lon)).
    apply Rmult_integral in X1, X2. destruct X1 as [X1|X1]; [lra|]. destruct X2 as [X2|X2]; [lra|].
    apply Rmult_integral in X1, X2. destruct X1 as [X1|X1]; [lra|]. destruct X2 as [X2|X2]; [lra|].
    rewrite X1, X2 in *. lra. }
  pose proof (C18_sphere _ Hn) as SP. destruct (to_sphere (to_cartesian (Ell a 0) lon lat h)) as [[l1 l2] r].
  destruct SP as (B1 & B2 & Hr & HV). rewrite E in HV, Hr.
  assert (Rr : r = a + h).
  { rewrite Hr. unfold norm3, dot3; cbn [vx vy vz]. transitivity (sqrt ((a + h) * (a + h))); [f_equal | apply sqrt_square; lra].
    pose proof (sq_cos (rad lon)) as L. pose proof (sq_cos (rad lat)) as Q. ring [L Q]. }
  subst r. rewrite Rr in HV. injection HV as V1 V2 V3.
  apply Rmult_eq_reg_l in V1, V2, V3; try lra.
  assert (L2 : l2 = lat).
  { pose proof (rad_bound _ B2). pose proof (rad_sbound _ Hlat).
    assert (rad l2 = rad lat) by (apply sin_inj; lra).
    rewrite <- (dtr_div l2), <- (dtr_div lat). congruence. }
  subst l2. apply Rmult_eq_reg_l in V1, V2; try lra.
  destruct (same_angle_mod (rad lon) (rad l1) V1 V2) as [k K].
  assert (K' : lon = l1 + 360 * IZR k).
  { rewrite <- (dtr_div lon), K. unfold rad, dtr. field. apply PI_neq0'. }
  assert (Hk : (-1 < k < 1)%Z) by (split; apply lt_IZR; lra).
  replace k with 0%Z in K' by lia. repeat f_equal; lra.
Qed.
Print Assumptions C18_sphere_inverts.

(** ** Iterative inverses *)
Lemma radius_cart e lon lat h : valid e -> -90 < lat < 90 -> 0 < prime_vertical e (rad lat) + h ->
  sqrt (vx (to_cartesian e lon lat h) ^ 2 + vy (to_cartesian e lon lat h) ^ 2)
  = (prime_vertical e (rad lat) + h) * cos (rad lat).
Proof.
  intros V Hl Hh. rewrite (cart_x _ _ _ _ V), (cart_y _ _ _ _ V).
  pose proof (cos_lat_pos _ Hl) as Hc. set (q := (prime_vertical e (rad lat) + h) * cos (rad lat)) in *.
  transitivity (sqrt (q * q)); [f_equal | apply sqrt_square; apply Rmult_le_pos; lra].
  pose proof (sq_cos (rad lon)) as L. ring [L].
Qed.

Lemma longitude_cart e lon lat h : valid e -> -90 < lat < 90 -> 0 < prime_vertical e (rad lat) + h ->
  -180 < lon <= 180 -> longitude (to_cartesian e lon lat h) = lon.
Proof.
  intros V Hl Hh Hlon. unfold longitude. rewrite (cart_x _ _ _ _ V), (cart_y _ _ _ _ V).
  pose proof (cos_lat_pos _ Hl) as Hc. rewrite atan2_polar; [apply dtr_div| |].
  - apply Rmult_lt_0_compat; auto.
  - unfold rad. pose proof PI_RGT_0. assert (0 < PI / 180) by lra. split.
    + assert (-180 * (PI / 180) < lon * (PI / 180)) by (apply Rmult_lt_compat_r; lra). lra.
    + assert (lon * (PI / 180) <= 180 * (PI / 180)) by (apply Rmult_le_compat_r; lra). lra.
Qed.

(** Heights considered: above the smallest radius of curvature below the surface,
    b^2/a, where geodetic coordinates stop being unique. *)
Lemma above_evolute e t h : valid e -> - (b_axis e ^ 2 / ax e) < h -> 0 < prime_vertical e t * (1 - esq e) + h.
Proof.
  intros V H. pose proof (esq_range e V) as [E0 E1].
  assert (P : ax e <= prime_vertical e t).
  { rewrite (pv_eq e t V). pose proof (pw_pos e t V) as W. pose proof (pw_sq e t V) as W2.
    assert (pw e t <= 1).
    { apply Rsqr_incr_0_var; [|lra]. unfold Rsqr. rewrite W2, Rmult_1_l.
      assert (0 <= esq e * (sin t * sin t)) by (apply Rmult_le_pos; [lra | apply Rle_0_sqr]). lra. }
    apply Rmult_le_reg_r with (pw e t); auto. unfold Rdiv. rewrite Rmult_assoc, Rinv_l by lra.
    destruct V as [V _]. assert (ax e * pw e t <= ax e * 1) by (apply Rmult_le_compat_l; lra). lra. }
  replace (b_axis e ^ 2 / ax e) with (ax e * (1 - esq e)) in H.
  - assert (ax e * (1 - esq e) <= prime_vertical e t * (1 - esq e)) by (apply Rmult_le_compat_r; lra). lra.
  - replace (b_axis e ^ 2) with (b_axis e * b_axis e) by ring. rewrite b_sq. field. destruct V; lra.
Qed.
Lemma above_centre e t h : valid e -> 0 < prime_vertical e t * (1 - esq e) + h -> 0 < prime_vertical e t + h.
Proof.
  intros V H. pose proof (esq_range e V). pose proof (pv_pos e t V).
  assert (0 <= prime_vertical e t * esq e) by (apply Rmult_le_pos; lra). lra.
Qed.
Lemma above_evolute' e t h : valid e -> - (b_axis e ^ 2 / ax e) < h -> 0 < prime_vertical e t + h.
Proof. intros V H. apply above_centre; auto. now apply above_evolute. Qed.

Lemma atan_quot t x y : - (PI / 2) < t < PI / 2 -> x <> 0 -> y * cos t = x * sin t -> atan (y / x) = t.
Proof.
  intros Ht Hx H. assert (Hc : 0 < cos t) by (apply cos_gt_0; lra).
  replace (y / x) with (tan t); [apply atan_tan; lra|]. unfold tan.
  apply Rmult_eq_reg_r with (cos t * x); [|apply Rmult_integral_contrapositive; lra].
  replace (sin t / cos t * (cos t * x)) with (x * sin t) by (field; lra).
  replace (y / x * (cos t * x)) with (y * cos t) by (field; lra). auto.
Qed.

(** *** Moritz *)
Lemma m_height_exact e lat h : valid e -> -90 < lat < 90 ->
  m_height e ((prime_vertical e (rad lat) + h) * cos (rad lat)) (rad lat) = h.
Proof. intros V Hl. unfold m_height. pose proof (cos_lat_pos _ Hl). field. lra. Qed.

Lemma m_phi_exact e lat h : valid e -> -90 < lat < 90 -> 0 < prime_vertical e (rad lat) * (1 - esq e) + h ->
  m_phi e ((prime_vertical e (rad lat) + h) * cos (rad lat)) ((prime_vertical e (rad lat) * (1 - esq e) + h) * sin (rad lat))
    (rad lat) h = rad lat.
Proof.
  intros V Hl Hh. unfold m_phi. rewrite (ecc1_sq e V).
  pose proof Hh as A1. pose proof (above_centre e (rad lat) h V Hh) as A2.
  pose proof (cos_lat_pos _ Hl) as Hc. set (N := prime_vertical e (rad lat)) in *.
  replace ((N + h) * cos (rad lat) * (1 - esq e * N / (N + h))) with ((N * (1 - esq e) + h) * cos (rad lat)) by (field; lra).
  apply atan_quot.
  - now apply rad_sbound.
  - apply Rmult_integral_contrapositive; lra.
  - ring.
Qed.

(** The true coordinates are a fixed point of a pass of the Moritz iteration, and
    any fixed point gives coordinates of the given Cartesian point. *)
Theorem C18_moritz_fixed_point e lon lat h h0 prev : valid e -> -90 < lat < 90 -> - (b_axis e ^ 2 / ax e) < h ->
  let v := to_cartesian e lon lat h in
  let s := m_step e (MState (sqrt (vx v ^ 2 + vy v ^ 2)) (vz v) (rad lat) h0 prev) in
  mphi s = rad lat /\ mh s = h.
Proof.
  intros V Hl Hh v s. unfold s, v, m_step; cbn [mp mz mphi mh].
  rewrite (radius_cart e lon lat h V Hl (above_evolute' _ _ _ V Hh)), (cart_z _ _ _ _ V).
  rewrite (m_height_exact e lat h V Hl). split; [apply m_phi_exact; auto; now apply above_evolute | reflexivity].
Qed.
Print Assumptions C18_moritz_fixed_point.

Theorem C18_moritz_exact_when_fixed e x y z phi h0 prev : valid e -> 0 < sqrt (x ^ 2 + y ^ 2) ->
  - (PI / 2) < phi < PI / 2 ->
  let s := m_step e (MState (sqrt (x ^ 2 + y ^ 2)) z phi h0 prev) in
  mphi s = phi -> prime_vertical e phi * (1 - esq e) + mh s <> 0 ->
  to_cartesian e (longitude (Vec x y z)) (mphi s / dtr) (mh s) = Vec x y z.
Proof.
  intros V Hp Hphi s. unfold s, m_step; cbn [mp mz mphi mh]. clear s.
  intros F. rewrite F. revert F. unfold m_phi. rewrite (ecc1_sq e V).
  set (p := sqrt (x ^ 2 + y ^ 2)) in *. set (h := m_height e p phi).
  assert (Hc : 0 < cos phi) by (apply cos_gt_0; lra).
  assert (Ep : (prime_vertical e phi + h) * cos phi = p) by (unfold h, m_height; field; lra).
  pose proof (pv_pos e phi V) as HN. set (N := prime_vertical e phi) in *.
  assert (HNh : 0 < N + h).
  { destruct (Rlt_dec 0 (N + h)) as [|n]; auto. exfalso.
    assert ((N + h) * cos phi <= 0 * cos phi) by (apply Rmult_le_compat_r; lra). lra. }
  intros F Hnz.
  assert (T : z / (p * (1 - esq e * N / (N + h))) = tan phi) by (rewrite <- F; now rewrite tan_atan).
  assert (Hz : z = (N * (1 - esq e) + h) * sin phi).
  { replace (p * (1 - esq e * N / (N + h))) with ((N * (1 - esq e) + h) * cos phi) in T by (rewrite <- Ep; field; lra).
    unfold tan in T. apply Rmult_eq_compat_r with (r := (N * (1 - esq e) + h) * cos phi) in T.
    replace (z / ((N * (1 - esq e) + h) * cos phi) * ((N * (1 - esq e) + h) * cos phi)) with z in T by (field; lra).
    rewrite T. field. lra. }
  assert (R1 : rad (phi / dtr) = phi) by (unfold rad, dtr; field; apply PI_neq0').
  assert (R2 : rad (longitude (Vec x y z)) = atan2 y x) by (unfold longitude, rad, dtr; cbn [vx vy]; field; apply PI_neq0').
  assert (Q : p = sqrt (x * x + y * y)) by (unfold p; f_equal; ring).
  apply vec_ext.
  - rewrite (cart_x _ _ _ _ V), R1, R2. fold N. rewrite Ep, Q, atan2_cos. reflexivity.
  - rewrite (cart_y _ _ _ _ V), R1, R2. fold N. rewrite Ep, Q, atan2_sin. reflexivity.
  - rewrite (cart_z _ _ _ _ V), R1. fold N. cbn [vz]. now rewrite Hz.
Qed.
Print Assumptions C18_moritz_exact_when_fixed.
