(** C20: conversions between ellipsoids (spatial.py:1373-1562). *)
From Coq Require Import Reals String List Bool ZArith Lra Lia.
From Verif Require Import PyBase RBase StrBase MathModel AstroModel GeoModel GeoSpec GeoProofs LocalProps GeodeticProps MoritzProps BowringProps.
Import ListNotations.
Open Scope R_scope.

(** ** compute_delta_h *)
Lemma clip_in x lo hi : lo <= x <= hi -> clip x lo hi = x.
Proof. intros H. unfold clip. rewrite Rmax_right by lra. rewrite Rmin_right by lra. reflexivity. Qed.

Theorem C20_delta_antisymmetric e1 e2 lat : compute_delta_h e1 e2 lat = - compute_delta_h e2 e1 lat.
Proof. unfold compute_delta_h. ring. Qed.
Print Assumptions C20_delta_antisymmetric.
Theorem C20_delta_same e lat : compute_delta_h e e lat = 0.
Proof. unfold compute_delta_h. ring. Qed.
Print Assumptions C20_delta_same.
Theorem C20_delta_additive e1 e2 e3 lat :
  compute_delta_h e1 e3 lat = compute_delta_h e1 e2 lat + compute_delta_h e2 e3 lat.
Proof. unfold compute_delta_h. ring. Qed.
Print Assumptions C20_delta_additive.

(** Adding the offset to a height keeps the position: exactly at the equator and at
    the poles. *)
Theorem C20_delta_equator_pole a1 f1 a2 f2 :
  compute_delta_h (Ell a1 f1) (Ell a2 f2) 0 = a1 - a2
  /\ compute_delta_h (Ell a1 f1) (Ell a2 f2) 90 = (1 - f1) * a1 - (1 - f2) * a2
  /\ compute_delta_h (Ell a1 f1) (Ell a2 f2) (-90) = (1 - f1) * a1 - (1 - f2) * a2.
Proof.
  unfold compute_delta_h, b_axis; cbn [ax fl]. rewrite !clip_in by lra.
  replace (0 * PI / 180) with 0 by field. replace (90 * PI / 180) with (PI / 2) by field.
  replace (-90 * PI / 180) with (- (PI / 2)) by field.
  rewrite cos_neg, sin_neg, cos_0, sin_0, cos_PI2, sin_PI2. repeat split; ring.
Qed.
Print Assumptions C20_delta_equator_pole.

(** In between the offset lies between the two. *)
Theorem C20_delta_between a1 f1 a2 f2 lat :
  let de := a1 - a2 in let dp := (1 - f1) * a1 - (1 - f2) * a2 in
  Rmin de dp <= compute_delta_h (Ell a1 f1) (Ell a2 f2) lat <= Rmax de dp.
Proof.
  intros de dp. unfold compute_delta_h, b_axis; cbn [ax fl]. set (t := clip lat (-90) 90 * PI / 180).
  replace (- ((a2 - a1) * cos t ^ 2 + ((1 - f2) * a2 - (1 - f1) * a1) * sin t ^ 2))
    with (de * (cos t * cos t) + dp * (sin t * sin t)) by (unfold de, dp; ring).
  pose proof (Rle_0_sqr (cos t)) as C. pose proof (Rle_0_sqr (sin t)) as D. unfold Rsqr in C, D. pose proof (sin2_cos2' t) as Q.
  pose proof (Rmin_l de dp). pose proof (Rmin_r de dp). pose proof (Rmax_l de dp). pose proof (Rmax_r de dp).
  assert (forall x, x = x * (cos t * cos t) + x * (sin t * sin t)) as Sp.
  { intros x. replace (x * (cos t * cos t) + x * (sin t * sin t)) with (x * (sin t * sin t + cos t * cos t)) by ring. rewrite Q. ring. }
  split.
  - rewrite (Sp (Rmin de dp)). apply Rplus_le_compat; apply Rmult_le_compat_r; auto.
  - rewrite (Sp (Rmax de dp)). apply Rplus_le_compat; apply Rmult_le_compat_r; auto.
Qed.
Print Assumptions C20_delta_between.

(** Latitudes beyond the poles count as the pole. *)
Theorem C20_delta_clipped e1 e2 lat : 90 <= Rabs lat -> compute_delta_h e1 e2 lat = compute_delta_h e1 e2 90.
Proof.
  intros H. unfold compute_delta_h. rewrite (clip_in 90) by lra.
  assert (E : clip lat (-90) 90 = 90 \/ clip lat (-90) 90 = -90).
  { unfold clip. unfold Rabs in H. destruct (Rcase_abs lat).
    - right. rewrite Rmax_left by lra. rewrite Rmin_right by lra. reflexivity.
    - left. rewrite Rmax_right by lra. rewrite Rmin_left by lra. reflexivity. }
  destruct E as [-> | ->]; [reflexivity|].
  replace (-90 * PI / 180) with (- (90 * PI / 180)) by field. rewrite cos_neg, sin_neg. ring.
Qed.
Print Assumptions C20_delta_clipped.

(** ** convert_ellipsoid *)
Lemma rlt_t x y : x < y -> rlt x y = true.
Proof. intros H. unfold rlt. destruct (Rlt_dec x y); auto; lra. Qed.
Lemma rlt_f x y : y <= x -> rlt x y = false.
Proof. intros H. unfold rlt. destruct (Rlt_dec x y); auto; lra. Qed.
Lemma rle_t x y : x <= y -> rle x y = true.
Proof. intros H. unfold rle. destruct (Rle_dec x y); auto; lra. Qed.
Lemma rle_f x y : y < x -> rle x y = false.
Proof. intros H. unfold rle. destruct (Rle_dec x y); auto; lra. Qed.
Lemma newton_root F F' eps n u : 0 < eps -> F u = 0 -> newton F F' eps n u = u.
Proof.
  intros He H. destruct n as [|n]; cbn [newton]; auto. unfold rlt at 1. destruct (Rlt_dec (Rabs (F' u)) eps); auto.
  rewrite H. replace (0 / F' u) with 0 by (unfold Rdiv; ring). unfold rlt. rewrite Rabs_R0.
  destruct (Rlt_dec 0 eps); [ring | lra].
Qed.

Lemma rabs_rad phi : rad phi = phi * PI / 180.
Proof. unfold rad. field. Qed.

Lemma limit90_id x : -90 <= x <= 90 -> limit90 x = x.
Proof. intros H. unfold limit90, rlt. destruct (Rlt_dec 90 (Rabs x)) as [X|]; auto. unfold Rabs in X. destruct (Rcase_abs x); lra. Qed.

(** From an ellipsoid to itself nothing changes, as long as the cosine of the latitude
    is not below the tolerance (a band of 57 eps degrees around the poles). *)
Theorem C20_identity e eps itmax phi h : valid e -> 0 < eps -> -90 <= phi <= 90 ->
  eps <= cos (rad phi) \/ 90 - Rabs phi < eps ->
  convert_point e e eps itmax phi h = (phi, h).
Proof.
  intros V He Hphi Hc. unfold convert_point. rewrite <- rabs_rad.
  unfold rlt at 1. destruct (Rlt_dec (Rabs phi) eps) as [|N1]; [f_equal; ring|].
  unfold rlt at 1. destruct (Rlt_dec (90 - Rabs phi) eps) as [|N2]; [f_equal; ring|].
  destruct Hc as [Hc|Hc]; [|lra].
  assert (Hl : -90 < phi < 90) by (unfold Rabs in N2; destruct (Rcase_abs phi); lra).
  rewrite (rlt_f (cos (rad phi)) eps) by lra.
  set (c := cos (rad phi)) in *. set (s := sin (rad phi)) in *.
  assert (Ha : 0 < ax e) by (destruct V; lra). pose proof (b_pos e V) as Hb.
  assert (Hcp : 0 < c) by lra.
  set (u := atan (b_axis e / ax e * (s / c))).
  assert (Tu : tan u = b_axis e / ax e * (s / c)) by (unfold u; apply tan_atan).
  assert (Hcu : 0 < cos u) by (unfold u; apply cos_atan_pos).
  assert (P2 : atan (ax e / b_axis e * tan u) = rad phi).
  { rewrite Tu. replace (ax e / b_axis e * (b_axis e / ax e * (s / c))) with (tan (rad phi)) by (unfold tan; fold s c; field; lra).
    apply atan_tan. now apply rad_sbound. }
  assert (Back : limit90 (rad phi * 180 / PI) = phi).
  { replace (rad phi * 180 / PI) with phi by (unfold rad; field; apply PI_neq0'). apply limit90_id. lra. }
  assert (Hs : s <> 0).
  { unfold s. intros Z. assert (rad phi = 0).
    { apply sin_inj; [apply rad_bound; lra | pose proof PI_RGT_0; lra |]. now rewrite Z, sin_0. }
    assert (phi = 0) by (rewrite <- (dtr_div phi), H; unfold Rdiv; ring). subst phi. rewrite Rabs_R0 in N1. lra. }
  unfold rle. destruct (Rle_dec (Rabs phi) 45).
  - rewrite newton_root; auto.
    + rewrite P2, Back. f_equal. fold c. field. lra.
    + rewrite Tu. replace (sin u) with (tan u * cos u) by (unfold tan; field; lra). rewrite Tu. field. lra.
  - rewrite newton_root; auto.
    + rewrite P2, Back. f_equal. fold s. field. lra.
    + rewrite Tu. replace (sin u) with (tan u * cos u) by (unfold tan; field; lra). rewrite Tu. field. repeat split; lra.
Qed.
Print Assumptions C20_identity.

(** In that band the latitude changes, by less than eps radians. *)
Theorem C20_identity_near_pole_refuted e eps itmax phi h : valid e -> 0 < eps < 1 -> 45 < phi < 90 ->
  cos (rad phi) < eps -> eps <= 90 - phi ->
  fst (convert_point e e eps itmax phi h) < phi.
Proof.
  intros V He Hphi Hc Hn. unfold convert_point. rewrite <- rabs_rad. rewrite (Rabs_pos_eq phi) by lra.
  unfold rlt at 1. destruct (Rlt_dec phi eps) as [|N1]; [lra|].
  unfold rlt at 1. destruct (Rlt_dec (90 - phi) eps) as [|N2]; [lra|].
  rewrite (rlt_t (cos (rad phi)) eps) by lra.
  assert (Hl : -90 < phi < 90) by lra. pose proof (cos_lat_pos _ Hl) as Hcp.
  set (c := cos (rad phi)) in *. set (s := sin (rad phi)) in *.
  assert (Ha : 0 < ax e) by (destruct V; lra). pose proof (b_pos e V) as Hb.
  assert (Hs : 0 < s).
  { unfold s. pose proof (rad_sbound _ Hl). apply sin_gt_0; [|pose proof PI_RGT_0; lra]. unfold rad. pose proof PI_RGT_0. apply Rmult_lt_0_compat; lra. }
  set (u := atan (b_axis e / ax e * (s / eps))).
  assert (Tu : tan u = b_axis e / ax e * (s / eps)) by (unfold u; apply tan_atan).
  assert (Hcu : 0 < cos u) by (unfold u; apply cos_atan_pos).
  unfold rle. destruct (Rle_dec phi 45); [lra|].
  rewrite newton_root; [|lra|].
  - cbn [fst]. rewrite Tu. replace (ax e / b_axis e * (b_axis e / ax e * (s / eps))) with (s / eps) by (field; lra).
    assert (Lt : atan (s / eps) < rad phi).
    { rewrite <- (atan_tan (rad phi)) by now apply rad_sbound. apply atan_increasing. unfold tan. fold s c.
      apply Rmult_lt_compat_l; auto. apply Rinv_lt_contravar; auto. now apply Rmult_lt_0_compat; lra. }
    pose proof PI_RGT_0 as Hpi.
    assert (Lt2 : atan (s / eps) * 180 / PI < phi).
    { apply Rmult_lt_reg_r with (PI / 180); [lra|]. replace (atan (s / eps) * 180 / PI * (PI / 180)) with (atan (s / eps)) by (field; lra). exact Lt. }
    assert (Pos : 0 < atan (s / eps)) by (rewrite <- atan_0; apply atan_increasing; apply Rdiv_lt_0_compat; lra).
    assert (0 < atan (s / eps) * 180 / PI).
    { apply Rmult_lt_reg_r with (PI / 180); [lra|]. replace (atan (s / eps) * 180 / PI * (PI / 180)) with (atan (s / eps)) by (field; lra). lra. }
    rewrite limit90_id by lra. exact Lt2.
  - rewrite Tu. replace (sin u) with (tan u * cos u) by (unfold tan; field; lra). rewrite Tu. field. repeat split; lra.
Qed.
Print Assumptions C20_identity_near_pole_refuted.

(** *** Between different ellipsoids *)
(** Meridian-plane coordinates (distance from the axis, height above the equatorial
    plane) of a geodetic position: those of to_cartesian. *)
Definition axis_distance (e : ellipsoid) (phi h : R) : R := vx (to_cartesian e 0 phi h).
Definition axis_height (e : ellipsoid) (phi h : R) : R := vz (to_cartesian e 0 phi h).

Lemma merid_x e phi h : valid e -> axis_distance e phi h = (prime_vertical e (rad phi) + h) * cos (rad phi).
Proof.
  intros V. unfold axis_distance. rewrite (cart_x _ _ _ _ V). replace (rad 0) with 0 by (unfold rad; ring). rewrite cos_0. ring.
Qed.
Lemma merid_z e phi h : valid e -> axis_height e phi h = (prime_vertical e (rad phi) * (1 - esq e) + h) * sin (rad phi).
Proof. intros V. unfold axis_height. now rewrite (cart_z _ _ _ _ V). Qed.

(** reduced latitude in terms of the geodetic one *)
Lemma reduced_pv e t : valid e -> 0 < cos t ->
  let u := atan (b_axis e / ax e * tan t) in
  ax e * cos u = prime_vertical e t * cos t /\ b_axis e * sin u = prime_vertical e t * (1 - esq e) * sin t.
Proof.
  intros V Hc u. destruct (reduced e t V Hc) as [C D].
  replace (b_axis e * tan t / ax e) with (b_axis e / ax e * tan t) in C, D by (field; destruct V; lra). fold u in C, D.
  rewrite C, D, (pv_eq e t V), one_esq. pose proof (pw_pos e t V). unfold b_axis. split; field; lra.
Qed.
(** and conversely: geodetic latitude from a reduced one *)
Lemma reduced_back e u : valid e -> 0 < cos u ->
  let t := atan (ax e / b_axis e * tan u) in
  atan (b_axis e / ax e * tan t) = u -> ax e * cos u = prime_vertical e t * cos t /\ b_axis e * sin u = prime_vertical e t * (1 - esq e) * sin t.
Proof.
  intros V Hu t E. assert (Hc : 0 < cos t) by (unfold t; apply cos_atan_pos).
  destruct (reduced_pv e t V Hc) as [A B]. rewrite E in A, B. auto.
Qed.
Lemma reduced_inverse e u : valid e -> - (PI / 2) < u < PI / 2 -> atan (b_axis e / ax e * tan (atan (ax e / b_axis e * tan u))) = u.
Proof.
  intros V Hu. rewrite tan_atan. pose proof (b_pos e V). destruct V.
  replace (b_axis e / ax e * (ax e / b_axis e * tan u)) with (tan u) by (field; lra). now apply atan_tan.
Qed.

(** The result, wherever the iteration stops: one meridian-plane coordinate is kept
    exactly (the distance from the axis up to 45 degrees, the height above the equator
    beyond), provided the foot of the returned normal lies on the same side of the
    axis (or equator) as the returned latitude says. *)
Lemma tan_half e u : valid e -> 0 < cos u -> let t := atan (ax e / b_axis e * tan u) in
  ax e * cos u = prime_vertical e t * cos t /\ b_axis e * sin u = prime_vertical e t * (1 - esq e) * sin t.
Proof.
  intros V Hu t. pose proof (b_pos e V) as Hb. assert (Ha : 0 < ax e) by (destruct V; lra).
  assert (Hc : 0 < cos t) by (unfold t; apply cos_atan_pos).
  destruct (reduced_pv e t V Hc) as [A B].
  set (w := atan (b_axis e / ax e * tan t)) in *.
  assert (Tw : tan w = tan u).
  { unfold w. rewrite tan_atan. unfold t. rewrite tan_atan. field. lra. }
  assert (Hw : 0 < cos w) by (unfold w; apply cos_atan_pos).
  assert (Cw : cos w = cos u).
  { assert (forall x, 0 < cos x -> cos x * cos x = / (1 + tan x * tan x)) as K.
    { intros x Hx. pose proof (sin2_cos2' x) as Q. unfold tan. apply Rmult_eq_reg_r with (1 + sin x / cos x * (sin x / cos x)).
      - rewrite Rinv_l.
        + replace (cos x * cos x * (1 + sin x / cos x * (sin x / cos x))) with (sin x * sin x + cos x * cos x) by (field; lra). exact Q.
        + pose proof (Rle_0_sqr (sin x / cos x)). unfold Rsqr in *. lra.
      - pose proof (Rle_0_sqr (sin x / cos x)). unfold Rsqr in *. lra. }
    apply Rsqr_inj; try lra. unfold Rsqr. now rewrite !K, Tw. }
  assert (Sw : sin w = sin u).
  { replace (sin w) with (tan w * cos w) by (unfold tan; field; lra). rewrite Tw, Cw. unfold tan. field. lra. }
  rewrite <- Cw, <- Sw. auto.
Qed.

Theorem C20_low_latitude e1 e2 eps itmax phi h : valid e1 -> valid e2 -> 0 < eps ->
  eps <= Rabs phi -> Rabs phi <= 45 -> eps <= cos (rad phi) ->
  let '(phi2, h2) := convert_point e1 e2 eps itmax phi h in
  -90 < phi2 < 90 /\
  (h2 * cos (rad phi2) < axis_distance e1 phi h -> axis_distance e2 phi2 h2 = axis_distance e1 phi h).
Proof.
  intros V1 V2 He B1 B2 Hc.
  assert (B3 : eps <= 90 - Rabs phi) by (pose proof (COS_bound (rad phi)); lra).
  assert (Hl : -90 < phi < 90) by (unfold Rabs in B2; destruct (Rcase_abs phi); lra).
  pose proof (cos_lat_pos _ Hl) as Hcp.
  unfold convert_point. rewrite <- rabs_rad.
  rewrite (rlt_f (Rabs phi) eps), (rlt_f (90 - Rabs phi) eps), (rlt_f (cos (rad phi)) eps), (rle_t (Rabs phi) 45) by lra.
  replace (sin (rad phi) / cos (rad phi)) with (tan (rad phi)) by reflexivity.
  set (u1 := atan (b_axis e1 / ax e1 * tan (rad phi))).
  destruct (reduced_pv e1 (rad phi) V1 Hcp) as [R1 R2]. fold u1 in R1, R2.
  assert (Ehc : ax e1 * cos u1 + h * cos (rad phi) = axis_distance e1 phi h) by (rewrite R1, (merid_x e1 phi h V1); ring).
  rewrite Ehc.
  match goal with |- context [newton ?a ?b ?c ?d ?e] => set (u2 := newton a b c d e) end.
  set (t := atan (ax e2 / b_axis e2 * tan u2)). pose proof (atan_bound (ax e2 / b_axis e2 * tan u2)) as Bt. fold t in Bt.
  pose proof PI_RGT_0 as Hpi.
  assert (Bd : -90 < t * 180 / PI < 90).
  { split; apply Rmult_lt_reg_r with (PI / 180); try lra; replace (t * 180 / PI * (PI / 180)) with t by (field; lra); lra. }
  rewrite limit90_id by lra.
  assert (Rt : rad (t * 180 / PI) = t) by (unfold rad; field; lra).
  assert (Hct : 0 < cos t) by (unfold t; apply cos_atan_pos).
  pose proof (b_pos e2 V2) as Hb2. assert (Ha2 : 0 < ax e2) by (destruct V2; lra).
  split; [exact Bd|]. rewrite Rt. intros Hf.
  replace ((axis_distance e1 phi h - ax e2 * cos u2) / cos t * cos t) with (axis_distance e1 phi h - ax e2 * cos u2) in Hf by (field; lra).
  assert (Hcu : 0 < cos u2) by (apply Rmult_lt_reg_l with (ax e2); lra).
  destruct (tan_half e2 u2 V2 Hcu) as [Q1 Q2]. fold t in Q1, Q2.
  rewrite (merid_x e2 _ _ V2), Rt, Rmult_plus_distr_r, <- Q1. field. lra.
Qed.
Print Assumptions C20_low_latitude.

Theorem C20_high_latitude e1 e2 eps itmax phi h : valid e1 -> valid e2 -> 0 < eps ->
  eps <= Rabs phi -> 45 < Rabs phi -> eps <= 90 - Rabs phi -> eps <= cos (rad phi) ->
  let '(phi2, h2) := convert_point e1 e2 eps itmax phi h in
  -90 < phi2 < 90 /\
  (0 < (axis_height e1 phi h - h2 * sin (rad phi2)) * sin (rad phi2) -> Rabs (axis_height e1 phi h - h2 * sin (rad phi2)) < b_axis e2 ->
   axis_height e2 phi2 h2 = axis_height e1 phi h).
Proof.
  intros V1 V2 He B1 B2 B3 Hc.
  assert (Hl : -90 < phi < 90) by (unfold Rabs in B3; destruct (Rcase_abs phi); lra).
  pose proof (cos_lat_pos _ Hl) as Hcp.
  unfold convert_point. rewrite <- rabs_rad.
  rewrite (rlt_f (Rabs phi) eps), (rlt_f (90 - Rabs phi) eps), (rlt_f (cos (rad phi)) eps), (rle_f (Rabs phi) 45) by lra.
  replace (sin (rad phi) / cos (rad phi)) with (tan (rad phi)) by reflexivity.
  set (u1 := atan (b_axis e1 / ax e1 * tan (rad phi))).
  destruct (reduced_pv e1 (rad phi) V1 Hcp) as [R1 R2]. fold u1 in R1, R2.
  assert (Ehs : b_axis e1 * sin u1 + h * sin (rad phi) = axis_height e1 phi h) by (rewrite R2, (merid_z e1 phi h V1); ring).
  rewrite Ehs.
  match goal with |- context [newton ?a ?b ?c ?d ?e] => set (u2 := newton a b c d e) end.
  set (t := atan (ax e2 / b_axis e2 * tan u2)). pose proof (atan_bound (ax e2 / b_axis e2 * tan u2)) as Bt. fold t in Bt.
  pose proof PI_RGT_0 as Hpi.
  assert (Bd : -90 < t * 180 / PI < 90).
  { split; apply Rmult_lt_reg_r with (PI / 180); try lra; replace (t * 180 / PI * (PI / 180)) with t by (field; lra); lra. }
  rewrite limit90_id by lra.
  assert (Rt : rad (t * 180 / PI) = t) by (unfold rad; field; lra).
  assert (Hct : 0 < cos t) by (unfold t; apply cos_atan_pos).
  pose proof (b_pos e2 V2) as Hb2. assert (Ha2 : 0 < ax e2) by (destruct V2; lra).
  split; [exact Bd|]. rewrite Rt. intros Hf Hab.
  assert (St : sin t <> 0) by (intros Z; rewrite Z in Hf; lra).
  replace ((axis_height e1 phi h - b_axis e2 * sin u2) / sin t * sin t) with (axis_height e1 phi h - b_axis e2 * sin u2) in Hf, Hab by (field; lra).
  replace (axis_height e1 phi h - (axis_height e1 phi h - b_axis e2 * sin u2)) with (b_axis e2 * sin u2) in Hab by ring.
  replace ((axis_height e1 phi h - (axis_height e1 phi h - b_axis e2 * sin u2)) * sin t) with (b_axis e2 * (sin u2 * sin t)) in Hf by ring.
  assert (Hss : 0 < sin u2 * sin t) by (apply Rmult_lt_reg_l with (b_axis e2); lra).
  destruct (Req_dec (cos u2) 0) as [Z|NZ].
  - (* the tangent of u2 has no value *)
    exfalso. pose proof (sin2_cos2' u2) as Q. rewrite Z in Q.
    assert (A1 : Rabs (sin u2) * Rabs (sin u2) = 1) by (rewrite <- Rabs_mult, Rabs_pos_eq; lra).
    rewrite Rabs_mult, (Rabs_pos_eq (b_axis e2)) in Hab by lra.
    assert (A2 : Rabs (sin u2) < 1) by (apply Rmult_lt_reg_l with (b_axis e2); lra). pose proof (Rabs_pos (sin u2)).
    assert (Rabs (sin u2) * Rabs (sin u2) <= 1 * Rabs (sin u2)) by (apply Rmult_le_compat_r; lra). lra.
  - assert (Tt : sin t = ax e2 / b_axis e2 * tan u2 * cos t).
    { assert (tan t = ax e2 / b_axis e2 * tan u2) as <- by apply tan_atan. unfold tan. field. lra. }
    assert (Hcu : 0 < cos u2).
    { rewrite Tt in Hss. unfold tan in Hss.
      replace (sin u2 * (ax e2 / b_axis e2 * (sin u2 / cos u2) * cos t)) with ((sin u2 * sin u2) * (ax e2 / b_axis e2) * cos t * / cos u2) in Hss by (field; lra).
      destruct (Rtotal_order 0 (cos u2)) as [X|[X|X]]; [exact X|congruence|]. exfalso.
      apply Rinv_lt_0_compat in X. pose proof (Rle_0_sqr (sin u2)) as Y. unfold Rsqr in Y.
      assert (0 <= sin u2 * sin u2 * (ax e2 / b_axis e2) * cos t).
      { apply Rmult_le_pos; [apply Rmult_le_pos; [exact Y|] | lra]. left. apply Rdiv_lt_0_compat; lra. }
      assert (0 <= sin u2 * sin u2 * (ax e2 / b_axis e2) * cos t * - / cos u2) by (apply Rmult_le_pos; lra). lra. }
    destruct (tan_half e2 u2 V2 Hcu) as [Q1 Q2]. fold t in Q1, Q2.
    rewrite (merid_z e2 _ _ V2), Rt, Rmult_plus_distr_r. rewrite <- Q2. field. lra.
Qed.
Print Assumptions C20_high_latitude.

(** ** The whole array *)
Theorem C20_lengths e1 e2 eps itmax phi h : List.length phi <> List.length h ->
  convert_ellipsoid e1 e2 eps itmax phi h = Err ValueError.
Proof. intros H. unfold convert_ellipsoid. apply Nat.eqb_neq in H. now rewrite H. Qed.
Print Assumptions C20_lengths.

(** What the call returns, and what happens to the caller's array: every latitude
    beyond a pole is replaced by the pole, in the result and in the argument. *)
Definition clipped (x : R) : R := Rmax (-90) (Rmin 90 x).
Lemma limit90_clipped x : limit90 x = clipped x.
Proof.
  unfold limit90, clipped, rlt. destruct (Rlt_dec 90 (Rabs x)) as [H|H].
  - unfold Rabs in H. unfold sign, rlt. destruct (Rcase_abs x).
    + rewrite (Rmin_right 90 x), Rmax_left by lra. destruct (Rlt_dec x 0); lra.
    + rewrite (Rmin_left 90 x), Rmax_right by lra. destruct (Rlt_dec x 0), (Rlt_dec 0 x); lra.
  - unfold Rabs in H. destruct (Rcase_abs x); rewrite (Rmin_right 90 x), Rmax_right by lra; reflexivity.
Qed.

Theorem C20_array e1 e2 eps itmax phi h : List.length phi = List.length h ->
  let pts := map (fun q => convert_point e1 e2 eps itmax (clipped (fst q)) (snd q)) (combine phi h) in
  convert_ellipsoid e1 e2 eps itmax phi h = Ok (map clipped phi, map fst pts, map snd pts).
Proof.
  intros H pts. unfold convert_ellipsoid. rewrite H, Nat.eqb_refl. cbn [negb].
  assert (E : map limit90 phi = map clipped phi) by (apply map_ext; exact limit90_clipped). rewrite E.
  assert (E2 : forall (l1 l2 : list R), map (fun q => convert_point e1 e2 eps itmax (fst q) (snd q)) (combine (map clipped l1) l2)
     = map (fun q => convert_point e1 e2 eps itmax (clipped (fst q)) (snd q)) (combine l1 l2)).
  { induction l1 as [|x l1 IH]; intros [|y l2]; cbn; auto. now rewrite IH. }
  now rewrite E2.
Qed.
Print Assumptions C20_array.

(** Full statement: the caller's latitudes are never changed.  Missing: latitudes
    beyond the poles, where it is false (next theorem). *)
Theorem C20_caller_kept_partial e1 e2 eps itmax phi h : (forall x, In x phi -> -90 <= x <= 90) ->
  List.length phi = List.length h ->
  exists a b, convert_ellipsoid e1 e2 eps itmax phi h = Ok (phi, a, b).
Proof.
  intros Hr E.
  rewrite (C20_array _ _ _ _ _ _ E). cbv zeta.
  assert (I : map clipped phi = phi).
  { rewrite <- (map_id phi) at 2. apply map_ext_in. intros x Hx. rewrite <- limit90_clipped. apply limit90_id; auto. }
  rewrite I. eauto.
Qed.
Print Assumptions C20_caller_kept_partial.

Theorem C20_caller_modified_refuted e1 e2 eps itmax x h : 90 < Rabs x ->
  exists a b, convert_ellipsoid e1 e2 eps itmax [x] [h] = Ok ([clipped x], a, b) /\ clipped x <> x.
Proof.
  intros H. rewrite (C20_array e1 e2 eps itmax [x] [h] eq_refl). cbv zeta. cbn [map]. do 2 eexists. split; [reflexivity|].
  unfold clipped. unfold Rabs in H. destruct (Rcase_abs x).
  - rewrite (Rmin_right 90 x), Rmax_left by lra. lra.
  - rewrite (Rmin_left 90 x), Rmax_right by lra. lra.
Qed.
Print Assumptions C20_caller_modified_refuted.

(** Special bands *)
Theorem C20_equator_pole e1 e2 eps itmax phi h :
  (Rabs phi < eps -> convert_point e1 e2 eps itmax phi h = (phi, h + ax e1 - ax e2))
  /\ (eps <= Rabs phi -> 90 - Rabs phi < eps -> convert_point e1 e2 eps itmax phi h = (phi, h + (1 - fl e1) * ax e1 - (1 - fl e2) * ax e2)).
Proof.
  split.
  - intros H. unfold convert_point. now rewrite (rlt_t _ _ H).
  - intros H H2. unfold convert_point. rewrite (rlt_f _ _ H), (rlt_t _ _ H2). reflexivity.
Qed.
Print Assumptions C20_equator_pole.

Definition wgs84 : ellipsoid := Ell 6378137 (1 / 298.257223563).
Definition topex : ellipsoid := Ell 6378136.3 (1 / 298.257).
Example C20_valid_case : valid wgs84 /\ valid topex.
Proof. unfold valid, wgs84, topex; cbn [ax fl]. repeat split; lra. Qed.
Example C20_identity_case h : convert_point wgs84 wgs84 (1 / 1000000) 10 60 h = (60, h).
Proof.
  apply C20_identity; try lra; [apply C20_valid_case|]. left.
  replace (rad 60) with (PI / 3) by (unfold rad; field). rewrite cos_PI3. lra.
Qed.
Example C20_caller_case : exists a b, convert_ellipsoid wgs84 topex (1 / 1000000) 10 [95] [0] = Ok ([clipped 95], a, b) /\ clipped 95 <> 95.
Proof. apply C20_caller_modified_refuted. rewrite Rabs_pos_eq; lra. Qed.
Example C20_delta_case : compute_delta_h wgs84 topex 0 = 0.7.
Proof. unfold wgs84, topex. rewrite (proj1 (C20_delta_equator_pole _ _ _ _)). lra. Qed.
