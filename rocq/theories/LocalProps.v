(** C17, C21, C22: local frames, longitude wrapping, sexagesimal angles
    (pyTMD/spatial.py). *)
From Coq Require Import Reals String List Bool ZArith Lra Lia.
From Verif Require Import PyBase RBase StrBase MathModel AstroModel GeoModel GeoSpec GeoProofs.
Import ListNotations.
Open Scope R_scope.

(** ** C17 *)
Lemma enu_inverse1 lon lat v : mapply (enu_matrix lon lat) (mapply (enu_transpose lon lat) v) = v.
Proof.
  destruct v as [x y z]. unfold mapply, row, enu_matrix, enu_transpose; cbn [vx vy vz m00 m01 m02 m10 m11 m12 m20 m21 m22].
  pose proof (sq_cos (dtr * lon)) as L. pose proof (sq_cos (dtr * lat)) as P.
  set (sl := sin (dtr * lon)) in *. set (cl := cos (dtr * lon)) in *.
  set (sp := sin (dtr * lat)) in *. set (cp := cos (dtr * lat)) in *.
  f_equal; ring [L P].
Qed.

Lemma enu_inverse2 lon lat v : mapply (enu_transpose lon lat) (mapply (enu_matrix lon lat) v) = v.
Proof.
  destruct v as [x y z]. unfold mapply, row, enu_matrix, enu_transpose; cbn [vx vy vz m00 m01 m02 m10 m11 m12 m20 m21 m22].
  pose proof (sq_cos (dtr * lon)) as L. pose proof (sq_cos (dtr * lat)) as P.
  set (sl := sin (dtr * lon)) in *. set (cl := cos (dtr * lon)) in *.
  set (sp := sin (dtr * lat)) in *. set (cp := cos (dtr * lat)) in *.
  f_equal; ring [L P].
Qed.

Theorem C17_round_trip e lon0 lat0 h0 v : from_ENU e lon0 lat0 h0 (to_ENU e lon0 lat0 h0 v) = v.
Proof.
  unfold from_ENU, to_ENU. rewrite enu_inverse2. destruct v as [x y z], (to_cartesian e lon0 lat0 h0) as [a b c].
  unfold vadd, vsub; cbn [vx vy vz]. f_equal; ring.
Qed.
Print Assumptions C17_round_trip.

Theorem C17_round_trip_back e lon0 lat0 h0 v : to_ENU e lon0 lat0 h0 (from_ENU e lon0 lat0 h0 v) = v.
Proof.
  unfold from_ENU, to_ENU.
  replace (vsub (vadd (mapply (enu_transpose lon0 lat0) v) (to_cartesian e lon0 lat0 h0)) (to_cartesian e lon0 lat0 h0))
    with (mapply (enu_transpose lon0 lat0) v).
  - apply enu_inverse1.
  - destruct (mapply (enu_transpose lon0 lat0) v) as [x y z], (to_cartesian e lon0 lat0 h0) as [a b c].
    unfold vadd, vsub; cbn [vx vy vz]. f_equal; ring.
Qed.
Print Assumptions C17_round_trip_back.

Theorem C17_isometry e lon0 lat0 h0 v w :
  distance3 (to_ENU e lon0 lat0 h0 v) (to_ENU e lon0 lat0 h0 w) = distance3 v w.
Proof.
  unfold distance3, norm3. f_equal. unfold to_ENU. destruct (to_cartesian e lon0 lat0 h0) as [a b c].
  destruct v as [x y z], w as [x' y' z'].
  unfold dot3, minus3, vsub, mapply, row, enu_matrix; cbn [vx vy vz m00 m01 m02 m10 m11 m12 m20 m21 m22].
  pose proof (sq_cos (dtr * lon0)) as L. pose proof (sq_cos (dtr * lat0)) as P.
  set (sl := sin (dtr * lon0)) in *. set (cl := cos (dtr * lon0)) in *.
  set (sp := sin (dtr * lat0)) in *. set (cp := cos (dtr * lat0)) in *.
  ring [L P].
Qed.
Print Assumptions C17_isometry.

(** The distance from the reference point is the length of the local vector, so a
    conversion that forgets the reference point is excluded. *)
Theorem C17_reference_is_origin e lon0 lat0 h0 :
  to_ENU e lon0 lat0 h0 (to_cartesian e lon0 lat0 h0) = zero3
  /\ from_ENU e lon0 lat0 h0 zero3 = to_cartesian e lon0 lat0 h0.
Proof.
  unfold to_ENU, from_ENU. destruct (to_cartesian e lon0 lat0 h0) as [a b c].
  unfold zero3, vsub, vadd, mapply, row, enu_matrix, enu_transpose; cbn [vx vy vz m00 m01 m02 m10 m11 m12 m20 m21 m22].
  split; f_equal; ring.
Qed.
Print Assumptions C17_reference_is_origin.

(** The third axis is the direction of increasing ellipsoidal height. *)
Theorem C17_height e lon0 lat0 h0 h : valid e ->
  to_ENU e lon0 lat0 h0 (to_cartesian e lon0 lat0 h) = Vec 0 0 (h - h0).
Proof.
  intros V. unfold to_ENU.
  unfold mapply, row, vsub, enu_matrix; cbn [vx vy vz m00 m01 m02 m10 m11 m12 m20 m21 m22].
  rewrite !(cart_x _ _ _ _ V), !(cart_y _ _ _ _ V), !(cart_z _ _ _ _ V).
  replace (dtr * lon0) with (rad lon0) by (unfold rad, dtr; ring).
  replace (dtr * lat0) with (rad lat0) by (unfold rad, dtr; ring).
  pose proof (sq_cos (rad lon0)) as L. pose proof (sq_cos (rad lat0)) as P.
  set (sl := sin (rad lon0)) in *. set (cl := cos (rad lon0)) in *.
  set (sp := sin (rad lat0)) in *. set (cp := cos (rad lat0)) in *.
  set (N := prime_vertical e (rad lat0)) in *.
  f_equal; ring [L P].
Qed.
Print Assumptions C17_height.

(** The local axes: east is perpendicular to the axis of rotation, north leans
    towards the north pole, up is the direction in which height grows, and the
    three are a right-handed frame of unit vectors. *)
Theorem C17_axes e lon0 lat0 h0 : valid e -> -90 <= lat0 <= 90 ->
  exists east north up,
    right_handed east north up
    /\ dot3 east pole_axis = 0 /\ 0 <= dot3 north pole_axis
    /\ (forall h, minus3 (to_cartesian e lon0 lat0 h) (to_cartesian e lon0 lat0 h0) = scale3 (h - h0) up)
    /\ (forall v, to_ENU e lon0 lat0 h0 v
          = let d := minus3 v (to_cartesian e lon0 lat0 h0) in Vec (dot3 east d) (dot3 north d) (dot3 up d)).
Proof.
  intros V H.
  exists (Vec (- sin (rad lon0)) (cos (rad lon0)) 0),
    (Vec (- sin (rad lat0) * cos (rad lon0)) (- sin (rad lat0) * sin (rad lon0)) (cos (rad lat0))),
    (Vec (cos (rad lat0) * cos (rad lon0)) (cos (rad lat0) * sin (rad lon0)) (sin (rad lat0))).
  pose proof (cos_lat_nonneg _ H) as Hc.
  split; [|split; [|split; [|split]]].
  - unfold right_handed, dot3, cross; cbn [vx vy vz].
    pose proof (sq_cos (rad lon0)) as L. pose proof (sq_cos (rad lat0)) as P.
    set (sl := sin (rad lon0)) in *. set (cl := cos (rad lon0)) in *.
    set (sp := sin (rad lat0)) in *. set (cp := cos (rad lat0)) in *.
    repeat split; try (ring [L P]). f_equal; ring [L P].
  - unfold dot3, pole_axis; cbn [vx vy vz]. ring.
  - unfold dot3, pole_axis; cbn [vx vy vz]. lra.
  - intros h. unfold minus3, scale3; cbn [vx vy vz].
    rewrite !(cart_x _ _ _ _ V), !(cart_y _ _ _ _ V), !(cart_z _ _ _ _ V). f_equal; ring.
  - intros v. unfold to_ENU, mapply, row, enu_matrix, vsub, minus3, dot3;
      cbn [vx vy vz m00 m01 m02 m10 m11 m12 m20 m21 m22].
    replace (dtr * lon0) with (rad lon0) by (unfold rad, dtr; ring).
    replace (dtr * lat0) with (rad lat0) by (unfold rad, dtr; ring). reflexivity.
Qed.
Print Assumptions C17_axes.

(** Altitude and azimuth are the spherical coordinates of the local vector, the
    azimuth measured from north towards east. *)
Lemma norm_pos v : v <> zero3 -> 0 < vx v ^ 2 + vy v ^ 2 + vz v ^ 2.
Proof.
  intros H. destruct v as [x y z]; cbn [vx vy vz].
  pose proof (pow2_ge_0 x). pose proof (pow2_ge_0 y). pose proof (pow2_ge_0 z).
  destruct (Req_dec x 0) as [->|X]; [|pose proof (pow2_pos x X); lra].
  destruct (Req_dec y 0) as [->|Y]; [|pose proof (pow2_pos y Y); lra].
  destruct (Req_dec z 0) as [->|Z]; [now destruct H | pose proof (pow2_pos z Z); lra].
Qed.

Lemma asin_facts x : -1 <= x <= 1 -> sin (asin x) = x /\ cos (asin x) = sqrt (1 - x * x) /\ - (PI / 2) <= asin x <= PI / 2.
Proof.
  intros H. repeat split.
  - now apply sin_asin.
  - rewrite cos_asin by lra. now unfold Rsqr.
  - apply asin_bound.
  - apply asin_bound.
Qed.

Theorem C17_horizontal v : v <> zero3 ->
  let '(alpha, phi, D) := to_horizontal v in
  D = norm3 v /\ -90 <= alpha <= 90 /\ 0 <= phi < 360
  /\ v = Vec (D * (cos (rad alpha) * sin (rad phi))) (D * (cos (rad alpha) * cos (rad phi))) (D * sin (rad alpha)).
Proof.
  intros H. unfold to_horizontal.
  pose proof (norm_pos v H) as HD. set (Q := vx v ^ 2 + vy v ^ 2 + vz v ^ 2) in *.
  assert (HD' : 0 < sqrt Q) by now apply sqrt_lt_R0.
  assert (HQ : sqrt Q * sqrt Q = Q) by (apply sqrt_sqrt; lra).
  set (D := sqrt Q) in *. pose proof PI_RGT_0 as Hpi.
  assert (Hz : -1 <= vz v / D <= 1).
  { assert (vz v * vz v <= D * D).
    { rewrite HQ. unfold Q. pose proof (pow2_ge_0 (vx v)). pose proof (pow2_ge_0 (vy v)). lra. }
    assert (Rabs (vz v) <= D).
    { apply Rsqr_incr_0_var; [|lra]. unfold Rsqr. rewrite <- Rabs_mult, Rabs_pos_eq; [lra|]. apply Rle_0_sqr. }
    assert (- D <= vz v <= D) by (unfold Rabs in *; destruct (Rcase_abs (vz v)); lra).
    split.
    - apply Rmult_le_reg_r with D; [lra|]. unfold Rdiv. rewrite Rmult_assoc, Rinv_l by lra. lra.
    - apply Rmult_le_reg_r with D; [lra|]. unfold Rdiv. rewrite Rmult_assoc, Rinv_l by lra. lra. }
  destruct (asin_facts _ Hz) as (S1 & S2 & S3).
  repeat split.
  - unfold D, norm3, dot3, Q. f_equal. ring.
  - apply Rmult_le_reg_r with (PI / 180); [lra|]. replace (asin (vz v / D) * 180 / PI * (PI / 180)) with (asin (vz v / D)) by (field; lra). lra.
  - apply Rmult_le_reg_r with (PI / 180); [lra|]. replace (asin (vz v / D) * 180 / PI * (PI / 180)) with (asin (vz v / D)) by (field; lra). lra.
  - apply rmod_bounds; lra.
  - apply rmod_bounds; lra.
  - replace (rad (asin (vz v / D) * 180 / PI)) with (asin (vz v / D)) by (unfold rad; field; lra).
    destruct (rmod_cong (atan2 (vx v / D) (vy v / D) * 180 / PI) 360) as [k ->].
    replace (rad (atan2 (vx v / D) (vy v / D) * 180 / PI + 360 * IZR k))
      with (atan2 (vx v / D) (vy v / D) + 2 * IZR k * PI) by (unfold rad; field; lra).
    rewrite cos_turns, sin_turns, S1, S2.
    assert (E : sqrt (1 - vz v / D * (vz v / D)) = sqrt (vy v / D * (vy v / D) + vx v / D * (vx v / D))).
    { f_equal. replace (1 - vz v / D * (vz v / D)) with ((D * D - vz v * vz v) / (D * D)) by (field; lra).
      rewrite HQ at 1. unfold Q. field. lra. }
    rewrite E. rewrite atan2_sin, atan2_cos.
    apply vec_ext; cbn [vx vy vz]; field; lra.
Qed.
Print Assumptions C17_horizontal.

(** The zenith angle is the angle between the line of sight and the local
    vertical. *)
Theorem C17_zenith e lon0 lat0 h0 v : valid e -> v <> to_cartesian e lon0 lat0 h0 ->
  let up := minus3 (to_cartesian e lon0 lat0 (h0 + 1)) (to_cartesian e lon0 lat0 h0) in
  let d := minus3 v (to_cartesian e lon0 lat0 h0) in
  0 <= to_zenith e lon0 lat0 h0 v <= 180
  /\ norm3 d * cos (rad (to_zenith e lon0 lat0 h0 v)) = dot3 up d.
Proof.
  intros V Hv up d.
  assert (Hnz : to_ENU e lon0 lat0 h0 v <> zero3).
  { intros E. apply Hv. rewrite <- (C17_round_trip e lon0 lat0 h0 v), E.
    apply C17_reference_is_origin. }
  pose proof (C17_horizontal _ Hnz) as H. unfold to_zenith.
  destruct (to_horizontal (to_ENU e lon0 lat0 h0 v)) as [[al ph] D]. cbn [fst].
  destruct H as (HD & Ha & _ & Hvec). split; [lra|].
  replace (rad (90 - al)) with (PI / 2 - rad al) by (unfold rad; lra). rewrite cos_shift.
  assert (HDd : D = norm3 d).
  { rewrite HD. pose proof (C17_isometry e lon0 lat0 h0 v (to_cartesian e lon0 lat0 h0)) as I.
    destruct (C17_reference_is_origin e lon0 lat0 h0) as [O _]. rewrite O in I.
    unfold distance3 in I at 2. fold d in I. rewrite <- I. unfold distance3, norm3. f_equal.
    unfold dot3, minus3, zero3; cbn [vx vy vz]. ring. }
  rewrite <- HDd.
  assert (Hz : vz (to_ENU e lon0 lat0 h0 v) = D * sin (rad al)) by (rewrite Hvec; reflexivity).
  rewrite <- Hz. unfold to_ENU, mapply, row, enu_matrix, vsub; cbn [vx vy vz m00 m01 m02 m10 m11 m12 m20 m21 m22].
  unfold dot3. assert (U : up = Vec (cos (dtr * lat0) * cos (dtr * lon0)) (cos (dtr * lat0) * sin (dtr * lon0)) (sin (dtr * lat0))).
  { unfold up, minus3; cbn [vx vy vz].
    rewrite !(cart_x _ _ _ _ V), !(cart_y _ _ _ _ V), !(cart_z _ _ _ _ V).
    replace (dtr * lon0) with (rad lon0) by (unfold rad, dtr; ring).
    replace (dtr * lat0) with (rad lat0) by (unfold rad, dtr; ring). f_equal; ring. }
  rewrite U; cbn [vx vy vz]. reflexivity.
Qed.
Print Assumptions C17_zenith.

Example C17_axes_case : to_ENU (Ell 2 0) 0 0 0 (Vec 5 7 11) = Vec 7 11 3.
Proof.
  assert (V : valid (Ell 2 0)) by (unfold valid; cbn; lra).
  unfold to_ENU, mapply, row, enu_matrix, vsub; cbn [vx vy vz m00 m01 m02 m10 m11 m12 m20 m21 m22].
  rewrite (cart_x _ _ _ _ V), (cart_y _ _ _ _ V), (cart_z _ _ _ _ V).
  rewrite (pv_eq _ _ V). unfold pw, esq, rad; cbn [ax fl].
  rewrite !Rmult_0_l, !Rmult_0_r, sin_0, cos_0.
  replace (1 - (0 - 0 ^ 2) * (0 * 0)) with 1 by ring. rewrite sqrt_1. f_equal; field.
Qed.
Example C17_horizontal_case : to_horizontal (Vec 0 3 0) = (0, 0, 3).
Proof.
  unfold to_horizontal; cbn [vx vy vz].
  replace (0 ^ 2 + 3 ^ 2 + 0 ^ 2) with (3 * 3) by ring. rewrite sqrt_square by lra.
  replace (0 / 3) with (1 * 0) by lra. replace (3 / 3) with (1 * 1) by field.
  rewrite atan2_scale by lra. rewrite Rmult_1_l. rewrite asin_0.
  assert (E : atan2 0 1 = 0).
  { unfold atan2. destruct (Rlt_dec 0 1); [|lra]. replace (0 / 1) with 0 by lra. apply atan_0. }
  rewrite E. replace (0 * 180 / PI) with 0 by (field; apply PI_neq0').
  rewrite rmod_small by lra. reflexivity.
Qed.

(** ** C21 *)
Lemma wrap_angle t : cos (atan2 (sin t) (cos t)) = cos t /\ sin (atan2 (sin t) (cos t)) = sin t.
Proof.
  pose proof (atan2_cos (sin t) (cos t)) as C. pose proof (atan2_sin (sin t) (cos t)) as D.
  replace (cos t * cos t + sin t * sin t) with 1 in * by (pose proof (sin2_cos2' t); lra).
  rewrite sqrt_1 in *. lra.
Qed.

Theorem C21_range lon : -180 < wrap_longitudes lon <= 180.
Proof.
  unfold wrap_longitudes. pose proof (atan2_range (sin (lon * PI / 180)) (cos (lon * PI / 180))) as H.
  pose proof PI_RGT_0. set (t := atan2 _ _) in *.
  assert (E : t * 180 / PI * (PI / 180) = t) by (field; lra).
  split.
  - apply Rmult_lt_reg_r with (PI / 180); [lra|]. rewrite E. lra.
  - apply Rmult_le_reg_r with (PI / 180); [lra|]. rewrite E. lra.
Qed.
Print Assumptions C21_range.

Theorem C21_same_meridian lon : exists k : Z, wrap_longitudes lon = lon + 360 * IZR k.
Proof.
  unfold wrap_longitudes. destruct (wrap_angle (lon * PI / 180)) as [C D].
  destruct (same_angle_mod _ _ C D) as [k K]. exists k. rewrite K. field. apply PI_neq0'.
Qed.
Print Assumptions C21_same_meridian.

Theorem C21_identity lon : -180 < lon <= 180 -> wrap_longitudes lon = lon.
Proof.
  intros H. destruct (C21_same_meridian lon) as [k K]. pose proof (C21_range lon) as R.
  rewrite K in *. assert (Hk : (-1 < k < 1)%Z) by (split; apply lt_IZR; lra).
  replace k with 0%Z by lia. lra.
Qed.
Print Assumptions C21_identity.

Theorem C21_idempotent lon : wrap_longitudes (wrap_longitudes lon) = wrap_longitudes lon.
Proof. apply C21_identity, C21_range. Qed.
Print Assumptions C21_idempotent.

Theorem C21_periodic lon k : wrap_longitudes (lon + 360 * IZR k) = wrap_longitudes lon.
Proof.
  destruct (C21_same_meridian lon) as [i I]. destruct (C21_same_meridian (lon + 360 * IZR k)) as [j J].
  pose proof (C21_range lon) as A. pose proof (C21_range (lon + 360 * IZR k)) as B.
  rewrite I, J in *. assert (Hk : (-1 < k + j - i < 1)%Z).
  { split; apply lt_IZR; rewrite minus_IZR, plus_IZR; lra. }
  replace i with (k + j)%Z by lia. rewrite plus_IZR. lra.
Qed.
Print Assumptions C21_periodic.

Example C21_case : wrap_longitudes 270 = -90.
Proof. replace 270 with (-90 + 360 * IZR 1) by lra. rewrite C21_periodic. apply C21_identity; lra. Qed.
Example C21_dateline : wrap_longitudes (-180) = 180.
Proof. replace (-180) with (180 + 360 * IZR (-1)) by lra. rewrite C21_periodic. apply C21_identity; lra. Qed.

(** ** C22 *)
Lemma dms_parts d : let '(degree, minute, second) := to_dms d in
  exists D : nat, exists m : nat, degree = sign d * INR D /\ minute = INR m /\ (m < 60)%nat /\ 0 <= second < 60
  /\ Rabs d = INR D + INR m / 60 + second / 3600.
Proof.
  unfold to_dms, divmod. pose proof (Rabs_pos d) as H. set (x := Rabs d) in *.
  set (k := rfloor (x * 3600 / 60)). set (g := rfloor (IZR k / 60)).
  pose proof (rfloor_bounds (x * 3600 / 60)) as B1. fold k in B1.
  pose proof (rfloor_bounds (IZR k / 60)) as B2. fold g in B2.
  assert (Hk : (0 <= k)%Z) by (assert ((-1 < k)%Z) by (apply lt_IZR; lra); lia).
  assert (Hk' := IZR_le _ _ Hk).
  assert (Hg : (0 <= g)%Z) by (assert ((-1 < g)%Z) by (apply lt_IZR; lra); lia).
  assert (Hm : (0 <= k - 60 * g < 60)%Z).
  { split; [apply le_IZR | apply lt_IZR]; rewrite minus_IZR, mult_IZR; lra. }
  exists (Z.to_nat g), (Z.to_nat (k - 60 * g)).
  rewrite !INR_IZR_INZ, !Z2Nat.id by lia.
  assert (E : rmod (IZR k) 60 = IZR (k - 60 * g)).
  { unfold rmod. fold g. rewrite minus_IZR, mult_IZR. ring. }
  repeat split; auto; try lia.
  - apply rmod_bounds; lra.
  - apply rmod_bounds; lra.
  - unfold rmod. fold k. rewrite minus_IZR, mult_IZR. lra.
Qed.

(** The parts of the conversion are what they are called: whole degrees carrying the
    sign, whole minutes in [0,60), seconds in [0,60), adding up to the angle. *)
Theorem C22_parts d : let '(degree, minute, second) := to_dms d in
  exists D m : nat, degree = sign d * INR D /\ minute = INR m /\ (m < 60)%nat /\ 0 <= second < 60
  /\ d = sign d * (INR D + INR m / 60 + second / 3600).
Proof.
  pose proof (dms_parts d) as H. destruct (to_dms d) as [[dg mn] s].
  destruct H as (D & m & H1 & H2 & H3 & H4 & H5). exists D, m. repeat split; auto; try apply H4.
  rewrite <- H5. unfold sign, Rabs. destruct (Rcase_abs d), (Rlt_dec d 0); try lra.
  destruct (Rlt_dec 0 d); lra.
Qed.
Print Assumptions C22_parts.

(** Round trip for zero and for angles of at least one degree. *)
Theorem C22_round_trip_partial d : d = 0 \/ 1 <= Rabs d ->
  let '(degree, minute, second) := to_dms d in from_dms degree minute second = d.
Proof.
  intros Hd. pose proof (dms_parts d) as P. destruct (to_dms d) as [[dg mn] s].
  destruct P as (D & m & -> & -> & Hm & Hs & HA). unfold from_dms.
  pose proof (le_INR _ _ (proj1 (Nat.lt_succ_r m 59) Hm)) as Hm'. replace (INR 59) with 59 in Hm' by (cbn; lra).
  pose proof (pos_INR m) as Hm0. pose proof (pos_INR D) as HD0.
  destruct Hd as [-> | H1].
  - rewrite Rabs_R0 in HA.
    assert (SZ : forall y, sign (sign 0 * y) = 0).
    { intros y. unfold sign at 2. destruct (Rlt_dec 0 0); try lra. rewrite Rmult_0_l. unfold sign.
      destruct (Rlt_dec 0 0); lra. }
    rewrite SZ. ring.
  - assert (HD : 1 <= INR D).
    { destruct D as [|D]; [cbn in HA; lra|]. rewrite S_INR. pose proof (pos_INR D). lra. }
    unfold sign at 2 3. unfold sign. unfold Rabs in H1, HA.
    destruct (Rcase_abs d) as [C|C].
    + destruct (Rlt_dec d 0); [|lra]. destruct (Rlt_dec (-1 * INR D) 0); [|lra].
      rewrite Rabs_left by lra. lra.
    + destruct (Rlt_dec d 0); [lra|]. destruct (Rlt_dec 0 d); [|lra].
      destruct (Rlt_dec (1 * INR D) 0); [lra|]. destruct (Rlt_dec 0 (1 * INR D)); [|lra].
      rewrite Rabs_pos_eq by lra. lra.
Qed.
Print Assumptions C22_round_trip_partial.

(** Every angle strictly between -1 and 1 degree other than 0 is lost. *)
Theorem C22_round_trip_refuted d : 0 < Rabs d < 1 ->
  let '(degree, minute, second) := to_dms d in from_dms degree minute second = 0 /\ d <> 0.
Proof.
  intros Hd. pose proof (dms_parts d) as P. destruct (to_dms d) as [[dg mn] s].
  destruct P as (D & m & -> & -> & Hm & Hs & HA). unfold from_dms.
  pose proof (pos_INR m) as Hm0.
  assert (D = 0%nat) as ->.
  { destruct D as [|D]; auto. rewrite S_INR in HA. pose proof (pos_INR D). lra. }
  replace (sign d * INR 0) with 0 by (cbn; ring). unfold sign. destruct (Rlt_dec 0 0); [lra|].
  split; [ring|]. intros ->. rewrite Rabs_R0 in Hd. lra.
Qed.
Print Assumptions C22_round_trip_refuted.

(** Conversely every sexagesimal triple with the stated ranges and a degree part
    different from zero is recovered from its decimal value. *)
Theorem C22_reverse (neg : bool) (D m : nat) s : (1 <= D)%nat -> (m < 60)%nat -> 0 <= s < 60 ->
  let sg := if neg then -1 else 1 in
  to_dms (from_dms (sg * INR D) (INR m) s) = (sg * INR D, INR m, s).
Proof.
  intros HD Hm Hs sg. pose proof (le_INR _ _ HD) as HD'. cbn in HD'.
  pose proof (pos_INR m) as Hm0.
  set (x := INR D + INR m / 60 + s / 3600).
  assert (Hx : 0 < x) by (unfold x; lra).
  assert (F : from_dms (sg * INR D) (INR m) s = sg * x).
  { unfold from_dms, sign, sg. destruct neg.
    - destruct (Rlt_dec (-1 * INR D) 0); [|lra]. rewrite Rabs_left by lra. unfold x. lra.
    - destruct (Rlt_dec (1 * INR D) 0); [lra|]. destruct (Rlt_dec 0 (1 * INR D)); [|lra].
      rewrite Rabs_pos_eq by lra. unfold x. lra. }
  rewrite F. unfold to_dms, divmod.
  assert (A : Rabs (sg * x) = x).
  { unfold sg. destruct neg; [rewrite Rabs_left by lra; lra | rewrite Rabs_pos_eq by lra; lra]. }
  assert (Sg : sign (sg * x) = sg).
  { unfold sign, sg. destruct neg.
    - destruct (Rlt_dec (-1 * x) 0); lra.
    - destruct (Rlt_dec (1 * x) 0); [lra|]. destruct (Rlt_dec 0 (1 * x)); lra. }
  rewrite A, Sg.
  assert (K : rfloor (x * 3600 / 60) = (60 * Z.of_nat D + Z.of_nat m)%Z).
  { apply rfloor_unique. rewrite plus_IZR, mult_IZR, <- !INR_IZR_INZ. unfold x. lra. }
  assert (G : rfloor (IZR (60 * Z.of_nat D + Z.of_nat m) / 60) = Z.of_nat D).
  { apply rfloor_unique. rewrite plus_IZR, mult_IZR, <- !INR_IZR_INZ.
    pose proof (le_INR _ _ (proj1 (Nat.lt_succ_r m 59) Hm)) as Hm'. replace (INR 59) with 59 in Hm' by (cbn; lra). lra. }
  unfold rmod. rewrite K, G. rewrite plus_IZR, mult_IZR, <- !INR_IZR_INZ.
  f_equal; [f_equal|]; try ring. unfold x. lra.
Qed.
Print Assumptions C22_reverse.

Example C22_case : to_dms (-12.51) = (-12, 30, 36).
Proof.
  pose proof (C22_reverse true 12 30 36 ltac:(lia) ltac:(lia) ltac:(lra)) as H. cbn zeta in H.
  replace (-12.51) with (from_dms (-1 * INR 12) (INR 30) 36).
  - rewrite H. replace (INR 12) with 12 by (cbn; lra). replace (INR 30) with 30 by (cbn; lra).
    f_equal; f_equal; ring.
  - replace (INR 12) with 12 by (cbn; lra). replace (INR 30) with 30 by (cbn; lra).
    unfold from_dms, sign. destruct (Rlt_dec (-1 * 12) 0); [|lra]. rewrite Rabs_left by lra. lra.
Qed.
