(** C52: mean longitudes and fundamental arguments; C56: approximate positions
    of sun and moon. *)
From Coq Require Import String Ascii List Reals ZArith Lra Lia Psatz.
From Verif Require Import PyBase RBase StrBase MathModel AstroModel RotationProps.
Import ListNotations.
Open Scope R_scope.

(** ** Specification *)
(** Horner evaluation *)
Fixpoint horner (cs : list R) (t : R) : R :=
  match cs with [] => 0 | c :: cs' => c + t * horner cs' t end.
(** equal up to full turns of length [c] *)
Definition same_mod (c x y : R) : Prop := exists k : Z, x = y + c * IZR k.

(** ** C52 *)
Lemma poly_from_horner : forall cs i t, poly_from cs i t = t ^ i * horner cs t.
Proof.
  induction cs as [|c cs IH]; intros i t; cbn [poly_from horner]; [ring|].
  rewrite IH; cbn [pow]; ring.
Qed.

(** The sum of powers is the Horner value the docstring promises. *)
Theorem C52_polynomial_is_horner : forall cs t, polynomial_sum cs t = horner cs t.
Proof. intros; unfold polynomial_sum; rewrite poly_from_horner; cbn [pow]; ring. Qed.
Print Assumptions C52_polynomial_is_horner.

Theorem C52_polynomial_linear : forall a b s t, List.length a = List.length b ->
  polynomial_sum (map (fun p => fst p + s * snd p) (combine a b)) t
  = polynomial_sum a t + s * polynomial_sum b t.
Proof.
  intros a b s t; rewrite !C52_polynomial_is_horner; revert b.
  induction a as [|x a IH]; intros [|y b] H; cbn in *; try discriminate; [ring|].
  rewrite IH by congruence; ring.
Qed.
Print Assumptions C52_polynomial_linear.

Theorem C52_normalize : forall theta c, 0 < c ->
  0 <= normalize_angle theta c < c /\ same_mod c (normalize_angle theta c) theta /\
  normalize_angle (normalize_angle theta c) c = normalize_angle theta c /\
  (forall phi, same_mod c theta phi <-> normalize_angle theta c = normalize_angle phi c).
Proof.
  intros theta c Hc; unfold normalize_angle, same_mod.
  split; [apply rmod_bounds; exact Hc|split; [apply rmod_cong|split; [apply rmod_idem; exact Hc|]]].
  intros phi; split.
  - intros [k ->]; apply rmod_add_mult; exact Hc.
  - intros E; destruct (rmod_cong theta c) as [k K], (rmod_cong phi c) as [j J].
    exists (j - k)%Z; rewrite minus_IZR; rewrite K, J in E; lra.
Qed.
Print Assumptions C52_normalize.

(** Independent transcription of the three longitude models: linear and higher
    coefficients of moon, sun, perigee, node. *)
Definition spec_raw (MJD : R) (MEEUS ASTRO5 : bool) : list R :=
  let d := MJD - 51544.5 in
  let c := d / 36525 in
  match MEEUS, ASTRO5 with
  | true, _ =>
    [ horner [218.3164591; 13.17639647754579; -9.9454632e-13; 3.8086292e-20; -8.6184958e-27] d;
      horner [280.46645; 0.985647360164271; 2.2727347e-13] d;
      horner [83.3532430; 0.11140352391786447; -7.7385418e-12; -2.5636086e-19; 2.95738836e-26] d;
      horner [125.0445550; -0.052953762762491446; 1.55628359e-12; 4.390675353e-20; -9.26940435e-27] d ]
  | false, true =>
    [ horner [218.3164477; 481267.88123421; -1.5786e-3; 1.855835e-6; -1.53388e-8] c;
      horner [218.3164477; 481267.88123421; -1.5786e-3; 1.855835e-6; -1.53388e-8] c
      - horner [297.8501921; 445267.1114034; -1.8819e-3; 1.83195e-6; -8.8445e-9] c;
      horner [83.3532465; 4069.0137287; -1.032e-2; -1.249172e-5] c;
      horner [125.04452; -1934.136261; 2.0708e-3; 2.22222e-6] c ]
  | false, false =>
    let t := MJD - 51544.4993 in
    [ 218.3164 + t * 13.17639648; 280.4661 + t * 0.98564736;
      83.3535 + t * 0.11140353; 125.0445 - t * 0.05295377 ]
  end.

Lemma list4_ext : forall (a b c d a' b' c' d' : R), a = a' -> b = b' -> c = c' -> d = d' ->
  [a; b; c; d] = [a'; b'; c'; d'].
Proof. intros; subst; reflexivity. Qed.

Lemma raw_spec : forall MJD me as5,
  [lS (raw_longitudes MJD me as5); lH (raw_longitudes MJD me as5);
   lP (raw_longitudes MJD me as5); lN (raw_longitudes MJD me as5)] = spec_raw MJD me as5.
Proof.
  intros MJD [] as5; [|destruct as5]; unfold raw_longitudes, spec_raw; cbv zeta;
    cbn [lS lH lP lN]; rewrite ?C52_polynomial_is_horner; unfold mjd_j2000, century;
    cbn [horner zip_sub]; apply list4_ext; ring.
Qed.

(** All four normalised longitudes are in [0, 360) and congruent to the
    polynomial models. *)
Theorem C52_mean_longitudes : forall MJD MEEUS ASTRO5,
  let l := mean_longitudes MJD MEEUS ASTRO5 in
  Forall2 (fun x y => 0 <= x < 360 /\ same_mod 360 x y)
    [lS l; lH l; lP l; lN l] (spec_raw MJD MEEUS ASTRO5).
Proof.
  intros MJD me as5 l; rewrite <- raw_spec; unfold l, mean_longitudes; cbn [lS lH lP lN].
  unfold normalize_angle.
  repeat (apply Forall2_cons; [split; [apply rmod_bounds; lra|apply rmod_cong]|]); apply Forall2_nil.
Qed.
Print Assumptions C52_mean_longitudes.

(** The solar perigee is returned without normalisation. *)
Theorem C52_perigee_value : forall MJD MEEUS ASTRO5,
  lPP (mean_longitudes MJD MEEUS ASTRO5)
  = if orb MEEUS ASTRO5 then 282.94 + 1.7192 * ((MJD - 51544.5) / 36525) else 282.8.
Proof.
  intros MJD [] [] ; unfold mean_longitudes, raw_longitudes, mjd_j2000, century; cbn [lPP orb]; try reflexivity;
  unfold Rdiv; ring.
Qed.
Print Assumptions C52_perigee_value.

Theorem C52_perigee_in_range_refuted : exists MJD, ~ 0 <= lPP (mean_longitudes MJD false true) < 360.
Proof.
  exists (51544.5 + 36525 * 100); rewrite C52_perigee_value; cbn [orb].
  replace (51544.5 + 36525 * 100 - 51544.5) with (36525 * 100) by ring.
  replace (36525 * 100 / 36525) with 100 by field; lra.
Qed.
Print Assumptions C52_perigee_in_range_refuted.

(** MEEUS wins over ASTRO5. *)
Theorem C52_precedence : forall MJD b,
  mean_longitudes MJD true b = mean_longitudes MJD true false.
Proof. reflexivity. Qed.
Print Assumptions C52_precedence.

(** Doodson arguments: six angles in [0, 2 PI), the mean lunar time is the hour
    angle minus the uncorrected moon plus the mean sun. *)
Lemma dtr_range : forall x, 0 <= dtr * normalize_angle x 360 < 2 * PI.
Proof.
  intros x; unfold normalize_angle, dtr; pose proof (rmod_bounds x 360 ltac:(lra)); pose proof PI_RGT_0.
  split.
  - apply Rmult_le_pos; lra.
  - replace (2 * PI) with (PI / 180 * 360) by field; apply Rmult_lt_compat_l; lra.
Qed.

Theorem C52_doodson_range : forall MJD st eq corr TAU moon H P Np Ps,
  doodson_arguments MJD st eq corr = (TAU, moon, H, P, Np, Ps) ->
  Forall (fun x => 0 <= x < 2 * PI) [TAU; moon; H; P; Np; Ps].
Proof.
  intros MJD st eq corr TAU moon H P Np Ps; unfold doodson_arguments; cbv zeta.
  intros E; repeat (apply pair_equal_spec in E as [E <-]); subst TAU.
  repeat (apply Forall_cons; [apply dtr_range|]); apply Forall_nil.
Qed.
Print Assumptions C52_doodson_range.

Theorem C52_doodson_tau : forall MJD st corr TAU moon H P Np Ps,
  doodson_arguments MJD st false corr = (TAU, moon, H, P, Np, Ps) ->
  let T := (MJD - 51544.5) / 36525 in
  same_mod (2 * PI) (TAU + moon - (if corr then dtr * (T * (1.396971278 + T * (3.08889e-4 + T * (2.1e-8 + T * 7.0e-9)))) else 0))
    (dtr * (360 * MJD + horner [280.4606184; 36000.7700536; 3.8793e-4; -2.58e-8] T)).
Proof.
  intros MJD st corr TAU moon H P Np Ps; unfold doodson_arguments; cbv zeta.
  intros E; repeat (apply pair_equal_spec in E as [E <-]); subst TAU; clear.
  unfold normalize_angle.
  destruct (rmod_cong (dood_TAU MJD st false) 360) as [k ->].
  destruct (rmod_cong (dood_S MJD corr) 360) as [j ->].
  unfold dood_TAU, dood_S, mjd_j2000, century; cbv zeta.
  destruct (rmod_cong MJD 1) as [i ->].
  rewrite !C52_polynomial_is_horner.
  set (T := (MJD - 51544.5) / 36525).
  exists (k + j + i)%Z; rewrite !plus_IZR; unfold dtr.
  destruct corr; cbn [horner]; field.
Qed.
Print Assumptions C52_doodson_tau.

(** The deprecated wrapper returns the same six angles in its own order. *)
Theorem C52_phase_angles : forall MJD st TAU moon H P Np Ps,
  doodson_arguments MJD st false true = (TAU, moon, H, P, Np, Ps) ->
  phase_angles MJD st = (moon, H, P, TAU, Np, Ps).
Proof. intros; unfold phase_angles; rewrite H0; reflexivity. Qed.
Print Assumptions C52_phase_angles.

(** Delaunay arguments: in [0, 2 PI), and the separate evaluation used for the
    equation of the equinoxes gives the same five angles up to full turns. *)
Theorem C52_delaunay_range : forall MJD, Forall (fun x => 0 <= x < 2 * PI) (delaunay_arguments MJD).
Proof.
  intros MJD; unfold delaunay_arguments; cbv zeta; apply Forall_forall; intros x Hx.
  apply in_map_iff in Hx as (cs & <- & _).
  unfold normalize_angle, atr, circle.
  pose proof (rmod_bounds (polynomial_sum cs ((MJD - mjd_j2000) / century)) 1296000 ltac:(lra)); pose proof PI_RGT_0.
  split.
  - apply Rmult_le_pos; lra.
  - replace (2 * PI) with (PI / 648000 * 1296000) by field; apply Rmult_lt_compat_l; lra.
Qed.
Print Assumptions C52_delaunay_range.

Theorem C52_delaunay_agree : forall MJD,
  Forall2 (same_mod (2 * PI)) (delaunay_arguments MJD) (eqeq_arguments ((MJD - 51544.5) / 36525)).
Proof.
  intros MJD; unfold delaunay_arguments, eqeq_arguments, delaunay_coefs, eqeq_coefs; cbv zeta; cbn [map fst snd].
  change ((MJD - mjd_j2000) / century) with ((MJD - 51544.5) / 36525).
  set (T := (MJD - 51544.5) / 36525).
  assert (K : forall c0 c1 c1' c2 c3 c4 n, c1 = c1' + 1296000 * n ->
    same_mod (2 * PI) (atr * normalize_angle (polynomial_sum [c0; c1; c2; c3; c4] T) circle)
      (atr * polynomial_sum [c0; c1'; c2; c3; c4] T + 2 * PI * rmod (n * T) 1)).
  { intros c0 c1 c1' c2 c3 c4 n E; unfold normalize_angle.
    destruct (rmod_cong (polynomial_sum [c0; c1; c2; c3; c4] T) circle) as [k ->].
    destruct (rmod_cong (n * T) 1) as [j ->].
    exists (k - j)%Z; rewrite minus_IZR, !C52_polynomial_is_horner; unfold circle, atr; cbn [horner].
    rewrite E; field. }
  repeat (apply Forall2_cons; [apply K; lra|]); apply Forall2_nil.
Qed.
Print Assumptions C52_delaunay_agree.

Example C52_case_noon : lPP (mean_longitudes 51544.5 false true) = 282.94.
Proof. rewrite C52_perigee_value; cbn [orb]; lra. Qed.

(** ** C56 *)
Definition len2 (v : vec) : R := dot v v.

Lemma sun_dist : forall T gha, len2 (solar_approximate T gha) = r_sun T ^ 2.
Proof.
  intros T gha; unfold len2, solar_approximate; cbv zeta.
  rewrite (rotation_lengths _ (rot_z_rotation _)); unfold dot; cbn [vx vy vz].
  pose proof (sc (lambda_sun T)) as E1; pose proof (sc eps_j2000) as E2.
  generalize dependent (lambda_sun T); generalize dependent eps_j2000; intros e E2 l E1.
  generalize (r_sun T); intros r.
  replace (r * cos l * (r * cos l) + r * sin l * cos e * (r * sin l * cos e) + r * sin l * sin e * (r * sin l * sin e))
    with (r ^ 2 * (cos l * cos l + sin l * sin l * (cos e * cos e + sin e * sin e))) by ring.
  rewrite E1, E2; ring.
Qed.

(** The distance of the sun is its series radius, about one astronomical unit
    at every time; the position is the point at the ecliptic longitude on the
    ecliptic, turned by the obliquity and the Greenwich hour angle. *)
Theorem C56_sun : forall T gha,
  sqrt (len2 (solar_approximate T gha)) = r_sun T /\
  147.099e9 <= r_sun T <= 152.139e9 /\
  solar_approximate T gha =
    mapply (rot_z (gha * dtr)) (mapply (rot_x (- eps_j2000))
      (Vec (r_sun T * cos (lambda_sun T)) (r_sun T * sin (lambda_sun T)) 0)).
Proof.
  intros T gha.
  assert (B : 147.099e9 <= r_sun T <= 152.139e9).
  { unfold r_sun; cbv zeta; pose proof (COS_bound (solar_anomaly T));
      pose proof (COS_bound (2 * solar_anomaly T)); lra. }
  split; [|split; [exact B|]].
  - rewrite sun_dist; apply sqrt_pow2; lra.
  - unfold solar_approximate; cbv zeta; f_equal; unfold rot_x; rewrite cos_neg, sin_neg; mat_unf.
    apply vec_ext; ring.
Qed.
Print Assumptions C56_sun.

(** The moon: distance equal to its series radius and between 356000 km minus
    and 414000 km plus margins; the position is built from ecliptic longitude
    and latitude. *)
Theorem C56_moon : forall T gha,
  let a := lunar_args T in
  sqrt (len2 (lunar_approximate T gha)) = r_moon a /\
  356.096e6 <= r_moon a <= 413.904e6 /\
  lunar_approximate T gha =
    mapply (rot_z (gha * dtr)) (mapply (rot_x (- eps_j2000))
      (mapply (rot_z (- lambda_moon a)) (mapply (rot_y (beta_moon a)) (Vec (r_moon a) 0 0)))).
Proof.
  intros T gha a.
  assert (B : 356.096e6 <= r_moon a <= 413.904e6).
  { unfold r_moon; destruct a as [s D F m l].
    pose proof (COS_bound l); pose proof (COS_bound (2 * D - l)); pose proof (COS_bound (2 * D));
    pose proof (COS_bound (2 * l)); pose proof (COS_bound (2 * l - 2 * D)); pose proof (COS_bound (m - 2 * D));
    pose proof (COS_bound (l + 2 * D)); pose proof (COS_bound (l + m - 2 * D)).
    lra. }
  assert (E : lunar_approximate T gha =
    mapply (rot_z (gha * dtr)) (mapply (rot_x (- eps_j2000))
      (mapply (rot_z (- lambda_moon a)) (mapply (rot_y (beta_moon a)) (Vec (r_moon a) 0 0))))).
  { unfold lunar_approximate; cbv zeta; fold a; do 2 f_equal.
    unfold rot_z, rot_y; rewrite cos_neg, sin_neg; mat_unf; apply vec_ext; ring. }
  split; [|split; [exact B|exact E]].
  unfold len2; rewrite E, !(rotation_lengths _ (rot_z_rotation _)), (rotation_lengths _ (rot_x_rotation _)),
    (rotation_lengths _ (rot_z_rotation _)), (rotation_lengths _ (rot_y_rotation _)).
  unfold dot; cbn [vx vy vz].
  replace (r_moon a * r_moon a + 0 * 0 + 0 * 0) with (r_moon a ^ 2) by ring.
  apply sqrt_pow2; lra.
Qed.
Print Assumptions C56_moon.

(** The hour angle only turns the position about the z axis: adding 360 degrees
    changes nothing, and the distance to the equator plane does not depend on
    it. *)
Theorem C56_hour_angle : forall T gha k,
  solar_approximate T (gha + 360 * IZR k) = solar_approximate T gha /\
  lunar_approximate T (gha + 360 * IZR k) = lunar_approximate T gha /\
  (forall gha', vz (solar_approximate T gha') = vz (solar_approximate T gha)) /\
  (forall gha', vz (lunar_approximate T gha') = vz (lunar_approximate T gha)).
Proof.
  intros T gha k.
  assert (E : rot_z ((gha + 360 * IZR k) * dtr) = rot_z (gha * dtr)).
  { replace ((gha + 360 * IZR k) * dtr) with (gha * dtr + 2 * IZR k * PI) by (unfold dtr; field).
    unfold rot_z; rewrite cos_turns, sin_turns; reflexivity. }
  unfold solar_approximate, lunar_approximate; cbv zeta; rewrite E.
  split; [reflexivity|split; [reflexivity|split; intros gha']]; unfold rot_z; mat_unf; ring.
Qed.
Print Assumptions C56_hour_angle.

Lemma upper_of_lower : forall s, upper (lower s) = upper s.
Proof.
  induction s as [|c s IH]; [reflexivity|].
  unfold upper, lower in *; cbn [smap]; rewrite IH; f_equal.
  destruct c as [[] [] [] [] [] [] [] []]; reflexivity.
Qed.

(** An unknown ephemerides name is not rejected: nothing is returned. *)
Theorem C56_unknown_ephemerides_refuted : exists name a j, ecef name a j = None.
Proof. exists "jpl-de440"%string, (Vec 0 0 0), (Vec 0 0 0); reflexivity. Qed.
Print Assumptions C56_unknown_ephemerides_refuted.

Theorem C56_ephemerides_names_partial : forall name a j,
  (lower name = "approximate"%string -> ecef name a j = Some a) /\
  (lower name = "jpl"%string -> ecef name a j = Some j).
(* Missing: rejection of other names. *)
Proof.
  intros name a j; unfold ecef; split; intros E.
  - rewrite E; reflexivity.
  - rewrite E; rewrite <- (upper_of_lower name), E; reflexivity.
Qed.
Print Assumptions C56_ephemerides_names_partial.
