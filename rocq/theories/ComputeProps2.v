(** C46: the solid earth tide of a grid is not the solid earth tide of its points. *)
From Coq Require Import Reals Lra Lia String List Bool ZArith.
From Verif Require Import PyBase RBase StrBase MathModel AstroModel AstroProps GeoModel DatumModel EarthModel
  ComputeModel ComputeSpec ComputeProofs ComputeProps PiBounds.
Import ListNotations.
Open Scope R_scope.

(** ** One step of an angle through a quadrant *)
Lemma step_sum f g a b : f * cos b + g * sin b - (f * cos a + g * sin a)
  = 2 * sin ((b - a) / 2) * (g * cos ((a + b) / 2) - f * sin ((a + b) / 2)).
Proof.
  set (m := (a + b) / 2). set (d := (b - a) / 2).
  replace b with (m + d) by (unfold m, d; field). replace a with (m - d) by (unfold m, d; field).
  rewrite cos_plus, cos_minus, sin_plus, sin_minus. ring.
Qed.
Lemma step_grows f g a b : f < 0 -> g < 0 -> PI / 2 < (a + b) / 2 < PI -> 0 < b - a < PI ->
  0 < f * cos b + g * sin b - (f * cos a + g * sin a).
Proof.
  intros Hf Hg Hm Hd. rewrite step_sum.
  assert (0 < sin ((b - a) / 2)) by (apply sin_gt_0; lra).
  assert (0 < sin ((a + b) / 2)) by (apply sin_gt_0; lra).
  assert (cos ((a + b) / 2) < 0) by (apply cos_lt_0; lra).
  apply Rmult_lt_0_compat; [lra|]. nra.
Qed.
Lemma turn x (k : Z) : cos (x + 2 * IZR k * PI) = cos x /\ sin (x + 2 * IZR k * PI) = sin x.
Proof.
  destruct (Z_le_gt_dec 0 k) as [H|H].
  - rewrite <- (Z2Nat.id k H), <- INR_IZR_INZ. split; [apply cos_period|apply sin_period].
  - replace (2 * IZR k * PI) with (- (2 * INR (Z.to_nat (- k)) * PI)).
    + split; [rewrite <- (cos_period (x + _) (Z.to_nat (- k)))|rewrite <- (sin_period (x + _) (Z.to_nat (- k)))]; f_equal; ring.
    + rewrite INR_IZR_INZ, Z2Nat.id by lia. rewrite opp_IZR. ring.
Qed.
(** the same for angles in degrees, the middle one in the second quadrant after k turns *)
Lemma step_grows_deg f g qa qb (k : Z) : f < 0 -> g < 0 -> 90 < (qa + qb) / 2 + 360 * IZR k < 180 -> 0 < qb - qa < 180 ->
  0 < f * cos (dtr * qb) + g * sin (dtr * qb) - (f * cos (dtr * qa) + g * sin (dtr * qa)).
Proof.
  intros Hf Hg Hm Hd. pose proof PI_RGT_0.
  destruct (turn (dtr * qa) k) as [<- <-], (turn (dtr * qb) k) as [<- <-].
  apply step_grows; [assumption..| |].
  - unfold dtr. replace ((PI / 180 * qa + 2 * IZR k * PI + (PI / 180 * qb + 2 * IZR k * PI)) / 2) with (PI / 180 * ((qa + qb) / 2 + 360 * IZR k)) by field.
    nra.
  - unfold dtr. replace (PI / 180 * qb + 2 * IZR k * PI - (PI / 180 * qa + 2 * IZR k * PI)) with (PI / 180 * (qb - qa)) by field.
    nra.
Qed.

(** ** Phase angles at noon of 20 and 21 May 2023, in degrees *)
Definition noon : R := 11462.5.
Lemma rmod_in x (k : Z) lo hi : 0 <= lo -> hi < 360 -> lo + 360 * IZR k <= x <= hi + 360 * IZR k -> lo <= rmod x 360 <= hi.
Proof. intros. rewrite (rmod_unique x 360 (x - 360 * IZR k) (- k)); [lra|lra|lra|]. rewrite opp_IZR. ring. Qed.

Lemma angles_first : exists T s h p n q, phase_args (noon + mjd_tide) = Angles T (dtr * s) (dtr * h) (dtr * p) (dtr * n) q /\
  65.06 <= s <= 65.07 /\ 57.89 <= h <= 57.90 /\ 314.73 <= p <= 314.74 /\ 327.18 <= n <= 327.181.
Proof.
  unfold phase_args, doodson_arguments, normalize_angle. cbv zeta.
  do 6 eexists. split; [reflexivity|].
  unfold dood_S, dood_S0. cbv zeta. rewrite !C52_polynomial_is_horner.
  replace ((noon + mjd_tide - mjd_j2000) / century) with (8540 / 36525) by (unfold noon, mjd_tide, mjd_j2000, century; lra).
  cbn [horner].
  repeat split.
  all: first [apply (rmod_in _ 313 65.06 65.07)|apply (rmod_in _ 24 57.89 57.90)|apply (rmod_in _ 2 314.73 314.74)|apply (rmod_in _ 1 327.18 327.181)]; lra.
Qed.
Lemma angles_second : exists T s h p n q, phase_args (noon + 1 + mjd_tide) = Angles T (dtr * s) (dtr * h) (dtr * p) (dtr * n) q /\
  78.24 <= s <= 78.25 /\ 58.88 <= h <= 58.89 /\ 314.85 <= p <= 314.86 /\ 327.23 <= n <= 327.24.
Proof.
  unfold phase_args, doodson_arguments, normalize_angle. cbv zeta.
  do 6 eexists. split; [reflexivity|].
  unfold dood_S, dood_S0. cbv zeta. rewrite !C52_polynomial_is_horner.
  replace ((noon + 1 + mjd_tide - mjd_j2000) / century) with (8541 / 36525) by (unfold noon, mjd_tide, mjd_j2000, century; lra).
  cbn [horner].
  repeat split.
  all: first [apply (rmod_in _ 313 78.24 78.25)|apply (rmod_in _ 24 58.88 58.89)|apply (rmod_in _ 2 314.85 314.86)|apply (rmod_in _ 1 327.23 327.24)]; lra.
Qed.

(** ** The long period correction at the equator *)
Definition at_equator (x : R) : vec := Vec x 0 0.
Section Equator.
  Variable x : R.
  Hypothesis Hx : 0 < x.
  Lemma eq_radius : xyz_radius (at_equator x) = x.
  Proof. unfold xyz_radius, at_equator. cbn [vx vy vz]. replace (x ^ 2 + 0 ^ 2 + 0 ^ 2) with (x * x) by ring. apply sqrt_square. lra. Qed.
  Lemma eq_sinphi : sinphi (at_equator x) = 0.
  Proof. unfold sinphi. rewrite eq_radius. cbn [vz at_equator]. unfold Rdiv. ring. Qed.
  Lemma eq_cosphi : cosphi (at_equator x) = 1.
  Proof. unfold cosphi. rewrite eq_radius. cbn [vx vy at_equator]. replace (x ^ 2 + 0 ^ 2) with (x * x) by ring. rewrite sqrt_square by lra. field. lra. Qed.
  Lemma eq_sinla : sinla (at_equator x) = 0.
  Proof. unfold sinla. cbn [vy at_equator]. unfold Rdiv. ring. Qed.
  Lemma eq_cosla : cosla (at_equator x) = 1.
  Proof. unfold cosla. rewrite eq_cosphi, eq_radius. cbn [vx at_equator]. field. lra. Qed.

  Lemma vsum_vx {A} (f : A -> vec) l : vx (vsum (map f l)) = fold_left (fun acc a => acc + vx (f a)) l 0.
  Proof.
    unfold vsum. change 0 with (vx (Vec 0 0 0)) at 4. generalize (Vec 0 0 0) as acc.
    induction l as [|a l IH]; intros acc; [reflexivity|]. cbn [map fold_left]. rewrite IH. reflexivity.
  Qed.
  Lemma eq_diurnal_row g w : vx (diurnal_row (at_equator x) g w) = 0.
  Proof. unfold diurnal_row, vscale, to_xyz. cbv zeta. cbn [vx]. rewrite eq_sinphi, eq_sinla. ring. Qed.
  Lemma eq_diurnal g : vx (frequency_dependence_diurnal (at_equator x) g) = 0.
  Proof.
    unfold frequency_dependence_diurnal. rewrite vsum_vx. generalize diurnal_table. intros l.
    induction l as [|w l IH] using rev_ind; [reflexivity|]. rewrite fold_left_app, IH. cbn [fold_left]. rewrite eq_diurnal_row. ring.
  Qed.
  Lemma eq_long_row g w : vx (long_period_row (at_equator x) g w) = - 1e-3 / 2 * (f5 w * cos (lp_thetaf g w) + f7 w * sin (lp_thetaf g w)).
  Proof. unfold long_period_row, vscale, to_xyz. cbv zeta. cbn [vx]. rewrite eq_sinphi, eq_sinla, eq_cosla, eq_cosphi. field. Qed.

  Lemma long_period_differs : vx (frequency_dependence_long_period (at_equator x) (phase_args (noon + 1 + mjd_tide)))
    < vx (frequency_dependence_long_period (at_equator x) (phase_args (noon + mjd_tide))).
  Proof.
    destruct angles_first as (T1 & s1 & h1 & p1 & n1 & q1 & -> & B1).
    destruct angles_second as (T2 & s2 & h2 & p2 & n2 & q2 & -> & B2).
    unfold frequency_dependence_long_period. rewrite !vsum_vx. unfold long_period_table. cbn [fold_left].
    rewrite !eq_long_row. cbn [f5 f7].
    unfold lp_thetaf. cbn [aS aH aP aN aPS f0 f1 f2 f3 f4].
    replace (dtr * s1 * 0 + dtr * h1 * 0 + dtr * p1 * 0 + dtr * n1 * 1 + q1 * 0) with (dtr * n1) by ring.
    replace (dtr * s2 * 0 + dtr * h2 * 0 + dtr * p2 * 0 + dtr * n2 * 1 + q2 * 0) with (dtr * n2) by ring.
    replace (dtr * s1 * 0 + dtr * h1 * 2 + dtr * p1 * 0 + dtr * n1 * 0 + q1 * 0) with (dtr * (2 * h1)) by ring.
    replace (dtr * s2 * 0 + dtr * h2 * 2 + dtr * p2 * 0 + dtr * n2 * 0 + q2 * 0) with (dtr * (2 * h2)) by ring.
    replace (dtr * s1 * 1 + dtr * h1 * 0 + dtr * p1 * -1 + dtr * n1 * 0 + q1 * 0) with (dtr * (s1 - p1)) by ring.
    replace (dtr * s2 * 1 + dtr * h2 * 0 + dtr * p2 * -1 + dtr * n2 * 0 + q2 * 0) with (dtr * (s2 - p2)) by ring.
    replace (dtr * s1 * 2 + dtr * h1 * 0 + dtr * p1 * 0 + dtr * n1 * 0 + q1 * 0) with (dtr * (2 * s1)) by ring.
    replace (dtr * s2 * 2 + dtr * h2 * 0 + dtr * p2 * 0 + dtr * n2 * 0 + q2 * 0) with (dtr * (2 * s2)) by ring.
    replace (dtr * s1 * 2 + dtr * h1 * 0 + dtr * p1 * 0 + dtr * n1 * 1 + q1 * 0) with (dtr * (2 * s1 + n1)) by ring.
    replace (dtr * s2 * 2 + dtr * h2 * 0 + dtr * p2 * 0 + dtr * n2 * 1 + q2 * 0) with (dtr * (2 * s2 + n2)) by ring.
    assert (E1 : 0 < 0.47 * cos (dtr * n2) + 0.16 * sin (dtr * n2) - (0.47 * cos (dtr * n1) + 0.16 * sin (dtr * n1))).
    { (* half a turn brings the angle to the second quadrant *)
      assert (H : forall c, cos (dtr * c) = - cos (dtr * (c - 180)) /\ sin (dtr * c) = - sin (dtr * (c - 180))).
      { intros c. replace (dtr * c) with (dtr * (c - 180) + PI) by (unfold dtr; field). split; [apply neg_cos|apply neg_sin]. }
      rewrite (proj1 (H n1)), (proj2 (H n1)), (proj1 (H n2)), (proj2 (H n2)).
      pose proof (step_grows_deg (-0.47) (-0.16) (n1 - 180) (n2 - 180) 0 ltac:(lra) ltac:(lra) ltac:(lra) ltac:(lra)). lra. }
    pose proof (step_grows_deg (-0.20) (-0.11) (2 * h1) (2 * h2) 0 ltac:(lra) ltac:(lra) ltac:(lra) ltac:(lra)).
    pose proof (step_grows_deg (-0.11) (-0.09) (s1 - p1) (s2 - p2) 1 ltac:(lra) ltac:(lra) ltac:(lra) ltac:(lra)).
    pose proof (step_grows_deg (-0.13) (-0.15) (2 * s1) (2 * s2) 0 ltac:(lra) ltac:(lra) ltac:(lra) ltac:(lra)).
    pose proof (step_grows_deg (-0.05) (-0.06) (2 * s1 + n1) (2 * s2 + n2) (-1) ltac:(lra) ltac:(lra) ltac:(lra) ltac:(lra)).
    lra.
  Qed.
  Lemma set_point_differs lv a mean sun moon :
    vx (set_point lv a mean (noon + 1) (at_equator x) sun moon) < vx (set_point lv a mean noon (at_equator x) sun moon).
  Proof.
    unfold set_point. cbv zeta. pose proof long_period_differs.
    destruct mean; unfold vadd; cbn [vx]; rewrite !eq_diurnal; lra.
  Qed.
  Lemma radial_at_equator v : vz (mapply (to_local (PI / 2 - geocentric (at_equator x)) (atan2 0 x)) v) = vx v.
  Proof.
    assert (G : geocentric (at_equator x) = 0) by (unfold geocentric; cbn [vz at_equator]; unfold Rdiv; rewrite Rmult_0_l; apply atan_0).
    assert (A : atan2 0 x = 0).
    { replace 0 with (x * sin 0) at 1 by (rewrite sin_0; ring). replace x with (x * cos 0) at 2 by (rewrite cos_0; ring).
      apply atan2_polar; [exact Hx|]. pose proof PI_RGT_0. lra. }
    rewrite G, A, Rminus_0_r. unfold to_local, mapply. cbn [vz m20 m21 m22].
    unfold row. rewrite cos_0, sin_0, sin_PI2, cos_PI2. ring.
  Qed.
End Equator.

(** Whatever the positions of the sun and the moon: no single value serves the
    drift track and the grid. *)
Theorem C46_solid_earth_refuted (sun moon : string -> R -> vec) :
  let clock (_ : string) t := Stamp t 0 (t + 48622) in
  ~ exists f, one_value_per_point as_written
      (fun T => SET_displacements (fun p => p) clock sun moon "WGS84" "tide_free" "approximate" "UTC" (Some T)) f.
Proof.
  intros clock (f & D & _ & G).
  destruct (make_named "WGS84" eq_refl) as [u HU].
  assert (DF := SET_drift (fun p => p) clock sun moon u "UTC" "WGS84" "tide_free" "approximate" eq_refl eq_refl eq_refl HU).
  assert (GF := SET_grid (fun p => p) clock sun moon u "UTC" "WGS84" "tide_free" "approximate" eq_refl eq_refl eq_refl HU).
  specialize (D "drift"%string [((0, 0), noon)] eq_refl ltac:(discriminate)).
  specialize (DF "drift"%string [((0, 0), noon)] eq_refl ltac:(discriminate)).
  assert (GG : grid_of (C1 [0]) (C1 [0; 1]) [[(0, 0)]; [(0, 1)]]).
  { left. exists [0], [0; 1]. repeat split; try discriminate. }
  specialize (G "grid"%string (C1 [0]) (C1 [0; 1]) _ [noon] eq_refl GG ltac:(discriminate)).
  specialize (GF "grid"%string (C1 [0]) (C1 [0; 1]) _ [noon] eq_refl GG ltac:(discriminate)).
  cbv beta in D, DF, G, GF. rewrite DF in D. rewrite GF in G. clear DF GF.
  apply Ok_inj in D, G.
  assert (E1 : set_at (fun p => p) clock sun moon u "tide_free" "approximate" "UTC" 0 0 0 noon = f 0 0 noon).
  { revert D. cbn [map fst snd]. intros D. congruence. }
  assert (E2 : set_at (fun p => p) clock sun moon u "tide_free" "approximate" "UTC" 1 0 0 noon = f 0 0 noon).
  { revert G. cbn [map fst snd]. intros G. congruence. }
  rewrite <- E2 in E1. clear - E1 HU.
  assert (P : exists a, 0 < a /\ position u (0, 0) = at_equator a).
  { exists (d_a u). split.
    - assert (d_a u = 6378137) as ->; [|lra].
      enough (Ok (d_a u) = Ok 6378137) by congruence.
      transitivity (do v <- make (Kw "WGS84" "MKS" None None None None) ;; Ok (d_a v)); [rewrite HU; reflexivity|reflexivity].
    - unfold position, to_cartesian. cbv zeta. cbn [fst snd]. destruct (Rlt_dec 0 0) as [L|_]; [lra|].
      rewrite !Rmult_0_l, !Rmult_0_r || rewrite !Rmult_0_l. rewrite sin_0, cos_0. unfold prime_vertical. rewrite sin_0.
      unfold at_equator. f_equal; [|ring|ring]. cbn [ax].
      replace (1 - GeoModel.ecc1 (Ell (d_a u) (d_flat u)) ^ 2 * 0 ^ 2) with 1 by ring. rewrite sqrt_1. field. }
  destruct P as (a & Ha & P). unfold set_at in E1. cbv zeta in E1. rewrite P in E1.
  cbn [vy vx at_equator] in E1. change (Vec a 0 0) with (at_equator a) in E1.
  rewrite !(radial_at_equator a Ha) in E1.
  unfold clock in E1. cbn [st_tide st_tt_ut1 st_mjd] in E1.
  rewrite !Rplus_0_r in E1.
  pose proof (set_point_differs a Ha default_love (d_a u) (String.eqb (lower "tide_free") "mean_tide")
    (sun "approximate"%string (noon + 48622)) (moon "approximate"%string (noon + 48622))). lra.
Qed.
Print Assumptions C46_solid_earth_refuted.
