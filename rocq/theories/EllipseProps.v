(** C26: tidal current ellipses (ellipse.py). *)
From Coq Require Import Reals ZArith Lra Lia.
From Verif Require Import RBase EllipseModel.
Open Scope R_scope.

(** The velocity at phase [th] of a constituent whose complex amplitude is [z]:
    the real part of z e^(i th). *)
Definition at_phase (z : cpx) (th : R) : R := fst z * cos th - snd z * sin th.

Lemma polar_re z : fst z = cabs z * cos (carg z).
Proof. pose proof (f_equal fst (cpx_polar z)) as H. exact H. Qed.
Lemma polar_im z : snd z = cabs z * sin (carg z).
Proof. pose proof (f_equal snd (cpx_polar z)) as H. exact H. Qed.

(** The trajectory of the current is the ellipse with the returned parameters: along
    the returned inclination it is umajor cos, across it uminor sin, of the phase
    relative to the returned phase lag. *)
Theorem C26_trajectory u v th : let '(major, minor, incl, phase) := ellipse u v in
  at_phase u th * cos (deg2rad incl) + at_phase v th * sin (deg2rad incl) = major * cos (th - deg2rad phase)
  /\ - at_phase u th * sin (deg2rad incl) + at_phase v th * cos (deg2rad incl) = minor * sin (th - deg2rad phase).
Proof.
  unfold ellipse. cbv zeta.
  set (wp := cscale (/ 2) (cadd u (cmul (0, 1) v))). set (wm := cscale (/ 2) (cconj (csub u (cmul (0, 1) v)))).
  set (k := rfloor _). 
  destruct (rmod_cong ((rad2deg (carg wm) - rad2deg (carg wp)) / 2 + 180 * IZR k) 360) as [j Hj]. rewrite Hj. clear Hj.
  set (ep := carg wp). set (em := carg wm).
  replace (deg2rad ((rad2deg em + rad2deg ep) / 2 - 180 * IZR k)) with ((em + ep) / 2 - IZR k * PI)
    by (unfold deg2rad, rad2deg; field; apply PI_neq0').
  replace (deg2rad ((rad2deg em - rad2deg ep) / 2 + 180 * IZR k + 360 * IZR j)) with ((em - ep) / 2 + IZR k * PI + 2 * IZR j * PI)
    by (unfold deg2rad, rad2deg; field; apply PI_neq0').
  pose proof (polar_re wp) as P1. pose proof (polar_im wp) as P2. pose proof (polar_re wm) as M1. pose proof (polar_im wm) as M2.
  fold ep in P1, P2. fold em in M1, M2.
  set (ap := cabs wp) in *. set (am := cabs wm) in *.
  set (inc := (em + ep) / 2 - IZR k * PI). set (ph := (em - ep) / 2 + IZR k * PI + 2 * IZR j * PI).
  assert (Ea : ep = inc - ph + 2 * IZR (k + j) * PI) by (unfold inc, ph; rewrite plus_IZR; field).
  assert (Eb : em = inc + ph + 2 * IZR (- j) * PI) by (unfold inc, ph; rewrite opp_IZR; field).
  rewrite Ea, cos_turns in P1. rewrite Ea, sin_turns in P2. rewrite Eb, cos_turns in M1. rewrite Eb, sin_turns in M2.
  assert (U1 : fst u = fst wp + fst wm) by (unfold wp, wm, cscale, cadd, csub, cmul, cconj, cre, cim; cbn [fst snd]; field).
  assert (U2 : snd u = snd wp - snd wm) by (unfold wp, wm, cscale, cadd, csub, cmul, cconj, cre, cim; cbn [fst snd]; field).
  assert (V1 : fst v = snd wp + snd wm) by (unfold wp, wm, cscale, cadd, csub, cmul, cconj, cre, cim; cbn [fst snd]; field).
  assert (V2 : snd v = fst wm - fst wp) by (unfold wp, wm, cscale, cadd, csub, cmul, cconj, cre, cim; cbn [fst snd]; field).
  unfold at_phase. rewrite U1, U2, V1, V2, P1, P2, M1, M2.
  clearbody ap am inc ph. clear.
  rewrite !cos_minus, !sin_minus, !cos_plus, !sin_plus.
  pose proof (sin2_cos2' inc) as Q.
  assert (S2 : sin inc * sin inc = 1 - cos inc * cos inc) by lra. clear Q. split; ring [S2].
Qed.
Print Assumptions C26_trajectory.

(** Ranges of the parameters. *)
Theorem C26_ranges u v : let '(major, minor, incl, phase) := ellipse u v in
  Rabs minor <= major /\ 0 <= incl < 180 /\ 0 <= phase < 360.
Proof.
  unfold ellipse. cbv zeta. repeat split.
  - pose proof (cabs_nonneg (cscale (/ 2) (cadd u (cmul (0, 1) v)))). pose proof (cabs_nonneg (cscale (/ 2) (cconj (csub u (cmul (0, 1) v))))).
    apply Rabs_le. lra.
  - apply (rmod_bounds _ 180). lra.
  - apply (rmod_bounds _ 180). lra.
  - apply rmod_bounds. lra.
  - apply rmod_bounds. lra.
Qed.
Print Assumptions C26_ranges.

(** What [inverse] returns, for any parameters: the currents whose trajectory is the
    ellipse. *)
Theorem C26_inverse_trajectory major minor incl phase th : let '(u, v) := inverse major minor incl phase in
  at_phase u th * cos (deg2rad incl) + at_phase v th * sin (deg2rad incl) = major * cos (th - deg2rad phase)
  /\ - at_phase u th * sin (deg2rad incl) + at_phase v th * cos (deg2rad incl) = minor * sin (th - deg2rad phase).
Proof.
  unfold inverse. cbv zeta. set (i := deg2rad incl). set (p := deg2rad phase).
  unfold at_phase, cadd, csub, cmul, cconj, cscale, cexp, cre, cim. cbn [fst snd].
  rewrite !cos_minus, !sin_minus, !cos_plus, !sin_plus. pose proof (sin2_cos2' i) as Q.
  assert (S2 : sin i * sin i = 1 - cos i * cos i) by lra. clear Q. split; field [S2].
Qed.
Print Assumptions C26_inverse_trajectory.

(** Two complex amplitudes with the same trajectory are equal. *)
Lemma at_phase_inj u u' : (forall th, at_phase u th = at_phase u' th) -> u = u'.
Proof.
  intros H. pose proof (H 0) as A. pose proof (H (- (PI / 2))) as B. unfold at_phase in *.
  rewrite cos_0, sin_0 in A. rewrite cos_neg, sin_neg, cos_PI2, sin_PI2 in B. destruct u, u'; cbn [fst snd] in *. f_equal; lra.
Qed.
Lemma unrotate a b a' b' t : a * cos t + b * sin t = a' * cos t + b' * sin t -> - a * sin t + b * cos t = - a' * sin t + b' * cos t -> a = a' /\ b = b'.
Proof.
  intros H1 H2. pose proof (sin2_cos2' t) as Q.
  assert (A : (a - a') * (sin t * sin t + cos t * cos t) = 0).
  { replace ((a - a') * (sin t * sin t + cos t * cos t)) with (cos t * (a * cos t + b * sin t - (a' * cos t + b' * sin t)) - sin t * (- a * sin t + b * cos t - (- a' * sin t + b' * cos t))) by ring.
    rewrite H1, H2. ring. }
  assert (B : (b - b') * (sin t * sin t + cos t * cos t) = 0).
  { replace ((b - b') * (sin t * sin t + cos t * cos t)) with (sin t * (a * cos t + b * sin t - (a' * cos t + b' * sin t)) + cos t * (- a * sin t + b * cos t - (- a' * sin t + b' * cos t))) by ring.
    rewrite H1, H2. ring. }
  rewrite Q in A, B. lra.
Qed.

(** Round trip from the currents. *)
Theorem C26_round_trip u v : let '(major, minor, incl, phase) := ellipse u v in
  inverse major minor incl phase = (u, v).
Proof.
  pose proof (C26_trajectory u v) as T. destruct (ellipse u v) as [[[major minor] incl] phase].
  pose proof (C26_inverse_trajectory major minor incl phase) as I.
  destruct (inverse major minor incl phase) as [u' v'].
  assert (E : forall th, at_phase u' th = at_phase u th /\ at_phase v' th = at_phase v th).
  { intros th. destruct (T th) as [T1 T2]. destruct (I th) as [I1 I2]. apply unrotate with (deg2rad incl); congruence. }
  f_equal; apply at_phase_inj; intros th; apply E.
Qed.
Print Assumptions C26_round_trip.

(** Round trip from the parameters, for an ellipse that is not a circle. *)
Lemma angle_cong r t : 0 < r -> exists j : Z, rad2deg (carg (cscale r (cexp t))) = rad2deg t + 360 * IZR j.
Proof.
  intros Hr. set (z := cscale r (cexp t)).
  assert (C : cos (carg z) = cos t /\ sin (carg z) = sin t).
  { pose proof (polar_re z) as A. pose proof (polar_im z) as B. unfold z in A at 1. unfold z in B at 1.
    unfold z in A at 1. unfold z in B at 1. rewrite cabs_polar in A, B by lra.
    unfold cscale, cexp, cre, cim in A, B. cbn [fst snd] in A, B.
    split; apply Rmult_eq_reg_l with r; try lra; symmetry; assumption. }
  destruct C as [C D]. destruct (same_angle_mod (carg z) t C D) as [k Hk].
  exists k. unfold rad2deg. rewrite Hk. field. apply PI_neq0'.
Qed.
Theorem C26_round_trip_parameters major minor incl phase :
  Rabs minor < major -> 0 <= incl < 180 -> 0 <= phase < 360 ->
  let '(u, v) := inverse major minor incl phase in ellipse u v = (major, minor, incl, phase).
Proof.
  intros Hm Hi Hp. unfold inverse. cbv zeta.
  set (ap := (major + minor) / 2). set (am := (major - minor) / 2).
  assert (Pa : 0 < ap) by (unfold ap; unfold Rabs in Hm; destruct (Rcase_abs minor); lra).
  assert (Pm : 0 < am) by (unfold am; unfold Rabs in Hm; destruct (Rcase_abs minor); lra).
  set (wp := cscale ap (cexp (deg2rad incl - deg2rad phase))). set (wm := cscale am (cexp (deg2rad incl + deg2rad phase))).
  unfold ellipse. cbv zeta.
  replace (cscale (/ 2) (cadd (cadd wp (cconj wm)) (cmul (0, 1) (cmul (0, -1) (csub wp (cconj wm)))))) with wp.
  2: { destruct wp, wm. unfold cscale, cadd, csub, cmul, cconj, cre, cim. cbn [fst snd]. f_equal; field. }
  replace (cscale (/ 2) (cconj (csub (cadd wp (cconj wm)) (cmul (0, 1) (cmul (0, -1) (csub wp (cconj wm))))))) with wm.
  2: { destruct wp, wm. unfold cscale, cadd, csub, cmul, cconj, cre, cim. cbn [fst snd]. f_equal; field. }
  destruct (angle_cong ap (deg2rad incl - deg2rad phase) Pa) as [j Hj]. fold wp in Hj.
  destruct (angle_cong am (deg2rad incl + deg2rad phase) Pm) as [l Hl]. fold wm in Hl.
  rewrite Hj, Hl. unfold wp, wm. rewrite !cabs_polar by lra.
  replace (rad2deg (deg2rad incl - deg2rad phase)) with (incl - phase) by (unfold rad2deg, deg2rad; field; apply PI_neq0').
  replace (rad2deg (deg2rad incl + deg2rad phase)) with (incl + phase) by (unfold rad2deg, deg2rad; field; apply PI_neq0').
  assert (K : rfloor ((incl + phase + 360 * IZR l + (incl - phase + 360 * IZR j)) / 2 / 180) = (l + j)%Z).
  { apply rfloor_unique. rewrite plus_IZR. lra. }
  rewrite K.
  assert (Ph : rmod ((incl + phase + 360 * IZR l - (incl - phase + 360 * IZR j)) / 2 + 180 * IZR (l + j)) 360 = phase).
  { apply rmod_unique with (- l)%Z; try lra. rewrite plus_IZR, opp_IZR. field. }
  rewrite Ph, plus_IZR. unfold ap, am. repeat f_equal; field.
Qed.
Print Assumptions C26_round_trip_parameters.

(** Zero current: a zero ellipse. *)
Example C26_case : let '(u, v) := inverse 5 (-2) 170 300 in ellipse u v = (5, -2, 170, 300).
Proof. apply C26_round_trip_parameters; try lra. rewrite Rabs_left; lra. Qed.
