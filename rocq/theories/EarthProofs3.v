(** Frequency dependence, permanent tide, pole tide as fields. *)
From Coq Require Import Reals Lra Lia String List Bool ZArith.
From Verif Require Import PyBase RBase StrBase MathModel AstroModel EarthModel EarthSpec EarthProofs EarthProofs2.
Import ListNotations.
Open Scope R_scope.

Lemma field_zero x : 0 < dotv x x -> field 0 (fun _ => 0) x (Vec 0 0 0).
Proof.
  intros P. pose proof (norm_pos x P). split; [unfold dotv; cbn; ring|].
  intros d _. replace (dotv (Vec 0 0 0) d / norm x) with 0 by (unfold dotv; cbn [vx vy vz]; field; lra).
  apply derivable_pt_lim_const.
Qed.

Lemma field_fold {A B} (x : vec) (u : A -> vec) (U : B -> R) (W : B -> vec -> R) : 0 < dotv x x ->
  forall la lb, Forall2 (fun a b => field (U b) (W b) x (u a)) la lb -> forall U0 W0 u0, field U0 W0 x u0 ->
  field (U0 + total U lb) (fun y => W0 y + total (fun b => W b y) lb) x (fold_left vadd (map u la) u0).
Proof.
  intros P la lb H. induction H as [|a b la lb Hab H IH]; intros U0 W0 u0 F0; cbn [map fold_left total fold_right].
  - apply (field_ext _ _ _ _ _ _ F0); [|intros y]; unfold total; cbn; ring.
  - apply (field_ext _ _ _ _ _ _ (IH _ _ _ (field_plus _ _ _ _ _ _ _ P F0 Hab))); [|intros y]; unfold total; ring.
Qed.
Lemma field_vsum {A B} (x : vec) (u : A -> vec) (U : B -> R) (W : B -> vec -> R) la lb : 0 < dotv x x ->
  Forall2 (fun a b => field (U b) (W b) x (u a)) la lb ->
  field (total U lb) (fun y => total (fun b => W b y) lb) x (vsum (map u la)).
Proof.
  intros P H. apply (field_ext _ _ _ _ _ _ (field_fold x u U W P la lb H _ _ _ (field_zero x P))); [|intros y]; ring.
Qed.

(** ** Angles *)
Definition same_turn (x y : R) : Prop := exists k : Z, x = y + 2 * PI * IZR k.
Lemma same_turn_refl x : same_turn x x. Proof. exists 0%Z. ring. Qed.
Lemma same_turn_plus a b c d : same_turn a b -> same_turn c d -> same_turn (a + c) (b + d).
Proof. intros [k ->] [j ->]. exists (k + j)%Z. rewrite plus_IZR. ring. Qed.
Lemma same_turn_scal z a b : same_turn a b -> same_turn (a * IZR z) (IZR z * b).
Proof. intros [k ->]. exists (z * k)%Z. rewrite mult_IZR. ring. Qed.
Lemma same_turn_trig a b : same_turn a b -> sin a = sin b /\ cos a = cos b.
Proof.
  intros [k ->]. replace (b + 2 * PI * IZR k) with (b + 2 * IZR k * PI) by ring.
  destruct (Z_le_gt_dec 0 k) as [H|H].
  - rewrite <- (Z2Nat.id k H), <- INR_IZR_INZ. split; [apply sin_period|apply cos_period].
  - assert (K : exists n, k = (- Z.of_nat n)%Z) by (exists (Z.to_nat (- k)); lia). destruct K as [n ->].
    rewrite opp_IZR, <- INR_IZR_INZ.
    rewrite <- (sin_period _ n), <- (cos_period _ n).
    replace (b + 2 * - INR n * PI + 2 * INR n * PI) with b by ring. split; reflexivity.
Qed.

Lemma poly_sum_poly cs t : polynomial_sum cs t = poly cs t.
Proof.
  assert (G : forall cs i, poly_from cs i t = t ^ i * poly cs t).
  { clear cs. induction cs as [|c cs IH]; intros i; cbn [poly_from poly fold_right]; [ring|].
    rewrite IH. cbn [pow]. unfold poly. ring. }
  unfold polynomial_sum. rewrite G. cbn [pow]. ring.
Qed.

Lemma reduced x : same_turn (dtr * normalize_angle x 360) (PI / 180 * x).
Proof.
  unfold normalize_angle, dtr. destruct (rmod_cong x 360) as [k ->]. exists k. field.
Qed.

Lemma phase_args_spec mjd : let g := phase_args mjd in
  same_turn (aT g) (arg_tau mjd) /\ same_turn (aS g) (arg_s mjd) /\ same_turn (aH g) (arg_h mjd) /\
  same_turn (aP g) (arg_p mjd) /\ same_turn (aN g) (arg_n mjd) /\ same_turn (aPS g) (arg_ps mjd).
Proof.
  unfold phase_args, doodson_arguments. cbv beta iota zeta. cbn [aT aS aH aP aN aPS].
  unfold arg_s, arg_h, arg_p, arg_n, arg_ps, arg_moon0, centuries.
  rewrite !poly_sum_poly. unfold mjd_j2000, century.
  split; [|split; [|split; [|split; [|split]]]]; try apply reduced.
  - destruct (reduced (dood_TAU mjd 0 false)) as [k ->].
    unfold dood_TAU, dood_S0, arg_tau, arg_moon0, centuries, mjd_j2000, century. cbv zeta.
    rewrite !poly_sum_poly. destruct (rmod_cong mjd 1) as [i ->].
    exists (k + i)%Z. rewrite plus_IZR. field.
  - unfold dood_S, dood_S0, mjd_j2000, century. cbv zeta. rewrite !poly_sum_poly. apply reduced.
Qed.

(** ** Rows of the tables *)
Definition row_is (w : frow) (z : zrow) (swap : bool) : Prop :=
  let '((a, b, c, d, e), (r1, r2, t1, t2)) := z in
  f0 w = IZR a /\ f1 w = IZR b /\ f2 w = IZR c /\ f3 w = IZR d /\ f4 w = IZR e /\
  f5 w = IZR r1 / 100 /\ (if swap then f7 w else f6 w) = IZR r2 / 100 /\ (if swap then f6 w else f7 w) = IZR t1 / 100 /\ f8 w = IZR t2 / 100.

Lemma table_a_rows : Forall2 (fun w z => row_is w z false) diurnal_table table_a.
Proof. unfold diurnal_table, table_a. repeat (apply Forall2_cons; [cbn; repeat split; lra|]). apply Forall2_nil. Qed.
Lemma table_b_rows : Forall2 (fun w z => row_is w z true) long_period_table table_b.
Proof. unfold long_period_table, table_b. repeat (apply Forall2_cons; [cbn; repeat split; lra|]). apply Forall2_nil. Qed.

Section Angles.
  Variables (g : angles) (tau s h p n ps : R).
  Hypotheses (ET : same_turn (aT g) tau) (ES : same_turn (aS g) s) (EH : same_turn (aH g) h)
    (EP : same_turn (aP g) p) (EN : same_turn (aN g) n) (EPS : same_turn (aPS g) ps).
  Lemma lp_theta w k v sw : row_is w (k, v) sw -> same_turn (lp_thetaf g w) (combo k s h p n ps).
  Proof.
    destruct k as [[[[a b] c] d] e], v as [[[r1 r2] t1] t2]. intros (-> & -> & -> & -> & -> & H) || intros H.
    all: destruct H as (E0 & E1 & E2 & E3 & E4 & _) || idtac.
    unfold lp_thetaf. rewrite E0, E1, E2, E3, E4. unfold combo.
    repeat apply same_turn_plus; apply same_turn_scal; assumption.
  Qed.
  Lemma di_theta w k v sw : row_is w (k, v) sw -> same_turn (di_thetaf g w) (tau + combo k s h p n ps).
  Proof.
    intros H. pose proof (same_turn_plus _ _ _ _ ET (lp_theta _ _ _ _ H)) as K.
    replace (di_thetaf g w) with (aT g + lp_thetaf g w) by (unfold di_thetaf, lp_thetaf; ring). exact K.
  Qed.
End Angles.

Lemma scale_to_xyz k p DR DN DE : vscale k (to_xyz p DR DN DE) = to_xyz p (k * DR) (k * DN) (k * DE).
Proof. unfold vscale, to_xyz; cbn [vx vy vz]. f_equal; ring. Qed.

Lemma longitude_trig p : off_axis p -> cos (atan2 (vy p) (vx p)) = vx p / rho p /\ sin (atan2 (vy p) (vx p)) = vy p / rho p.
Proof.
  intros O. pose proof (q_pos p O) as Hq. pose proof (atan2_cos (vy p) (vx p)) as C. pose proof (atan2_sin (vy p) (vx p)) as D.
  assert (E : sqrt (vx p * vx p + vy p * vy p) = rho p) by (unfold rho; f_equal; ring). rewrite E in C, D.
  split; [rewrite <- C at 2|rewrite <- D at 2]; field; lra.
Qed.

Lemma wave_lim th x d : derivable_pt_lim (fun s => n1 (sin th) (cos th) (shift_by x d s)) 0
  (dotv (Vec (vz x * sin th) (vz x * cos th) (vx x * sin th + vy x * cos th)) d).
Proof. apply n1_lim. Qed.

Lemma diurnal_row_field g x w th k v : off_axis x -> row_is w (k, v) false -> same_turn (di_thetaf g w) th ->
  let '(a, b, c, d) := v in
  field (2 * (IZR a / 10^5 * wave th x + IZR b / 10^5 * wave (th + PI / 2) x))
    (fun y => IZR c / 10^5 * wave th y + IZR d / 10^5 * wave (th + PI / 2) y) x (diurnal_row x g w).
Proof.
  intros O Rw Th. destruct v as [[[a b] c] d]. pose proof (off_axis_dot x O) as P. local x O.
  destruct k as [[[[k0 k1] k2] k3] k4]. destruct Rw as (_ & _ & _ & _ & _ & E5 & E6 & E7 & E8). cbn in E6, E7.
  unfold diurnal_row. cbv zeta. rewrite E5, E6, E7, E8. clear E5 E6 E7 E8.
  destruct (longitude_trig x O) as [Lc Ls].
  rewrite sin_plus, cos_plus, Lc, Ls. destruct (same_turn_trig _ _ Th) as [-> ->].
  rewrite scale_to_xyz, l_sinphi, l_cosphi.
  set (A := sin th). set (B := cos th).
  assert (Wq : forall y, wave (th + PI / 2) y = n1 B (- A) y / dotv y y).
  { intros y. unfold wave, n1. rewrite sin_plus, cos_plus, cos_PI2, sin_PI2. unfold A, B, Rdiv. ring. }
  assert (Wp : forall y, wave th y = n1 A B y / dotv y y) by reflexivity.
  set (H := Vec (vz x * (IZR c / 10^5 * A + IZR d / 10^5 * B)) (vz x * (IZR c / 10^5 * B - IZR d / 10^5 * A))
     (vx x * (IZR c / 10^5 * A + IZR d / 10^5 * B) + vy x * (IZR c / 10^5 * B - IZR d / 10^5 * A))).
  assert (T : tang (fun y => IZR c / 10^5 * wave th y + IZR d / 10^5 * wave (th + PI / 2) y) x (vscale (/ dotv x x) H)).
  { apply tang_ext with (W := fun y => n1 (IZR c / 10^5 * A + IZR d / 10^5 * B) (IZR c / 10^5 * B - IZR d / 10^5 * A) y / dotv y y).
    - apply tang_quot; [exact P|]. intros e. apply n1_lim.
    - intros y. rewrite Wq, Wp. unfold n1, Rdiv. ring. }
  assert (U : 2 * (IZR a / 10^5 * wave th x + IZR b / 10^5 * wave (th + PI / 2) x) =
     1e-3 * (2 * (IZR a / 100) * (vz x / norm x) * (rho x / norm x) * (A * (vx x / rho x) + B * (vy x / rho x)) +
             2 * (IZR b / 100) * (vz x / norm x) * (rho x / norm x) * (B * (vx x / rho x) - A * (vy x / rho x)))).
  { rewrite Wq, Wp, off_dot_rho. unfold n1. replace 1e-3 with (/ 1000) by lra. field. lra. }
  rewrite U.
  apply field_local with (1 := O) (2 := T).
  - unfold vscale, H; cbn [vx vy vz]. rewrite off_dot_rho. unfold dotv; cbn [vx vy vz]. replace 1e-3 with (/ 1000) by lra.
    match goal with |- ?L = ?R => replace L with
      (((IZR c * A + IZR d * B) * vx x + (IZR c * B - IZR d * A) * vy x) / 10^5 * (rho x ^ 2 - vz x ^ 2) / norm x ^ 2) by (field; lra);
    replace R with
      (((IZR c * A + IZR d * B) * vx x + (IZR c * B - IZR d * A) * vy x) / 10^5 * (norm x ^ 2 - 2 * vz x ^ 2) / norm x ^ 2) by (field; lra) end.
    rewrite (norm_rho x). unfold Rdiv. ring.
  - unfold vscale, H; cbn [vx vy vz]. rewrite off_dot_rho. replace 1e-3 with (/ 1000) by lra. field. lra.
Qed.

Lemma zonal_tang (f : R -> R) l x : 0 < dotv x x ->
  (forall d, dotv d x = 0 -> derivable_pt_lim (fun s => f (sinlat (shift_by x d s))) 0 (l * (vz d / norm x))) ->
  tang (fun y => f (sinlat y)) x (Vec 0 0 (l / norm x)).
Proof.
  intros P H d Hd. pose proof (norm_pos x P).
  replace (dotv (Vec 0 0 (l / norm x)) d) with (l * (vz d / norm x)) by (unfold dotv; cbn [vx vy vz]; field; lra). apply H, Hd.
Qed.

Lemma zonal_field W l x DR DN : off_axis x -> tang W x (Vec 0 0 (l / norm x)) -> DN = l * rho x / norm x -> field DR W x (to_xyz x DR DN 0).
Proof.
  intros O T ->. local x O. apply field_local with (1 := O) (2 := T).
  - unfold dotv; cbn [vx vy vz].
    match goal with |- ?L = ?R => replace L with (l / norm x * rho x ^ 2) by (field; lra);
      replace R with (l / norm x * (norm x ^ 2 - vz x ^ 2)) by (field; lra) end.
    rewrite (norm_rho x). ring.
  - cbn [vx vy vz]. ring.
Qed.

Lemma long_period_row_field g x w th k v : off_axis x -> row_is w (k, v) true -> same_turn (lp_thetaf g w) th ->
  let '(a, b, c, d) := v in
  field ((IZR a / 10^5 * cos th + IZR b / 10^5 * sin th) * P2 (sinlat x))
    (fun y => (IZR c / 10^5 * cos th + IZR d / 10^5 * sin th) * sinlat y ^ 2) x (long_period_row x g w).
Proof.
  intros O Rw Th. destruct v as [[[a b] c] d]. pose proof (off_axis_dot x O) as P. local x O.
  destruct k as [[[[k0 k1] k2] k3] k4]. destruct Rw as (_ & _ & _ & _ & _ & E5 & E6 & E7 & E8). cbn in E6, E7.
  unfold long_period_row. cbv zeta. rewrite E5, E6, E7, E8. clear E5 E6 E7 E8.
  destruct (same_turn_trig _ _ Th) as [-> ->].
  rewrite scale_to_xyz, l_sinphi, l_cosphi. fold (sinlat x). rewrite Rmult_0_r.
  set (K := IZR c / 10^5 * cos th + IZR d / 10^5 * sin th).
  assert (T : tang (fun y => K * sinlat y ^ 2) x (Vec 0 0 (K * (2 * sinlat x) / norm x))).
  { apply (zonal_tang (fun z => K * z ^ 2) _ x P). intros e He.
    pose proof (scal_lim K _ _ (sq_lim _ _ (sinlat_lim x e P He))) as L. cbv beta in L. rewrite shift_0 in L.
    replace (K * (2 * sinlat x) * (vz e / norm x)) with (K * (2 * sinlat x * (vz e / norm x))) by ring. exact L. }
  assert (U : (IZR a / 10^5 * cos th + IZR b / 10^5 * sin th) * P2 (sinlat x) =
     1e-3 * (IZR a / 100 * (3 * sinlat x ^ 2 - 1) * cos th / 2 + IZR b / 100 * (3 * sinlat x ^ 2 - 1) * sin th / 2)).
  { unfold P2. replace 1e-3 with (/ 1000) by lra. field. }
  rewrite U. apply zonal_field with (1 := O) (2 := T).
  unfold K. replace 1e-3 with (/ 1000) by lra. field. lra.
Qed.

Lemma freq_diurnal_field mjd x : off_axis x ->
  field (da_radial (arg_tau mjd) (arg_s mjd) (arg_h mjd) (arg_p mjd) (arg_n mjd) (arg_ps mjd) x)
    (da_tangent (arg_tau mjd) (arg_s mjd) (arg_h mjd) (arg_p mjd) (arg_n mjd) (arg_ps mjd)) x
    (frequency_dependence_diurnal x (phase_args mjd)).
Proof.
  intros O. destruct (phase_args_spec mjd) as (ET & ES & EH & EP & EN & EPS).
  unfold frequency_dependence_diurnal, da_radial, da_tangent.
  apply field_vsum; [apply off_axis_dot, O|].
  pose proof table_a_rows as H. revert H. generalize diurnal_table table_a. intros la lb H.
  induction H as [|w [k [[[a b] c] d]] la lb Hw H IH]; [apply Forall2_nil|apply Forall2_cons; [|exact IH]].
  cbv beta iota zeta.
  pose proof (di_theta _ _ _ _ _ _ _ ET ES EH EP EN EPS _ _ _ _ Hw) as Th.
  exact (diurnal_row_field (phase_args mjd) x w _ k (a, b, c, d) O Hw Th).
Qed.

Lemma freq_long_field mjd x : off_axis x ->
  field (db_radial (arg_s mjd) (arg_h mjd) (arg_p mjd) (arg_n mjd) (arg_ps mjd) x)
    (db_tangent (arg_s mjd) (arg_h mjd) (arg_p mjd) (arg_n mjd) (arg_ps mjd)) x
    (frequency_dependence_long_period x (phase_args mjd)).
Proof.
  intros O. destruct (phase_args_spec mjd) as (ET & ES & EH & EP & EN & EPS).
  unfold frequency_dependence_long_period, db_radial, db_tangent.
  apply field_vsum; [apply off_axis_dot, O|].
  pose proof table_b_rows as H. revert H. generalize long_period_table table_b. intros la lb H.
  induction H as [|w [k [[[a b] c] d]] la lb Hw H IH]; [apply Forall2_nil|apply Forall2_cons; [|exact IH]].
  cbv beta iota zeta.
  pose proof (lp_theta _ _ _ _ _ _ ES EH EP EN EPS _ _ _ _ Hw) as Th.
  exact (long_period_row_field (phase_args mjd) x w _ k (a, b, c, d) O Hw Th).
Qed.

Lemma permanent_field h l x : off_axis x ->
  field (h * permanent x) (fun y => l * permanent y) x (free_to_mean x h l).
Proof.
  intros O. pose proof (off_axis_dot x O) as P. local x O.
  assert (S45 : sqrt (45 / (16 * PI)) = 3 / 2 * sqrt (5 / (4 * PI))).
  { pose proof PI_RGT_0. replace (45 / (16 * PI)) with ((3 / 2) * (3 / 2) * (5 / (4 * PI))) by (field; lra).
    rewrite sqrt_mult; [rewrite sqrt_square by lra; reflexivity|lra|].
    apply Rmult_le_pos; [lra|]. apply Rlt_le, Rinv_0_lt_compat. lra. }
  unfold free_to_mean. cbv zeta. rewrite S45. set (s5 := sqrt (5 / (4 * PI))).
  set (dr := s5 * h * -0.31460 * (3 / 2 * sinphi x ^ 2 - 1 / 2)).
  set (dn := 2 * (3 / 2 * s5 * l * -0.31460) * cosphi x * sinphi x).
  replace (Vec _ _ _) with (to_xyz x dr dn 0) by (unfold to_xyz; f_equal; ring).
  assert (T : tang (fun y => l * permanent y) x (Vec 0 0 (l * -0.3146 * s5 * (3 * sinlat x) / norm x))).
  { unfold permanent. fold s5. apply (zonal_tang (fun z => l * (-0.3146 * s5 * P2 z)) _ x P). intros e He.
    pose proof (scal_lim l _ _ (scal_lim (-0.3146 * s5) _ _ (P2_lim _ _ (sinlat_lim x e P He)))) as L. cbv beta in L. rewrite shift_0 in L.
    replace (l * -0.3146 * s5 * (3 * sinlat x) * (vz e / norm x)) with (l * (-0.3146 * s5 * (3 * sinlat x * (vz e / norm x)))) by ring. exact L. }
  assert (D : -0.31460 = -0.3146) by lra.
  replace (h * permanent x) with dr.
  2:{ unfold dr, permanent, P2. fold s5. rewrite D, l_sinphi. unfold sinlat. field. lra. }
  apply zonal_field with (1 := O) (2 := T). unfold dn. rewrite D, l_sinphi, l_cosphi. unfold sinlat. field. lra.
Qed.

(** ** Load pole tide *)
Lemma colatitude_trig p : off_axis p -> cos (pt_theta p) = vz p / norm p /\ sin (pt_theta p) = rho p / norm p.
Proof.
  intros O. local p O. unfold pt_theta. fold (rho p). rewrite cos_shift, sin_shift.
  set (w := vz p / rho p).
  assert (E : sqrt (1 + w²) = norm p / rho p).
  { apply Rsqr_inj; [apply sqrt_pos| |].
    - apply Rlt_le, Rmult_lt_0_compat; [assumption|apply Rinv_0_lt_compat; assumption].
    - rewrite Rsqr_sqrt by (pose proof (Rle_0_sqr w); lra). unfold w, Rsqr.
      replace (norm p / rho p * (norm p / rho p)) with (norm p ^ 2 / rho p ^ 2) by (field; lra). rewrite (norm_rho p). field. lra. }
  assert (Hn : 0 < norm p / rho p) by (apply Rmult_lt_0_compat; [assumption|apply Rinv_0_lt_compat; assumption]).
  pose proof (sin_atan w) as S1. pose proof (cos_atan w) as C1. rewrite E in S1, C1.
  rewrite S1, C1. unfold w. split; field; lra.
Qed.

Lemma lpt_field gamma_0 omega h2 l2 p q : off_axis p -> gamma_0 <> 0 ->
  let V := pole_potential gamma_0 omega (PI / 648000 * (px q - mpx q)) (PI / 648000 * - (py q - mpy q)) in
  field (h2 * V p) (fun y => l2 * V y) p (lpt_point gamma_0 omega h2 l2 p q).
Proof.
  intros O G0 V. pose proof (off_axis_dot p O) as P. local p O.
  destruct (colatitude_trig p O) as [Ct St]. destruct (longitude_trig p O) as [Cl Sl].
  assert (E : lpt_point gamma_0 omega h2 l2 p q =
     to_xyz p (vz (lpt_local gamma_0 omega h2 l2 p q)) (- vx (lpt_local gamma_0 omega h2 l2 p q)) (vy (lpt_local gamma_0 omega h2 l2 p q))).
  { rewrite l_to_xyz by exact O. unfold lpt_point, mapply, lpt_rotation, row. cbv zeta. cbn [m00 m01 m02 m10 m11 m12 m20 m21 m22].
    set (L := lpt_local _ _ _ _ _ _). unfold pt_phi. rewrite Ct, St, Cl, Sl. f_equal; field; lra. }
  rewrite E. clear E.
  assert (Rn : pt_radius p = norm p) by (unfold pt_radius, norm, dotv; f_equal; ring).
  set (mx := PI / 648000 * (px q - mpx q)) in *. set (my := PI / 648000 * - (py q - mpy q)) in *.
  assert (Emx : atr * pole_mx q = mx) by reflexivity. assert (Emy : atr * pole_my q = my) by reflexivity.
  set (K := omega ^ 2 / gamma_0).
  assert (L2 : vz (lpt_local gamma_0 omega h2 l2 p q) = h2 * V p).
  { unfold lpt_local. cbv zeta. cbn [vz]. unfold pt_phi. rewrite sin_2a, Ct, St, Cl, Sl, Rn.
    unfold V, pole_potential. rewrite <- Emx, <- Emy. field. lra. }
  assert (L0 : - vx (lpt_local gamma_0 omega h2 l2 p q) =
     l2 * K * ((vz p ^ 2 - rho p ^ 2) * ((mx * vx p + my * vy p) / rho p))).
  { unfold lpt_local. cbv zeta. cbn [vx]. unfold pt_phi. rewrite cos_2a, Ct, St, Cl, Sl, Rn.
    unfold K. rewrite <- Emx, <- Emy. field. lra. }
  assert (L1 : vy (lpt_local gamma_0 omega h2 l2 p q) = l2 * K * norm p * vz p * ((mx * vy p - my * vx p) / rho p)).
  { unfold lpt_local. cbv zeta. cbn [vy]. unfold pt_phi. rewrite Ct, Cl, Sl, Rn.
    unfold K. rewrite <- Emx, <- Emy. field. lra. }
  rewrite L2, L0, L1.
  assert (T : tang (fun y => l2 * V y) p (vscale l2 (vscale (- K) (Vec (vz p * mx) (vz p * my) (vx p * mx + vy p * my))))).
  { apply tang_scal. apply tang_ext with (W := fun y => - K * n1 mx my y).
    - apply tang_scal. intros d _. apply n1_lim.
    - intros y. unfold V, pole_potential, n1, K. ring. }
  apply field_local with (1 := O) (2 := T); unfold vscale; cbn [vx vy vz].
  - unfold dotv; cbn [vx vy vz].
    match goal with |- ?L = ?R => replace L with (l2 * K * (mx * vx p + my * vy p) * (vz p ^ 2 - rho p ^ 2)) by (field; lra);
      replace R with (l2 * K * (mx * vx p + my * vy p) * (2 * vz p ^ 2 - norm p ^ 2)) by (field; lra) end.
    rewrite (norm_rho p). ring.
  - field. lra.
Qed.
