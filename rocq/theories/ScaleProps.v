(** C23: polar stereographic scale factors (spatial.py:2218-2275). *)
From Coq Require Import Reals String List Bool ZArith Lra Lia.
From Verif Require Import PyBase RBase StrBase MathModel AstroModel GeoModel GeoSpec GeoProofs ScaleSpec ConvertProps.
Import ListNotations.
Open Scope R_scope.

Section Scale.
Variable f : R.
Hypothesis Hf : 0 <= f < 1.
Let e2 := 2 * f - f ^ 2.
Let e := ecc_of f.

Lemma e2_range : 0 <= e2 < 1.
Proof. unfold e2. split; nra. Qed.
Lemma e_sq : e * e = e2.
Proof. unfold e, ecc_of. apply sqrt_sqrt. apply e2_range. Qed.
Lemma e_range : 0 <= e < 1.
Proof.
  pose proof e_sq. pose proof e2_range. assert (0 <= e) by (unfold e, ecc_of; apply sqrt_pos). split; auto. nra.
Qed.
Lemma es_range t : -1 < e * sin t < 1.
Proof. pose proof e_range. pose proof (SIN_bound t). split; nra. Qed.
Lemma ws_pos t : 0 < 1 - e2 * sin t ^ 2.
Proof. rewrite <- e_sq. pose proof (es_range t). nra. Qed.
(** the conformal factor *)
Definition cf (t : R) : R := Rpower ((1 - e * sin t) / (1 + e * sin t)) (e / 2).
Lemma cf_pos t : 0 < cf t.
Proof. unfold cf, Rpower. apply exp_pos. Qed.

Lemma tan_quarter t : 0 < cos t -> 0 <= sin t -> tan (PI / 4 - t / 2) = cos t / (1 + sin t).
Proof.
  intros Hc Hs.
  set (x := PI / 4 - t / 2).
  assert (C : cos t = 2 * sin x * cos x).
  { rewrite <- sin_2a. replace (2 * x) with (PI / 2 - t) by (unfold x; field). now rewrite sin_shift. }
  assert (D : sin t = 2 * cos x * cos x - 1).
  { rewrite <- cos_2a_cos. replace (2 * x) with (PI / 2 - t) by (unfold x; field). now rewrite cos_shift. }
  assert (cos x <> 0) by (intros Z; rewrite Z in C; lra).
  unfold tan. rewrite C. replace (1 + sin t) with (2 * cos x * cos x) by lra. field. auto.
Qed.

(** the scale at latitude phi of the projection true at r, in a form that is also
    valid at the pole *)
Definition shape (t : R) : R := sqrt (1 - e2 * sin t ^ 2) / ((1 + sin t) * cf t).
Lemma shape_pos t : 0 <= sin t -> 0 < shape t.
Proof.
  intros Hs. unfold shape. apply Rdiv_lt_0_compat; [apply sqrt_lt_R0, ws_pos|].
  apply Rmult_lt_0_compat; [lra | apply cf_pos].
Qed.

Lemma m_over_t t : 0 < cos t -> 0 <= sin t -> sf_m e2 t / sf_t e t = / shape t.
Proof.
  intros Hc Hs. unfold sf_m, sf_t, shape. rewrite tan_quarter by auto. fold (cf t).
  pose proof (cf_pos t). pose proof (sqrt_lt_R0 _ (ws_pos t)). field. repeat split; lra.
Qed.
Lemma sf_t_pos t : 0 < cos t -> 0 <= sin t -> 0 < sf_t e t.
Proof.
  intros Hc Hs. unfold sf_t. rewrite tan_quarter by auto. fold (cf t). pose proof (cf_pos t).
  apply Rdiv_lt_0_compat; auto. apply Rdiv_lt_0_compat; lra.
Qed.
Lemma sf_m_pos t : 0 < cos t -> 0 < sf_m e2 t.
Proof. intros Hc. unfold sf_m. apply Rdiv_lt_0_compat; auto. apply sqrt_lt_R0, ws_pos. Qed.

Lemma sf_k_shape t r : 0 < cos t -> 0 <= sin t -> 0 < cos r -> 0 <= sin r -> sf_k f t r = shape t / shape r.
Proof.
  intros C1 S1 C2 S2. unfold sf_k. fold e2. change (sqrt e2) with e.
  pose proof (m_over_t t C1 S1) as A. pose proof (m_over_t r C2 S2) as B.
  pose proof (shape_pos t S1). pose proof (shape_pos r S2).
  pose proof (sf_m_pos t C1). pose proof (sf_t_pos t C1 S1). pose proof (sf_t_pos r C2 S2).
  assert (shape t = sf_t e t / sf_m e2 t) as ->.
  { replace (sf_t e t / sf_m e2 t) with (/ (sf_m e2 t / sf_t e t)) by (field; lra). rewrite A. field. lra. }
  assert (/ shape r = sf_m e2 r / sf_t e r) as E by auto. transitivity (sf_t e t / sf_m e2 t * (sf_m e2 r / sf_t e r)); [field; lra | now rewrite <- E].
Qed.

Lemma pole_power : sqrt (Rpower (1 + e) (1 + e) * Rpower (1 - e) (1 - e)) = sqrt (1 - e2) / Rpower ((1 - e) / (1 + e)) (e / 2).
Proof.
  pose proof e_range as He. unfold Rpower at 1 2 3. rewrite <- exp_plus.
  assert (Sq : forall x, sqrt (exp x) = exp (x / 2)).
  { intros x. replace x with (x / 2 + x / 2) at 1 by field. rewrite exp_plus. apply sqrt_square. left. apply exp_pos. }
  assert (1 - e2 = exp (ln (1 + e) + ln (1 - e))) as ->.
  { rewrite exp_plus, !exp_ln by lra. rewrite <- e_sq. ring. }
  rewrite !Sq. match goal with |- _ = ?a / exp ?b => replace (a / exp b) with (a * exp (- b)) by (rewrite exp_Ropp; reflexivity) end.
  rewrite <- exp_plus. f_equal.
  replace (ln ((1 - e) / (1 + e))) with (ln (1 - e) - ln (1 + e)).
  - field.
  - unfold Rdiv. rewrite ln_mult, ln_Rinv by (try apply Rinv_0_lt_compat; lra). ring.
Qed.

Lemma shape_pole : shape (PI / 2) = 0.5 * (sqrt (Rpower (1 + e) (1 + e) * Rpower (1 - e) (1 - e))).
Proof.
  unfold shape, cf. rewrite sin_PI2, pole_power. replace (1 - e2 * 1 ^ 2) with (1 - e2) by ring.
  replace ((1 - e * 1) / (1 + e * 1)) with ((1 - e) / (1 + e)) by (f_equal; ring).
  assert (0 < Rpower ((1 - e) / (1 + e)) (e / 2)) by (unfold Rpower; apply exp_pos). replace 0.5 with (/ 2) by lra. field. lra.
Qed.
Lemma sf_kp_shape r : 0 < cos r -> 0 <= sin r -> sf_kp f r = shape (PI / 2) / shape r.
Proof.
  intros C2 S2. unfold sf_kp. fold e2. change (sqrt e2) with e. rewrite shape_pole.
  pose proof (m_over_t r C2 S2) as B. pose proof (shape_pos r S2). pose proof (sf_t_pos r C2 S2).
  transitivity (0.5 * sqrt (Rpower (1 + e) (1 + e) * Rpower (1 - e) (1 - e)) * (sf_m e2 r / sf_t e r)); [field; lra | now rewrite B].
Qed.

Lemma d_ext g h x l : (forall y, g y = h y) -> derivable_pt_lim g x l -> derivable_pt_lim h x l.
Proof. intros H D eps He. destruct (D eps He) as [d Hd]. exists d. intros k. rewrite <- !H. apply Hd. Qed.

Lemma d_conf t : derivable_pt_lim (fun x => exp (- (e / 2) * (ln (1 - e * sin x) - ln (1 + e * sin x)))) t
  (exp (- (e / 2) * (ln (1 - e * sin t) - ln (1 + e * sin t))) * (e2 * cos t / (1 - e2 * sin t ^ 2))).
Proof.
  pose proof (es_range t) as Hr. pose proof (ws_pos t) as Hw.
  apply (derivable_pt_lim_comp (fun x => - (e / 2) * (ln (1 - e * sin x) - ln (1 + e * sin x))) exp); [|apply derivable_pt_lim_exp].
  replace (e2 * cos t / (1 - e2 * sin t ^ 2)) with (- (e / 2) * (/ (1 - e * sin t) * (0 - e * cos t) - / (1 + e * sin t) * (0 + e * cos t))).
  - apply (derivable_pt_lim_scal (fun x => ln (1 - e * sin x) - ln (1 + e * sin x))).
    apply (derivable_pt_lim_minus (fun x => ln (1 - e * sin x)) (fun x => ln (1 + e * sin x))).
    + apply (derivable_pt_lim_comp (fun x => 1 - e * sin x) ln); [|apply derivable_pt_lim_ln; lra].
      apply (derivable_pt_lim_minus (fun _ => 1) (fun x => e * sin x)); [apply derivable_pt_lim_const|].
      apply (derivable_pt_lim_scal sin). apply derivable_pt_lim_sin.
    + apply (derivable_pt_lim_comp (fun x => 1 + e * sin x) ln); [|apply derivable_pt_lim_ln; lra].
      apply (derivable_pt_lim_plus (fun _ => 1) (fun x => e * sin x)); [apply derivable_pt_lim_const|].
      apply (derivable_pt_lim_scal sin). apply derivable_pt_lim_sin.
  - rewrite <- e_sq in *. field. repeat split; nra.
Qed.
Lemma d_quot t : -1 < sin t -> derivable_pt_lim (fun x => cos x / (1 + sin x)) t (- / (1 + sin t)).
Proof.
  intros Hs.
  replace (- / (1 + sin t)) with ((- sin t * (1 + sin t) - (0 + cos t) * cos t) / (1 + sin t) ^ 2).
  - rewrite <- Rsqr_pow2. apply (derivable_pt_lim_div cos (fun x => 1 + sin x)); [apply derivable_pt_lim_cos| |lra].
    apply (derivable_pt_lim_plus (fun _ => 1) sin); [apply derivable_pt_lim_const | apply derivable_pt_lim_sin].
  - replace (- sin t * (1 + sin t) - (0 + cos t) * cos t) with (- (1 + sin t)) by (pose proof (sq_cos t); lra). field. lra.
Qed.
Lemma cf_exp t : / cf t = exp (- (e / 2) * (ln (1 - e * sin t) - ln (1 + e * sin t))).
Proof.
  pose proof (es_range t). unfold cf, Rpower. rewrite <- exp_Ropp. f_equal.
  replace (ln ((1 - e * sin t) / (1 + e * sin t))) with (ln (1 - e * sin t) - ln (1 + e * sin t)).
  - field.
  - unfold Rdiv. rewrite ln_mult, ln_Rinv by (try apply Rinv_0_lt_compat; lra). ring.
Qed.
Lemma shape_conf t : -1 < sin t -> shape t * (cos t / sqrt (1 - e2 * sin t ^ 2)) = cos t / (1 + sin t) * / cf t.
Proof. intros H. unfold shape. pose proof (cf_pos t). pose proof (sqrt_lt_R0 _ (ws_pos t)). field. repeat split; lra. Qed.

Lemma shape_derivable t : -1 < sin t -> derivable_pt_lim (fun x => cos x / (1 + sin x) * / cf x) t
   (- (shape t * ((1 - e2) / (sqrt (1 - e2 * sin t ^ 2)) ^ 3))).
Proof.
  intros Hs. pose proof (ws_pos t) as Hw. pose proof (sqrt_lt_R0 _ Hw) as Hq.
  apply (d_ext (fun x => cos x / (1 + sin x) * exp (- (e / 2) * (ln (1 - e * sin x) - ln (1 + e * sin x))))).
  { intros y. now rewrite cf_exp. }
  replace (- (shape t * ((1 - e2) / (sqrt (1 - e2 * sin t ^ 2)) ^ 3)))
    with (- / (1 + sin t) * / cf t + cos t / (1 + sin t) * (/ cf t * (e2 * cos t / (1 - e2 * sin t ^ 2)))).
  - rewrite cf_exp. apply (derivable_pt_lim_mult (fun x => cos x / (1 + sin x)) (fun x => exp (- (e / 2) * (ln (1 - e * sin x) - ln (1 + e * sin x))))).
    + now apply d_quot.
    + apply d_conf.
  - unfold shape. pose proof (cf_pos t) as Hc.
    replace (sqrt (1 - e2 * sin t ^ 2) / ((1 + sin t) * cf t) * ((1 - e2) / sqrt (1 - e2 * sin t ^ 2) ^ 3))
      with ((1 - e2) / ((1 + sin t) * cf t * (sqrt (1 - e2 * sin t ^ 2) * sqrt (1 - e2 * sin t ^ 2)))) by (field; repeat split; lra).
    rewrite sqrt_sqrt by lra.
    replace (1 - e2) with (1 - e2 * sin t ^ 2 - e2 * (cos t * cos t)) by (rewrite sq_cos; ring). field. repeat split; lra.
Qed.
End Scale.

Lemma cos_abs_pos x : Rabs x < 90 -> 0 < cos (rad (Rabs x)) /\ 0 <= sin (rad (Rabs x)).
Proof.
  intros H. pose proof (Rabs_pos x). split.
  - apply cos_lat_pos. lra.
  - apply sin_ge_0; unfold rad; pose proof PI_RGT_0; nra.
Qed.
Lemma rad_abs x : Rabs x * PI / 180 = rad (Rabs x).
Proof. unfold rad. field. Qed.
Lemma not_near_pole x : Rabs x <= 89.999 -> near_pole (rad (Rabs x)) = false.
Proof.
  intros H. unfold near_pole. apply rle_f. pose proof PI2_1.
  rewrite Rabs_minus_sym, Rabs_pos_eq; unfold rad; nra.
Qed.
Lemma in_near_pole x : 89.9991 <= Rabs x <= 90 -> near_pole (rad (Rabs x)) = true.
Proof.
  intros H. unfold near_pole. apply rle_t. pose proof PI2_1.
  rewrite Rabs_minus_sym, Rabs_pos_eq; unfold rad; nra.
Qed.

(** The scale factors are the reciprocals of the distortion [k] of the conformal polar
    projection that is true at the reference latitude: with [k], the radius of the
    mapped parallel changes with latitude by exactly [k] times the meridian arc (the
    projection stretches by [k] in both directions), and [k] is 1 at the reference
    latitude.  These two facts determine [k].  The value used at the pole is the limit
    of [k] there. *)
Theorem C23_conformal f ref : 0 <= f < 1 -> Rabs ref < 90 ->
  exists k : R -> R,
    (forall lat, Rabs lat <= 89.999 ->
       scale_factors f ref "distance" lat = Ok (1 / k (rad (Rabs lat)))
       /\ scale_factors f ref "area" lat = Ok (1 / k (rad (Rabs lat)) ^ 2))
    /\ (forall lat, 89.9991 <= Rabs lat <= 90 ->
       scale_factors f ref "distance" lat = Ok (1 / k (PI / 2))
       /\ scale_factors f ref "area" lat = Ok (1 / k (PI / 2) ^ 2))
    /\ k (rad (Rabs ref)) = 1
    /\ (forall t, 0 <= t <= PI / 2 -> 0 < k t)
    /\ (forall t, 0 <= t <= PI / 2 ->
          derivable_pt_lim (fun x => k x * parallel_radius f x) t (- (k t * meridian_radius f t)))
    /\ continuity_pt k (PI / 2).
Proof.
  intros Hf Hr. destruct (cos_abs_pos _ Hr) as [Cr Sr].
  assert (Spos : forall t, 0 <= t <= PI / 2 -> 0 <= sin t) by (intros t Ht; apply sin_ge_0; lra).
  pose proof (shape_pos f Hf _ Sr) as Pr.
  exists (fun t => shape f t / shape f (rad (Rabs ref))). repeat split.
  - unfold scale_factors, parse_metric. change (lower "distance") with "distance"%string. cbn [String.eqb Ascii.eqb Bool.eqb bind].
    rewrite !rad_abs, (not_near_pole _ H).
    assert (A : Rabs lat < 90) by lra. destruct (cos_abs_pos _ A). rewrite sf_k_shape; auto.
  - unfold scale_factors, parse_metric. change (lower "area") with "area"%string. cbn [String.eqb Ascii.eqb Bool.eqb bind].
    rewrite !rad_abs, (not_near_pole _ H).
    assert (A : Rabs lat < 90) by lra. destruct (cos_abs_pos _ A). rewrite sf_k_shape; auto.
  - unfold scale_factors, parse_metric. change (lower "distance") with "distance"%string. cbn [String.eqb Ascii.eqb Bool.eqb bind].
    rewrite !rad_abs, (in_near_pole _ H). rewrite sf_kp_shape; auto.
  - unfold scale_factors, parse_metric. change (lower "area") with "area"%string. cbn [String.eqb Ascii.eqb Bool.eqb bind].
    rewrite !rad_abs, (in_near_pole _ H). rewrite sf_kp_shape; auto.
  - field. lra.
  - intros t Ht. pose proof (shape_pos f Hf t (Spos t Ht)). apply Rdiv_lt_0_compat; auto.
  - intros t Ht. set (c := / shape f (rad (Rabs ref))).
    assert (St : -1 < sin t) by (pose proof (Spos t Ht); lra).
    replace (- (shape f t / shape f (rad (Rabs ref)) * meridian_radius f t)) with (c * - (shape f t * meridian_radius f t))
      by (unfold c, Rdiv; ring).
    assert (D : derivable_pt_lim (fun x => c * (cos x / (1 + sin x) * / cf f x)) t (c * - (shape f t * meridian_radius f t))).
    { apply (derivable_pt_lim_scal (fun x => cos x / (1 + sin x) * / cf f x)). apply shape_derivable; auto. }
    (* the two functions agree near t *)
    assert (Near : exists d : posreal, forall h, Rabs h < d -> -1 < sin (t + h)).
    { destruct (derivable_continuous_pt _ _ (derivable_pt_sin t) (1 + sin t) ltac:(lra)) as [d [Hd Hc]].
      exists (mkposreal d Hd). intros h Hh. cbn [pos] in Hh. destruct (Req_dec h 0) as [->|Hn]; [now rewrite Rplus_0_r|].
      specialize (Hc (t + h)). cbn in Hc. unfold R_dist in Hc.
      assert (X : Rabs (sin (t + h) - sin t) < 1 + sin t).
      { apply Hc. split; [split; [exact I|]|]; [lra | now replace (t + h - t) with h by ring]. }
      apply Rabs_def2 in X. lra. }
    destruct Near as [d0 Hd0]. intros eps He. destruct (D eps He) as [d1 Hd1].
    assert (Hm : 0 < Rmin d0 d1) by (apply Rmin_pos; apply cond_pos).
    exists (mkposreal _ Hm). intros h Hn Hh. cbn [pos] in Hh.
    assert (Rabs h < d0) by (pose proof (Rmin_l d0 d1); lra). assert (Rabs h < d1) by (pose proof (Rmin_r d0 d1); lra).
    assert (Eq : forall x, -1 < sin x -> shape f x / shape f (rad (Rabs ref)) * parallel_radius f x = c * (cos x / (1 + sin x) * / cf f x)).
    { intros x Hx. pose proof (shape_conf f Hf x Hx) as X. cbv zeta in X. rewrite <- X. 
      change (cos x / sqrt (1 - (2 * f - f ^ 2) * sin x ^ 2)) with (parallel_radius f x). unfold c. unfold Rdiv. ring. }
    rewrite !Eq by auto. now apply Hd1.
  - (* continuity at the pole *)
    assert (S1 : sin (PI / 2) = 1) by apply sin_PI2.
    assert (Cs : continuity sin) by apply continuity_sin.
    unfold shape.
    apply (continuity_pt_mult (fun t => sqrt (1 - (2 * f - f ^ 2) * sin t ^ 2) / ((1 + sin t) * cf f t)) (fun _ => / shape f (rad (Rabs ref)))).
    2: { apply continuity_pt_const. intros x y. reflexivity. }
    apply (continuity_pt_div (fun t => sqrt (1 - (2 * f - f ^ 2) * sin t ^ 2)) (fun t => (1 + sin t) * cf f t)).
    + apply (continuity_pt_comp (fun t => 1 - (2 * f - f ^ 2) * sin t ^ 2) sqrt).
      * apply derivable_continuous_pt. reg.
      * apply continuity_pt_sqrt. left. apply ws_pos; auto.
    + apply (continuity_pt_mult (fun t => 1 + sin t) (cf f)).
      * apply derivable_continuous_pt. reg.
      * unfold cf, Rpower.
        assert (Dd : derivable_pt (fun t => exp (ecc_of f / 2 * ln ((1 - ecc_of f * sin t) / (1 + ecc_of f * sin t)))) (PI / 2)).
        { pose proof (es_range f Hf (PI / 2)) as Hes.
          apply (derivable_pt_comp (fun t => ecc_of f / 2 * ln ((1 - ecc_of f * sin t) / (1 + ecc_of f * sin t))) exp); [|apply derivable_pt_exp].
          apply (derivable_pt_scal (fun t => ln ((1 - ecc_of f * sin t) / (1 + ecc_of f * sin t)))).
          apply (derivable_pt_comp (fun t => (1 - ecc_of f * sin t) / (1 + ecc_of f * sin t)) ln).
          - apply (derivable_pt_div (fun t => 1 - ecc_of f * sin t) (fun t => 1 + ecc_of f * sin t)); [reg | reg | lra].
          - exists (/ ((1 - ecc_of f * sin (PI / 2)) / (1 + ecc_of f * sin (PI / 2)))). apply derivable_pt_lim_ln. apply Rdiv_lt_0_compat; lra. }
        now apply derivable_continuous_pt.
    + pose proof (cf_pos f (PI / 2)). rewrite S1. apply Rgt_not_eq. apply Rmult_lt_0_compat; lra.
Qed.
Print Assumptions C23_conformal.

(** True scale at the reference latitude. *)
Theorem C23_reference f ref : 0 <= f < 1 -> Rabs ref <= 89.999 ->
  scale_factors f ref "distance" ref = Ok 1 /\ scale_factors f ref "area" ref = Ok 1.
Proof.
  intros Hf Hr. assert (Hr2 : Rabs ref < 90) by lra.
  destruct (C23_conformal f ref Hf Hr2) as (k & K1 & _ & K3 & _).
  destruct (K1 ref Hr) as [A B]. rewrite A, B, K3. split; f_equal; field.
Qed.
Print Assumptions C23_reference.

Lemma band_split lat : Rabs lat <= 90 -> near_pole (rad (Rabs lat)) = true \/ near_pole (rad (Rabs lat)) = false /\ Rabs lat < 90.
Proof.
  intros H. destruct (near_pole (rad (Rabs lat))) eqn:E; [now left|right; split; auto].
  destruct (Rlt_le_dec (Rabs lat) 90); auto. rewrite in_near_pole in E by lra. discriminate.
Qed.

(** Every factor is positive. *)
Theorem C23_positive f ref metric lat r : 0 <= f < 1 -> Rabs ref < 90 -> Rabs lat <= 90 ->
  scale_factors f ref metric lat = Ok r -> 0 < r.
Proof.
  intros Hf Hr Hl. unfold scale_factors. destruct (parse_metric metric) as [m|]; cbn [bind]; [|discriminate].
  intros <-%Ok_inj. rewrite !rad_abs. destruct (cos_abs_pos _ Hr) as [Cr Sr].
  pose proof (shape_pos f Hf _ Sr) as Pr.
  assert (P1 : 0 < sf_kp f (rad (Rabs ref))).
  { rewrite sf_kp_shape by auto. apply Rdiv_lt_0_compat; auto. apply shape_pos; auto. rewrite sin_PI2. lra. }
  destruct (band_split lat Hl) as [-> | [-> Hl2]].
  - destruct m; apply Rdiv_lt_0_compat; try lra. apply pow_lt; auto.
  - destruct (cos_abs_pos _ Hl2) as [Cl Sl].
    assert (P2 : 0 < sf_k f (rad (Rabs lat)) (rad (Rabs ref))).
    { rewrite sf_k_shape by auto. apply Rdiv_lt_0_compat; auto. apply shape_pos; auto. }
    destruct m; apply Rdiv_lt_0_compat; try lra. apply pow_lt; auto.
Qed.
Print Assumptions C23_positive.

(** Both hemispheres alike, for the latitude and for the reference. *)
Theorem C23_even f ref metric lat :
  scale_factors f ref metric (- lat) = scale_factors f ref metric lat
  /\ scale_factors f (- ref) metric lat = scale_factors f ref metric lat.
Proof. unfold scale_factors. now rewrite !Rabs_Ropp. Qed.
Print Assumptions C23_even.

(** Areas scale with the square of distances. *)
Theorem C23_area f ref lat d : 0 <= f < 1 -> Rabs ref < 90 -> Rabs lat <= 90 ->
  scale_factors f ref "distance" lat = Ok d -> scale_factors f ref "area" lat = Ok (d * d).
Proof.
  intros Hf Hr Hl H. pose proof (C23_positive _ _ _ _ _ Hf Hr Hl H) as P. revert H.
  unfold scale_factors, parse_metric. change (lower "distance") with "distance"%string. change (lower "area") with "area"%string.
  cbn [String.eqb Ascii.eqb Bool.eqb bind].
  intros H. apply Ok_inj in H. subst d. f_equal. rewrite !rad_abs in *. destruct (cos_abs_pos _ Hr) as [Cr Sr].
  pose proof (shape_pos f Hf _ Sr) as Pr.
  assert (P1 : 0 < sf_kp f (rad (Rabs ref))).
  { rewrite sf_kp_shape by auto. apply Rdiv_lt_0_compat; auto. apply shape_pos; auto. rewrite sin_PI2. lra. }
  destruct (band_split lat Hl) as [E | [E Hl2]]; rewrite E.
  - field. lra.
  - destruct (cos_abs_pos _ Hl2) as [Cl Sl].
    assert (P2 : 0 < sf_k f (rad (Rabs lat)) (rad (Rabs ref))).
    { rewrite sf_k_shape by auto. apply Rdiv_lt_0_compat; auto. apply shape_pos; auto. }
    field. lra.
Qed.
Print Assumptions C23_area.

(** Unknown metrics are rejected, names are matched in any case. *)
Theorem C23_metric f ref metric lat :
  (lower metric <> "distance"%string -> lower metric <> "area"%string -> scale_factors f ref metric lat = Err AssertionError)
  /\ (lower metric = "distance"%string -> scale_factors f ref metric lat = scale_factors f ref "distance" lat)
  /\ (lower metric = "area"%string -> scale_factors f ref metric lat = scale_factors f ref "area" lat).
Proof.
  unfold scale_factors, parse_metric. repeat split.
  - intros H1 H2. apply String.eqb_neq in H1, H2. now rewrite H1, H2.
  - now intros ->.
  - now intros ->.
Qed.
Print Assumptions C23_metric.

Example C23_case : scale_factors (1 / 298.257223563) 70 "area" (-70) = Ok 1
  /\ scale_factors (1 / 298.257223563) 70 "Area" (-70) = Ok 1
  /\ scale_factors (1 / 298.257223563) 70 "volume" 70 = Err AssertionError.
Proof.
  assert (A : Rabs 70 <= 89.999) by (rewrite Rabs_pos_eq; lra).
  replace (-70) with (Ropp 70) by lra.
  repeat split.
  - rewrite (proj1 (C23_even _ _ _ _)). apply C23_reference; [lra | exact A].
  - rewrite (proj2 (proj2 (C23_metric _ _ "Area" _))) by reflexivity.
    rewrite (proj1 (C23_even _ _ _ _)). apply C23_reference; [lra | exact A].
Qed.
