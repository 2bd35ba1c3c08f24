(** The terms of the solid earth tide as elastic fields. *)
From Coq Require Import Reals Lra Lia String List Bool ZArith.
From Verif Require Import PyBase RBase StrBase MathModel AstroModel EarthModel EarthSpec EarthProofs.
Import ListNotations.
Open Scope R_scope.

Definition deg2_vec (h2 l2 F : R) (p b : vec) : vec := Vec (set_deg2 h2 l2 F p b vx) (set_deg2 h2 l2 F p b vy) (set_deg2 h2 l2 F p b vz).
Definition deg3_vec (h3 l3 F : R) (p b : vec) : vec := Vec (set_deg3 h3 l3 F p b vx) (set_deg3 h3 l3 F p b vy) (set_deg3 h3 l3 F p b vz).

Lemma scalar_cosang p b : set_scalar p b = cosang p b.
Proof. unfold set_scalar, cosang. rewrite !radius_norm. reflexivity. Qed.

Lemma cosang_dot p b : 0 < dotv p p -> 0 < dotv b b -> dotv b p = cosang p b * (norm p * norm b).
Proof.
  intros P B. apply norm_pos in P, B. unfold cosang. replace (dotv b p) with (dotv p b) by (unfold dotv; ring). field. lra.
Qed.

Lemma deg2_field h2 l2 F p b : 0 < dotv p p -> 0 < dotv b b ->
  field (h2 * (F * P2 (cosang p b))) (fun y => l2 * (F * P2 (cosang y b))) p (deg2_vec h2 l2 F p b).
Proof.
  intros P B. pose proof (norm_pos p P) as Np. pose proof (norm_pos b B) as Nb.
  set (c := cosang p b).
  apply field_of_grad with (G := vscale (l2 * F * 3 * c / (norm p * norm b)) b)
     (al := F * (3 * (h2 / 2 - l2) * c ^ 2 - h2 / 2) / norm p); [exact P| | |].
  - intros d Hd. pose proof (scal_lim l2 _ _ (scal_lim F _ _ (P2_lim _ _ (cosang_lim p d b P B Hd)))) as L.
    cbv beta in L. rewrite shift_0 in L. fold c in L.
    replace (dotv (vscale (l2 * F * 3 * c / (norm p * norm b)) b) d) with (l2 * (F * (3 * c * (dotv d b / (norm p * norm b))))); [exact L|].
    unfold vscale, dotv; cbn [vx vy vz]. field. lra.
  - unfold deg2_vec, set_deg2, vadd, vscale; cbn [vx vy vz]. rewrite scalar_cosang, !radius_norm. fold c.
    f_equal; field; lra.
  - replace (dotv (deg2_vec h2 l2 F p b) p) with
      (F * (3 * l2 * c / norm b * dotv b p + (3 * (h2 / 2 - l2) * c ^ 2 - h2 / 2) / norm p * dotv p p)).
    + rewrite (cosang_dot p b P B), <- (norm_sq p). fold c. unfold P2. field. lra.
    + unfold deg2_vec, set_deg2; rewrite scalar_cosang, !radius_norm; fold c; clearbody c; unfold dotv; cbn [vx vy vz]; field; lra.
Qed.

Lemma deg3_field h3 l3 F p b : 0 < dotv p p -> 0 < dotv b b ->
  field (h3 * (F * P3 (cosang p b))) (fun y => l3 * (F * P3 (cosang y b))) p (deg3_vec h3 l3 F p b).
Proof.
  intros P B. pose proof (norm_pos p P) as Np. pose proof (norm_pos b B) as Nb.
  set (c := cosang p b).
  apply field_of_grad with (G := vscale (l3 * F * ((15 * c ^ 2 - 3) / 2) / (norm p * norm b)) b)
     (al := F * (5 / 2 * (h3 - 3 * l3) * c ^ 3 + 3 / 2 * (l3 - h3) * c) / norm p); [exact P| | |].
  - intros d Hd. pose proof (scal_lim l3 _ _ (scal_lim F _ _ (P3_lim _ _ (cosang_lim p d b P B Hd)))) as L.
    cbv beta in L. rewrite shift_0 in L. fold c in L.
    replace (dotv (vscale (l3 * F * ((15 * c ^ 2 - 3) / 2) / (norm p * norm b)) b) d)
      with (l3 * (F * ((15 * c ^ 2 - 3) / 2 * (dotv d b / (norm p * norm b))))); [exact L|].
    unfold vscale, dotv; cbn [vx vy vz]. field. lra.
  - unfold deg3_vec, set_deg3, vadd, vscale; cbn [vx vy vz]. rewrite scalar_cosang, !radius_norm. fold c.
    f_equal; field; lra.
  - replace (dotv (deg3_vec h3 l3 F p b) p) with
      (F * (3 * l3 / 2 * (5 * c ^ 2 - 1) / norm b * dotv b p + (5 / 2 * (h3 - 3 * l3) * c ^ 3 + 3 / 2 * (l3 - h3) * c) / norm p * dotv p p)).
    + rewrite (cosang_dot p b P B), <- (norm_sq p). fold c. unfold P3. field. lra.
    + unfold deg3_vec, set_deg3; rewrite scalar_cosang, !radius_norm; fold c; clearbody c; unfold dotv; cbn [vx vy vz]; field; lra.
Qed.

Lemma F2_eq mass a b : 0 < dotv b b -> set_F2 mass a b = mass * a ^ 4 / norm b ^ 3.
Proof. intros B. apply norm_pos in B. unfold set_F2. rewrite radius_norm. field. lra. Qed.
Lemma F3_eq mass a b : 0 < dotv b b -> set_F3 mass a b = mass * a ^ 5 / norm b ^ 4.
Proof. intros B. apply norm_pos in B. unfold set_F3. rewrite radius_norm. field. lra. Qed.

Lemma h2_eq lv p : off_axis p -> set_h2 lv p = love_h (lv_h2 lv) (sinlat p) /\ set_l2 lv p = love_l (lv_l2 lv) (sinlat p).
Proof.
  intros O. pose proof (r_pos p O) as Hr.
  assert (E : 1 - 3 / 2 * cosphi p ^ 2 = P2 (sinlat p)).
  { rewrite l_cosphi. unfold P2, sinlat.
    replace ((rho p / norm p) ^ 2) with (rho p ^ 2 / norm p ^ 2) by (field; lra).
    assert (Q : rho p ^ 2 = norm p ^ 2 - vz p ^ 2) by (rewrite norm_rho; ring). rewrite Q. field. lra. }
  unfold set_h2, set_l2, love_h, love_l. rewrite E. split; reflexivity.
Qed.

(** ** Diurnal and semidiurnal parts *)
Lemma tang_quot (Q : vec -> R) p H : 0 < dotv p p ->
  (forall d, derivable_pt_lim (fun s => Q (shift_by p d s)) 0 (dotv H d)) ->
  tang (fun y => Q y / dotv y y) p (vscale (/ dotv p p) H).
Proof.
  intros P D d Hd. replace (dotv (vscale (/ dotv p p) H) d) with (dotv H d / dotv p p)
    by (unfold vscale, dotv; cbn [vx vy vz]; unfold Rdiv; ring).
  apply quot_lim; auto.
Qed.

Lemma tang_scal k W p G : tang W p G -> tang (fun y => k * W y) p (vscale k G).
Proof.
  intros T d Hd. replace (dotv (vscale k G) d) with (k * dotv G d) by (unfold vscale, dotv; cbn; ring). apply scal_lim, T, Hd.
Qed.
Lemma tang_ext W W' p G : tang W p G -> (forall y, W y = W' y) -> tang W' p G.
Proof. intros T E d Hd. apply d_ext0 with (2 := T d Hd). intros s. apply E. Qed.

(** numerators *)
Definition n1 (A B : R) (y : vec) : R := vz y * (vx y * A + vy y * B).
Definition n2 (A B : R) (y : vec) : R := (vx y ^ 2 - vy y ^ 2) * A + 2 * (vx y * vy y) * B.
Lemma n1_lim A B p d : derivable_pt_lim (fun s => n1 A B (shift_by p d s)) 0
  (dotv (Vec (vz p * A) (vz p * B) (vx p * A + vy p * B)) d).
Proof.
  set (c1 := dotv _ d).
  apply d_ext0 with (2 := poly_lim (n1 A B p) c1 (vz d * (vx d * A + vy d * B)) 0).
  intros s. unfold n1, shift_by, c1, dotv; cbn [vx vy vz]. ring.
Qed.
Lemma n2_lim A B p d : derivable_pt_lim (fun s => n2 A B (shift_by p d s)) 0
  (dotv (Vec (2 * vx p * A + 2 * vy p * B) (- 2 * vy p * A + 2 * vx p * B) 0) d).
Proof.
  set (c1 := dotv _ d).
  apply d_ext0 with (2 := poly_lim (n2 A B p) c1 (n2 A B d) 0).
  intros s. unfold n2, shift_by, c1, dotv; cbn [vx vy vz]. ring.
Qed.

Lemma turned_quarter b : turned (- (PI / 2)) b = Vec (vy b) (- vx b) (vz b).
Proof. unfold turned. rewrite cos_neg, sin_neg, cos_PI2, sin_PI2. f_equal; ring. Qed.
Lemma norm_turned al b : norm (turned al b) = norm b.
Proof.
  unfold norm. f_equal. unfold dotv, turned; cbn [vx vy vz]. pose proof (sin2_cos2 al) as E. unfold Rsqr in E.
  replace ((vx b * cos al - vy b * sin al) * (vx b * cos al - vy b * sin al) +
     (vx b * sin al + vy b * cos al) * (vx b * sin al + vy b * cos al) + vz b * vz b)
    with ((vx b * vx b + vy b * vy b) * (sin al * sin al + cos al * cos al) + vz b * vz b) by ring.
  rewrite E. ring.
Qed.
Lemma turned_eighth b : let b' := turned (- (PI / 4)) b in
  vx b' ^ 2 - vy b' ^ 2 = 2 * vx b * vy b /\ 2 * (vx b' * vy b') = - (vx b ^ 2 - vy b ^ 2).
Proof.
  unfold turned; cbn [vx vy vz]. rewrite cos_neg, sin_neg.
  assert (E : cos (PI / 4) * cos (PI / 4) = 1 / 2).
  { rewrite cos_PI4. assert (S2 : sqrt 2 * sqrt 2 = 2) by (apply sqrt_sqrt; lra).
    assert (0 < sqrt 2) by (apply sqrt_lt_R0; lra). unfold Rdiv. rewrite !Rmult_1_l. rewrite <- Rinv_mult. now rewrite S2. }
  assert (SC : sin (PI / 4) = cos (PI / 4)) by (rewrite sin_PI4, cos_PI4; reflexivity). rewrite SC.
  split.
  - replace ((vx b * cos (PI / 4) - vy b * - cos (PI / 4)) ^ 2 - (vx b * - cos (PI / 4) + vy b * cos (PI / 4)) ^ 2)
      with (4 * (vx b * vy b) * (cos (PI / 4) * cos (PI / 4))) by ring. rewrite E. field.
  - replace (2 * ((vx b * cos (PI / 4) - vy b * - cos (PI / 4)) * (vx b * - cos (PI / 4) + vy b * cos (PI / 4))))
      with (- 2 * (vx b ^ 2 - vy b ^ 2) * (cos (PI / 4) * cos (PI / 4))) by ring. rewrite E. field.
Qed.

(** gradients of the out-of-phase potentials *)
Lemma tang_V21 mass a b p : 0 < dotv p p -> 0 < dotv b b ->
  let C := 3 * set_F2 mass a b * vz b / norm b ^ 2 / dotv p p in
  tang (V21 mass a (turned (- (PI / 2)) b)) p
    (vscale C (Vec (vz p * vy b) (- (vz p * vx b)) (vx p * vy b - vy p * vx b))).
Proof.
  intros P B C. pose proof (norm_pos b B) as Nb.
  set (K := 3 * set_F2 mass a b * vz b / norm b ^ 2).
  pose proof (tang_scal K _ _ _ (tang_quot (n1 (vy b) (- vx b)) p _ P (n1_lim (vy b) (- vx b) p))) as T.
  assert (E : vscale K (vscale (/ dotv p p) (Vec (vz p * vy b) (vz p * - vx b) (vx p * vy b + vy p * - vx b))) =
              vscale C (Vec (vz p * vy b) (- (vz p * vx b)) (vx p * vy b - vy p * vx b))).
  { unfold vscale, C; cbn [vx vy vz]. fold K. unfold Rdiv. f_equal; ring. }
  rewrite E in T. apply (tang_ext _ _ _ _ T). intros y.
  unfold V21. rewrite norm_turned, turned_quarter. cbn [vx vy vz]. unfold K, n1. rewrite (F2_eq mass a b B).
  unfold Rdiv.
  replace (/ norm b ^ 5) with (/ norm b ^ 3 * / norm b ^ 2) by (field; lra). ring.
Qed.

Lemma tang_V22 mass a b p : 0 < dotv p p -> 0 < dotv b b ->
  let C := 3 / 4 * set_F2 mass a b / norm b ^ 2 / dotv p p in
  let A := 2 * vx b * vy b in let D := - (vx b ^ 2 - vy b ^ 2) in
  tang (V22 mass a (turned (- (PI / 4)) b)) p
    (vscale C (Vec (2 * vx p * A + 2 * vy p * D) (- 2 * vy p * A + 2 * vx p * D) 0)).
Proof.
  intros P B C A D. pose proof (norm_pos b B) as Nb.
  set (K := 3 / 4 * set_F2 mass a b / norm b ^ 2).
  pose proof (tang_scal K _ _ _ (tang_quot (n2 A D) p _ P (n2_lim A D p))) as T.
  assert (E : vscale K (vscale (/ dotv p p) (Vec (2 * vx p * A + 2 * vy p * D) (- 2 * vy p * A + 2 * vx p * D) 0)) =
              vscale C (Vec (2 * vx p * A + 2 * vy p * D) (- 2 * vy p * A + 2 * vx p * D) 0)).
  { unfold vscale, C; cbn [vx vy vz]. fold K. unfold Rdiv. f_equal; ring. }
  rewrite E in T. apply (tang_ext _ _ _ _ T). intros y.
  unfold V22. rewrite norm_turned. destruct (turned_eighth b) as [E1 E2]. cbv zeta in E1, E2.
  fold A in E1. fold D in E2. set (b' := turned _ b) in *.
  replace ((vx y ^ 2 - vy y ^ 2) * (vx b' ^ 2 - vy b' ^ 2) + 4 * (vx y * vy y) * (vx b' * vy b')) with (n2 A D y).
  2:{ unfold n2. rewrite <- E1, <- E2. ring. }
  unfold K. rewrite (F2_eq mass a b B). clearbody A D.
  unfold Rdiv. replace (/ norm b ^ 5) with (/ norm b ^ 3 * / norm b ^ 2) by (field; lra). ring.
Qed.

Ltac local p O := pose proof (r_pos p O) as Hr; pose proof (q_pos p O) as Hq;
  pose proof (q2 p) as Q2; pose proof (r2 p) as R2.

(** out of phase, one body *)
Definition body_xyz (p : vec) (l : R * R * R) : vec := to_xyz p (fst (fst l)) (snd (fst l)) (snd l).

Lemma off_dot_rho p : dotv p p = norm p ^ 2.
Proof. rewrite <- norm_sq. ring. Qed.

Lemma oopd_field mass a p b : off_axis p -> 0 < dotv b b ->
  field (-0.0025 * V21 mass a (turned (- (PI / 2)) b) p) (fun y => -0.0007 * V21 mass a (turned (- (PI / 2)) b) y) p
    (body_xyz p (oop_diurnal_body p b (set_F2 mass a b))).
Proof.
  intros O B. pose proof (off_axis_dot p O) as P. pose proof (norm_pos b B) as Nb. local p O.
  unfold body_xyz, oop_diurnal_body; cbn [fst snd]. rewrite l_sinphi, l_cosphi, l_sinla, l_cosla by exact O.
  rewrite (radius_norm b).
  assert (U : -0.0025 * V21 mass a (turned (- (PI / 2)) b) p =
     -3 * -0.0025 * (vz p / norm p) * (rho p / norm p) * set_F2 mass a b * vz b * (vx b * (vy p / rho p) - vy b * (vx p / rho p)) / norm b ^ 2).
  { unfold V21. rewrite norm_turned, turned_quarter, off_dot_rho. cbn [vx vy vz]. rewrite (F2_eq mass a b B). field. lra. }
  rewrite U.
  apply field_local with (G := vscale (-0.0007) (vscale (3 * set_F2 mass a b * vz b / norm b ^ 2 / dotv p p)
      (Vec (vz p * vy b) (- (vz p * vx b)) (vx p * vy b - vy p * vx b)))); [exact O| | |].
  - apply tang_scal. apply tang_V21; assumption.
  - unfold vscale; cbn [vx vy vz]. rewrite off_dot_rho. fold (rho p).
    set (F := set_F2 mass a b). unfold dotv; cbn [vx vy vz].
    match goal with |- _ = ?R => replace R with
      (-0.0007 * 3 * F * vz b / norm b ^ 2 / norm p ^ 2 * ((vx p * vy b - vy p * vx b) * (norm p ^ 2 - 2 * vz p ^ 2))) by (field; lra) end.
    match goal with |- ?L = _ => replace L with
      (-0.0007 * 3 * F * vz b / norm b ^ 2 / norm p ^ 2 * ((vx p * vy b - vy p * vx b) * (rho p ^ 2 - vz p ^ 2))) by (field; lra) end.
    rewrite (norm_rho p). unfold Rdiv. ring.
  - unfold vscale; cbn [vx vy vz]. rewrite off_dot_rho.
    set (F := set_F2 mass a b). field. lra.
Qed.

Lemma oops_field mass a p b : off_axis p -> 0 < dotv b b ->
  field (-0.0022 * V22 mass a (turned (- (PI / 4)) b) p) (fun y => -0.0007 * V22 mass a (turned (- (PI / 4)) b) y) p
    (body_xyz p (oop_semidiurnal_body p b (set_F2 mass a b))).
Proof.
  intros O B. pose proof (off_axis_dot p O) as P. pose proof (norm_pos b B) as Nb. local p O.
  unfold body_xyz, oop_semidiurnal_body; cbn [fst snd]. unfold sin2la, cos2la. rewrite l_sinphi, l_cosphi, l_sinla, l_cosla by exact O.
  rewrite (radius_norm b).
  assert (U : -0.0022 * V22 mass a (turned (- (PI / 4)) b) p =
     -3 / 4 * -0.0022 * (rho p / norm p) ^ 2 * set_F2 mass a b *
     ((vx b ^ 2 - vy b ^ 2) * (2 * (vx p / rho p) * (vy p / rho p)) - 2 * vx b * vy b * ((vx p / rho p) ^ 2 - (vy p / rho p) ^ 2)) / norm b ^ 2).
  { unfold V22. rewrite norm_turned, off_dot_rho. destruct (turned_eighth b) as [E1 E2]. cbv zeta in E1, E2.
    set (b' := turned _ b) in *.
    replace ((vx p ^ 2 - vy p ^ 2) * (vx b' ^ 2 - vy b' ^ 2) + 4 * (vx p * vy p) * (vx b' * vy b')) with
      ((vx p ^ 2 - vy p ^ 2) * (2 * vx b * vy b) + 2 * (vx p * vy p) * (- (vx b ^ 2 - vy b ^ 2)))
      by (rewrite <- E1, <- E2; ring).
    rewrite (F2_eq mass a b B). field. lra. }
  rewrite U.
  apply field_local with (G := vscale (-0.0007) (vscale (3 / 4 * set_F2 mass a b / norm b ^ 2 / dotv p p)
      (Vec (2 * vx p * (2 * vx b * vy b) + 2 * vy p * - (vx b ^ 2 - vy b ^ 2)) (- 2 * vy p * (2 * vx b * vy b) + 2 * vx p * - (vx b ^ 2 - vy b ^ 2)) 0)));
    [exact O| | |].
  - apply tang_scal. apply tang_V22; assumption.
  - unfold vscale; cbn [vx vy vz]. rewrite off_dot_rho.
    set (F := set_F2 mass a b). unfold dotv; cbn [vx vy vz]. field. lra.
  - unfold vscale; cbn [vx vy vz]. rewrite off_dot_rho.
    set (F := set_F2 mass a b). field. lra.
Qed.

(** ** Latitude dependence *)
Lemma cross_tangent d p : dotv (cross d p) p = 0.
Proof. unfold cross, dotv; cbn [vx vy vz]. ring. Qed.

Lemma swirl_local W G p DN DE k : off_axis p -> tang W p G ->
  DN * rho p = k * vz p * (vx p * vy G - vy p * vx G) ->
  DE * (rho p * norm p) = - (k * vz p * (norm p ^ 2 * vz G - vz p * dotv G p)) ->
  swirl k W p (to_xyz p 0 DN DE).
Proof.
  intros O T HN HE. local p O. split.
  - rewrite to_xyz_radial by exact O. ring.
  - intros d Hd. exists (dotv G (cross d p)). split; [apply T, cross_tangent|].
    rewrite to_xyz_tangent by (exact O || exact Hd).
    assert (Hd' : vx d * vx p + vy d * vy p = - (vz d * vz p)) by (unfold dotv in Hd; lra).
    apply Rmult_eq_reg_r with (rho p ^ 2 * norm p); [|apply Rgt_not_eq, Rmult_lt_0_compat; [apply pow_lt|]; assumption].
    replace ((DN * (norm p * vz d / rho p) + DE * ((vx p * vy d - vy p * vx d) / rho p)) * (rho p ^ 2 * norm p))
      with (DN * rho p * (norm p ^ 2 * vz d) + DE * (rho p * norm p) * (vx p * vy d - vy p * vx d)) by (field; lra).
    rewrite HN, HE.
    replace (k * (vz p / norm p) * dotv G (cross d p) * (rho p ^ 2 * norm p)) with (k * vz p * (dotv G (cross d p) * rho p ^ 2)) by (field; lra).
    rewrite (norm_rho p). unfold dotv, cross; cbn [vx vy vz].
    assert (K : (rho p ^ 2 + vz p ^ 2) * vz G - vz p * (vx G * vx p + vy G * vy p + vz G * vz p) =
       rho p ^ 2 * vz G - vz p * (vx G * vx p + vy G * vy p)) by ring. rewrite K. clear K HN HE DN DE.
    (* d_z z = -(d_x x + d_y y) *)
    set (g := vx p * vy G - vy p * vx G). set (h := vx G * vx p + vy G * vy p).
    replace (k * vz p * (vx p * vy G - vy p * vx G)) with (k * vz p * g) by reflexivity.
    transitivity (k * vz p * (rho p ^ 2 * (g * vz d - vz G * (vx p * vy d - vy p * vx d)) + vz p * (g * (vz d * vz p) + h * (vx p * vy d - vy p * vx d)))).
    { unfold g, h. ring. }
    replace (vz d * vz p) with (- (vx d * vx p + vy d * vy p)) by lra.
    replace (g * - (vx d * vx p + vy d * vy p) + h * (vx p * vy d - vy p * vx d)) with ((vx p ^ 2 + vy p ^ 2) * (vx G * vy d - vy G * vx d)) by (unfold g, h; ring).
    rewrite <- Q2. unfold g, h. ring.
Qed.

Lemma swirl_plus k W1 W2 u1 u2 p : swirl k W1 p u1 -> swirl k W2 p u2 -> swirl k (fun y => W1 y + W2 y) p (vadd u1 u2).
Proof.
  intros [A1 B1] [A2 B2]. split.
  - replace (dotv (vadd u1 u2) p) with (dotv u1 p + dotv u2 p) by (unfold vadd, dotv; cbn; ring). lra.
  - intros d Hd. destruct (B1 d Hd) as (D1 & L1 & E1), (B2 d Hd) as (D2 & L2 & E2).
    exists (D1 + D2). split; [apply add_lim; assumption|].
    replace (dotv (vadd u1 u2) d) with (dotv u1 d + dotv u2 d) by (unfold vadd, dotv; cbn; ring). rewrite E1, E2. ring.
Qed.

(** north and east offsets of the two bands *)
Definition lat_d (p b : vec) (F : R) : R * R :=
  (- (0.0012) * sinphi p ^ 2 * F * vz b * (vx b * cosla p + vy b * sinla p) / xyz_radius b ^ 2,
   0.0012 * sinphi p * (cosphi p ^ 2 - sinphi p ^ 2) * F * vz b * (vx b * sinla p - vy b * cosla p) / xyz_radius b ^ 2).
Definition lat_s (p b : vec) (F : R) : R * R :=
  let s := (vx b ^ 2 - vy b ^ 2) * sin2la p - 2 * vx b * vy b * cos2la p in
  let c := (vx b ^ 2 - vy b ^ 2) * cos2la p + 2 * vx b * vy b * sin2la p in
  (- (0.0024) / 2 * sinphi p * cosphi p * F * c / xyz_radius b ^ 2,
   - (0.0024) / 2 * sinphi p ^ 2 * cosphi p * F * s / xyz_radius b ^ 2).

Lemma latd_swirl mass a p b : off_axis p -> 0 < dotv b b ->
  swirl 0.0012 (V21 mass a (turned (- (PI / 2)) b)) p
    (to_xyz p 0 (3 * fst (lat_d p b (set_F2 mass a b))) (3 * snd (lat_d p b (set_F2 mass a b)))).
Proof.
  intros O B. pose proof (off_axis_dot p O) as P. pose proof (norm_pos b B) as Nb. local p O.
  unfold lat_d; cbn [fst snd]. rewrite l_sinphi, l_cosphi, l_sinla, l_cosla by exact O. rewrite (radius_norm b).
  apply swirl_local with (G := vscale (3 * set_F2 mass a b * vz b / norm b ^ 2 / dotv p p)
      (Vec (vz p * vy b) (- (vz p * vx b)) (vx p * vy b - vy p * vx b))); [exact O|apply tang_V21; assumption| |].
  - unfold vscale; cbn [vx vy vz]. rewrite off_dot_rho. set (F := set_F2 mass a b). field. lra.
  - unfold vscale; cbn [vx vy vz]. rewrite off_dot_rho. set (F := set_F2 mass a b). unfold dotv; cbn [vx vy vz].
    match goal with |- ?L = ?R => replace R with
      (- (0.0012 * 3 * F * vz p * vz b / norm b ^ 2 / norm p ^ 2 * ((vx p * vy b - vy p * vx b) * (norm p ^ 2 - 2 * vz p ^ 2)))) by (field; lra);
     replace L with
      (- (0.0012 * 3 * F * vz p * vz b / norm b ^ 2 / norm p ^ 2 * ((vx p * vy b - vy p * vx b) * (rho p ^ 2 - vz p ^ 2)))) by (field; lra) end.
    rewrite (norm_rho p). unfold Rdiv. ring.
Qed.

Lemma lats_swirl mass a p b : off_axis p -> 0 < dotv b b ->
  swirl 0.0024 (V22 mass a (turned (- (PI / 4)) b)) p
    (to_xyz p 0 (3 * fst (lat_s p b (set_F2 mass a b))) (3 * snd (lat_s p b (set_F2 mass a b)))).
Proof.
  intros O B. pose proof (off_axis_dot p O) as P. pose proof (norm_pos b B) as Nb. local p O.
  unfold lat_s; cbn [fst snd]. unfold sin2la, cos2la. rewrite l_sinphi, l_cosphi, l_sinla, l_cosla by exact O. rewrite (radius_norm b).
  apply swirl_local with (G := vscale (3 / 4 * set_F2 mass a b / norm b ^ 2 / dotv p p)
      (Vec (2 * vx p * (2 * vx b * vy b) + 2 * vy p * - (vx b ^ 2 - vy b ^ 2)) (- 2 * vy p * (2 * vx b * vy b) + 2 * vx p * - (vx b ^ 2 - vy b ^ 2)) 0));
    [exact O|apply tang_V22; assumption| |].
  - unfold vscale; cbn [vx vy vz]. rewrite off_dot_rho. set (F := set_F2 mass a b). field. lra.
  - unfold vscale; cbn [vx vy vz]. rewrite off_dot_rho. set (F := set_F2 mass a b). unfold dotv; cbn [vx vy vz]. field. lra.
Qed.
