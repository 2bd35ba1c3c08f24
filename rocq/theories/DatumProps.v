(** C24, C25, C59: ellipsoid parameters (crs.py:250-629). *)
From Coq Require Import Reals String Ascii List Bool ZArith Lra Lia.
From Verif Require Import PyBase RBase StrBase DatumModel DatumSpec ScaleSpec GeoProofs.
Import ListNotations.
Open Scope R_scope.

Definition sound (d : datum) : Prop := 0 < d_a d /\ 0 <= d_flat d < 1.

Section Datum.
Variable d : datum.
Hypothesis Hd : sound d.
Let a := d_a d.
Let f := d_flat d.
Lemma fsq_range : 0 <= 2 * d_flat d - d_flat d ^ 2 < 1.
Proof. destruct Hd as [_ [A B]]. split; nra. Qed.
Lemma b_ax_pos : 0 < b_ax d.
Proof. destruct Hd as [A [B C]]. unfold b_ax. apply Rmult_lt_0_compat; lra. Qed.
Lemma ecc_sq : ecc d ^ 2 = (2 * d_flat d - d_flat d ^ 2) * d_a d ^ 2.
Proof.
  unfold ecc. rewrite <- Rsqr_pow2. apply Rsqr_sqrt. pose proof fsq_range. destruct Hd.
  apply Rmult_le_pos; [lra|]. left. apply pow_lt; lra.
Qed.
Lemma ecc_nonneg : 0 <= ecc d.
Proof. unfold ecc. apply sqrt_pos. Qed.
Lemma ecc1_sq' : ecc1 d ^ 2 = 2 * d_flat d - d_flat d ^ 2.
Proof.
  unfold ecc1. destruct Hd. replace ((ecc d / d_a d) ^ 2) with (ecc d ^ 2 / d_a d ^ 2) by (field; lra). rewrite ecc_sq. field. lra.
Qed.
Lemma ecc1_range : 0 <= ecc1 d < 1.
Proof.
  pose proof ecc1_sq'. pose proof fsq_range. assert (0 <= ecc1 d).
  { unfold ecc1. destruct Hd. pose proof ecc_nonneg. unfold Rdiv. apply Rmult_le_pos; auto. left. now apply Rinv_0_lt_compat. }
  split; auto. nra.
Qed.
Lemma ecc2_sq' : ecc2 d ^ 2 = (2 * d_flat d - d_flat d ^ 2) / (1 - d_flat d) ^ 2.
Proof.
  unfold ecc2. pose proof b_ax_pos. destruct Hd as [? [? ?]]. replace ((ecc d / b_ax d) ^ 2) with (ecc d ^ 2 / b_ax d ^ 2) by (field; lra).
  rewrite ecc_sq. unfold b_ax. field. lra.
Qed.
End Datum.

(** The ellipsoid identities, for every datum with a positive axis and a flattening
    in [0,1). *)
Theorem C24_identities d : sound d ->
  b_ax d = (1 - d_flat d) * d_a d
  /\ ratio d = b_ax d / d_a d
  /\ d_a d ^ 2 - b_ax d ^ 2 = ecc d ^ 2
  /\ ecc1 d ^ 2 = ecc d ^ 2 / d_a d ^ 2
  /\ ecc2 d ^ 2 = ecc d ^ 2 / b_ax d ^ 2
  /\ ecc2 d ^ 2 = ecc1 d ^ 2 / (1 - ecc1 d ^ 2)
  /\ 1 - ecc1 d ^ 2 = (1 - d_flat d) ^ 2
  /\ rad_p d = d_a d ^ 2 / b_ax d
  /\ 0 <= ecc d /\ 0 <= ecc1 d < 1.
Proof.
  intros H. pose proof (b_ax_pos d H) as Hb. pose proof (ecc_sq d H) as E. pose proof (ecc1_sq' d H) as E1. pose proof (ecc2_sq' d H) as E2.
  pose proof (ecc1_range d H). pose proof (ecc_nonneg d) as En. destruct H as [Ha [F1 F2]].
  repeat split; try (unfold b_ax in *; lra).
  - unfold ratio, b_ax. field. lra.
  - unfold ecc1. field. lra.
  - unfold ecc2. field. lra.
  - rewrite E2, E1. field. split; nra.
  - unfold rad_p, b_ax. field. lra.
Qed.
Print Assumptions C24_identities.

(** The polar radius is the curvature of the meridian at the pole. *)
Theorem C24_polar_curvature d : sound d -> rad_p d = d_a d * meridian_radius (d_flat d) (PI / 2).
Proof.
  intros [Ha [F1 F2]]. unfold rad_p, meridian_radius. rewrite sin_PI2.
  replace (1 - (2 * d_flat d - d_flat d ^ 2) * 1 ^ 2) with ((1 - d_flat d) * (1 - d_flat d)) by ring.
  rewrite sqrt_square by lra. field. lra.
Qed.
Print Assumptions C24_polar_curvature.

(** Volume of the spheroid, and of the sphere of radius rad_e. *)
Theorem C24_volume d : sound d ->
  volume d = 4 / 3 * PI * d_a d ^ 2 * b_ax d /\ volume d = 4 / 3 * PI * rad_e d ^ 3 /\ b_ax d <= rad_e d <= d_a d.
Proof.
  intros H. pose proof (ecc1_sq' d H) as E1. destruct H as [Ha [F1 F2]].
  assert (Vh : Rpower (1 - ecc1 d ^ 2) 0.5 = 1 - d_flat d).
  { rewrite E1. replace 0.5 with (/ 2) by lra. rewrite Rpower_sqrt by nra.
    replace (1 - (2 * d_flat d - d_flat d ^ 2)) with ((1 - d_flat d) * (1 - d_flat d)) by ring. apply sqrt_square. lra. }
  assert (Cb : Rpower (1 - d_flat d) (1 / 3) ^ 3 = 1 - d_flat d).
  { rewrite <- Rpower_pow by (unfold Rpower; apply exp_pos). rewrite Rpower_mult. replace (1 / 3 * INR 3) with 1 by (cbn; lra). apply Rpower_1. lra. }
  repeat split.
  - unfold volume. rewrite Vh. unfold b_ax. field.
  - unfold volume. rewrite Vh. unfold rad_e. rewrite Rpow_mult_distr, Cb. field.
  - unfold b_ax, rad_e. rewrite Rmult_comm. apply Rmult_le_compat_l; [lra|].
    set (r := Rpower (1 - d_flat d) (1 / 3)) in *. assert (0 < r) by (unfold r, Rpower; apply exp_pos).
    assert (r <= 1) by (destruct (Rle_dec r 1); auto; exfalso; assert (1 < r * r) by nra; assert (1 < r ^ 3) by nra; lra).
    assert (r * r <= 1) by nra. rewrite <- Cb. nra.
  - unfold rad_e. rewrite <- (Rmult_1_r (d_a d)) at 2. apply Rmult_le_compat_l; [lra|].
    set (r := Rpower (1 - d_flat d) (1 / 3)) in *. assert (0 < r) by (unfold r, Rpower; apply exp_pos).
    destruct (Rle_dec r 1); auto; exfalso; assert (1 < r * r) by nra; assert (1 < r ^ 3) by nra; lra.
Qed.
Print Assumptions C24_volume.

(** The surface area: the area of the zone from the south pole to latitude t has
    derivative (circumference of the parallel) x (radius of the meridian). *)
Theorem C24_area d : sound d -> 0 < d_flat d ->
  exists zone : R -> R, zone (- (PI / 2)) = 0 /\ zone (PI / 2) = area d /\
    forall t, derivable_pt_lim zone t (2 * PI * (d_a d * parallel_radius (d_flat d) t) * (d_a d * meridian_radius (d_flat d) t)).
Proof.
  intros H Hf. pose proof (ecc1_sq' d H) as E1. pose proof (ecc1_range d H) as R1. pose proof (fsq_range d H) as Fr.
  assert (Fp : 0 < 2 * d_flat d - d_flat d ^ 2) by (destruct H as [? [? ?]]; nra).
  assert (e0 : ecc1 d <> 0) by (intros Z; rewrite Z in E1; lra).
  destruct H as [Ha [F1 F2]]. set (e := ecc1 d) in *. set (a := d_a d) in *.
  set (g := fun s => s / (2 * (1 - e ^ 2 * s ^ 2)) + / (4 * e) * (ln (1 + e * s) - ln (1 - e * s))).
  exists (fun t => 2 * PI * (a ^ 2 * (1 - e ^ 2)) * (g (sin t) - g (-1))).
  assert (Odd : g (-1) = - g 1).
  { unfold g. replace (e * -1) with (- (e * 1)) by ring. replace (1 - - (e * 1)) with (1 + e * 1) by ring.
    replace (1 + - (e * 1)) with (1 - e * 1) by ring. field. split; nra. }
  split; [|split].
  - rewrite sin_neg, sin_PI2. replace (Ropp 1) with (-1) by lra. ring.
  - rewrite sin_PI2, Odd. unfold area. fold e a.
    replace (ln ((1 + e) / (1 - e))) with (ln (1 + e) - ln (1 - e)).
    + unfold g. rewrite !Rmult_1_r. field. split; nra.
    + unfold Rdiv. rewrite ln_mult, ln_Rinv by (try apply Rinv_0_lt_compat; lra). ring.
  - intros t.
    assert (Es : -1 < e * sin t < 1) by (pose proof (SIN_bound t); split; nra).
    assert (W : 0 < 1 - e ^ 2 * sin t ^ 2) by (replace (1 - e ^ 2 * sin t ^ 2) with ((1 - e * sin t) * (1 + e * sin t)) by ring; apply Rmult_lt_0_compat; lra).
    assert (Dg : derivable_pt_lim g (sin t) (/ (1 - e ^ 2 * sin t ^ 2) ^ 2)).
    { set (s := sin t) in *.
      replace (/ (1 - e ^ 2 * s ^ 2) ^ 2) with
        ((1 * (2 * (1 - e ^ 2 * s ^ 2)) - (2 * (0 - e ^ 2 * (2 * s))) * s) / (2 * (1 - e ^ 2 * s ^ 2)) ^ 2
         + / (4 * e) * (/ (1 + e * s) * (0 + e * 1) - / (1 - e * s) * (0 - e * 1))) by (field; repeat split; nra).
      unfold g. apply (derivable_pt_lim_plus (fun s => s / (2 * (1 - e ^ 2 * s ^ 2))) (fun s => / (4 * e) * (ln (1 + e * s) - ln (1 - e * s)))).
      - rewrite <- (Rsqr_pow2 (2 * (1 - e ^ 2 * s ^ 2))). apply (derivable_pt_lim_div (fun s => s) (fun s => 2 * (1 - e ^ 2 * s ^ 2))); [apply derivable_pt_lim_id| |lra].
        apply (derivable_pt_lim_scal (fun s => 1 - e ^ 2 * s ^ 2)).
        apply (derivable_pt_lim_minus (fun _ => 1) (fun s => e ^ 2 * s ^ 2)); [apply derivable_pt_lim_const|].
        apply (derivable_pt_lim_scal (fun s => s ^ 2)).
        replace (2 * s) with (INR 2 * s ^ 1) by (cbn; ring). apply (derivable_pt_lim_pow s 2).
      - apply (derivable_pt_lim_scal (fun s => ln (1 + e * s) - ln (1 - e * s))).
        apply (derivable_pt_lim_minus (fun s => ln (1 + e * s)) (fun s => ln (1 - e * s))).
        + apply (derivable_pt_lim_comp (fun s => 1 + e * s) ln); [|apply derivable_pt_lim_ln; lra].
          apply (derivable_pt_lim_plus (fun _ => 1) (fun s => e * s)); [apply derivable_pt_lim_const|].
          apply (derivable_pt_lim_scal (fun s => s)). apply derivable_pt_lim_id.
        + apply (derivable_pt_lim_comp (fun s => 1 - e * s) ln); [|apply derivable_pt_lim_ln; lra].
          apply (derivable_pt_lim_minus (fun _ => 1) (fun s => e * s)); [apply derivable_pt_lim_const|].
          apply (derivable_pt_lim_scal (fun s => s)). apply derivable_pt_lim_id. }
    replace (2 * PI * (a * parallel_radius (d_flat d) t) * (a * meridian_radius (d_flat d) t))
      with (2 * PI * (a ^ 2 * (1 - e ^ 2)) * (/ (1 - e ^ 2 * sin t ^ 2) ^ 2 * cos t - 0)).
    + apply (derivable_pt_lim_scal (fun t => g (sin t) - g (-1))).
      apply (derivable_pt_lim_minus (fun t => g (sin t)) (fun _ => g (-1))); [|apply derivable_pt_lim_const].
      apply (derivable_pt_lim_comp sin g); [apply derivable_pt_lim_sin | exact Dg].
    + unfold parallel_radius, meridian_radius. rewrite <- E1. set (w := 1 - e ^ 2 * sin t ^ 2) in *.
      pose proof (sqrt_lt_R0 _ W) as Q. pose proof (sqrt_sqrt w ltac:(lra)) as Q2. set (r := sqrt w) in *. rewrite <- Q2. field. lra.
Qed.
Print Assumptions C24_area.

(** Mean density: density x volume x G is GM. *)
Theorem C24_density d : sound d -> d_G d <> 0 -> rho_e d * volume d * d_G d = d_GM d.
Proof.
  intros H HG. destruct (C24_volume d H) as [V _]. pose proof (b_ax_pos d H) as Hb. destruct H as [Ha _]. pose proof PI_RGT_0.
  assert (0 < volume d).
  { rewrite V. repeat (apply Rmult_lt_0_compat; try lra). }
  unfold rho_e. field. split; auto. lra.
Qed.
Print Assumptions C24_density.

(** Units: in CGS every length is 100 times, every gravity value 100 times, areas and
    potentials 10^4 times, volumes 10^6 times, the density 1/1000 of the MKS one, and
    every dimensionless parameter is the same. *)
Theorem C24_units k dm dc : make (Kw (k_ellipsoid k) "MKS" (k_a k) (k_flat k) (k_GM k) (k_omega k)) = Ok dm ->
  make (Kw (k_ellipsoid k) "CGS" (k_a k) (k_flat k) (k_GM k) (k_omega k)) = Ok dc ->
  sound dm -> 0 < d_GM dm ->
  d_a dc = 100 * d_a dm /\ b_ax dc = 100 * b_ax dm /\ rad_e dc = 100 * rad_e dm /\ rad_p dc = 100 * rad_p dm /\ ecc dc = 100 * ecc dm
  /\ d_flat dc = d_flat dm /\ ratio dc = ratio dm /\ ecc1 dc = ecc1 dm /\ ecc2 dc = ecc2 dm /\ m_par dc = m_par dm
  /\ f2 dc = f2 dm /\ f4 dc = f4 dm /\ q_par dc = q_par dm /\ q0_par dc = q0_par dm /\ J2 dc = J2 dm /\ C20 dc = C20 dm
  /\ d_omega dc = d_omega dm
  /\ d_gamma dc = 100 * d_gamma dm /\ gamma_a dc = 100 * gamma_a dm /\ gamma_b dc = 100 * gamma_b dm
  /\ (forall th h, gamma_0 dc th = 100 * gamma_0 dm th /\ gamma_h dc th (100 * h) = 100 * gamma_h dm th h)
  /\ U0 dc = 100 ^ 2 * U0 dm /\ area dc = 100 ^ 2 * area dm /\ volume dc = 100 ^ 3 * volume dm /\ rho_e dc = rho_e dm / 1000.
Proof.
  intros Hm Hc Hs Hg. unfold make in Hm, Hc. cbn [k_ellipsoid k_units k_a k_flat k_GM k_omega] in Hm, Hc.
  change (upper "MKS") with "MKS"%string in Hm. change (upper "CGS") with "CGS"%string in Hc.
  destruct (negb (mem_str _ _)); [discriminate|].
  change (negb (mem_str "MKS" unit_names)) with false in Hm. change (negb (mem_str "CGS" unit_names)) with false in Hc.
  destruct (match k_a k with Some _ => _ | None => _ end) as [[[[a f] gm] om]|]; [|discriminate].
  change (String.eqb "MKS" "CGS") with false in Hm. change (String.eqb "CGS" "CGS") with true in Hc.
  apply Ok_inj in Hm, Hc. 
  match type of Hm with Datum ?n _ _ _ ?g ?w _ _ = _ => set (nm := n) in *; set (GM := g) in *; set (om' := w) in * end.
  assert (A : d_a dc = 100 * d_a dm) by (rewrite <- Hm, <- Hc; cbn [d_a]; ring).
  assert (Fl : d_flat dc = d_flat dm) by (rewrite <- Hm, <- Hc; reflexivity).
  assert (Om : d_omega dc = d_omega dm) by (rewrite <- Hm, <- Hc; reflexivity).
  assert (G : d_GM dc = 1000000 * d_GM dm) by (rewrite <- Hm, <- Hc; cbn [d_GM]; lra).
  assert (Gc : d_G dc = 1000 * d_G dm) by (rewrite <- Hm, <- Hc; cbn [d_G]; ring).
  assert (G0 : 0 < d_G dm) by (rewrite <- Hm; cbn [d_G]; lra).
  assert (Ga : d_gamma dc = 100 * d_gamma dm) by (rewrite <- Hm, <- Hc; cbn [d_gamma]; ring).
  clear Hm Hc GM om' nm.
  assert (B : b_ax dc = 100 * b_ax dm) by (unfold b_ax; rewrite A, Fl; ring).
  pose proof (b_ax_pos dm Hs) as Bp. pose proof (fsq_range dm Hs) as Fr. destruct Hs as [Ap [F1 F2]].
  assert (E : ecc dc = 100 * ecc dm).
  { unfold ecc. rewrite A, Fl.
    replace ((2 * d_flat dm - d_flat dm ^ 2) * (100 * d_a dm) ^ 2) with (100 * 100 * ((2 * d_flat dm - d_flat dm ^ 2) * d_a dm ^ 2)) by ring.
    rewrite sqrt_mult_alt by lra. now rewrite sqrt_square by lra. }
  assert (E1 : ecc1 dc = ecc1 dm) by (unfold ecc1; rewrite E, A; field; lra).
  assert (E2 : ecc2 dc = ecc2 dm) by (unfold ecc2; rewrite E, B; field; lra).
  assert (Mp : m_par dc = m_par dm) by (unfold m_par; rewrite Om, Fl, A, G; field; lra).
  assert (X2 : f2 dc = f2 dm) by (unfold f2; now rewrite Fl, Mp).
  assert (X4 : f4 dc = f4 dm) by (unfold f4; now rewrite Fl, Mp).
  assert (Xq : q_par dc = q_par dm) by (unfold q_par; now rewrite E2).
  assert (XJ : J2 dc = J2 dm) by (unfold J2; now rewrite E1, E2, Mp, Xq).
  assert (Ya : gamma_a dc = 100 * gamma_a dm) by (unfold gamma_a; rewrite G, A, B, E2, Mp; field; lra).
  assert (Yb : gamma_b dc = 100 * gamma_b dm) by (unfold gamma_b; rewrite G, A, E2, Mp; field; lra).
  assert (Y0 : forall th, gamma_0 dc th = 100 * gamma_0 dm th) by (intros th; unfold gamma_0; rewrite Ya, X2, X4; ring).
  assert (Vol : volume dc = 100 ^ 3 * volume dm) by (unfold volume; rewrite A, E1; ring).
  assert (Vp : 0 < volume dm).
  { unfold volume. pose proof PI_RGT_0. apply Rmult_lt_0_compat; [apply Rmult_lt_0_compat; [lra | apply pow_lt; lra] | unfold Rpower; apply exp_pos]. }
  repeat split; auto.
  - unfold rad_e. rewrite A, Fl. ring.
  - unfold rad_p. rewrite A, Fl. field. lra.
  - unfold ratio. now rewrite Fl.
  - unfold q0_par. now rewrite E2.
  - unfold C20. now rewrite XJ.
  - unfold gamma_h. rewrite Y0, Fl, Mp, A. field. lra.
  - unfold U0. rewrite G, E, E2, Om, A. destruct (Req_dec (ecc dm) 0) as [Z|NZ].
    + replace (100 * ecc dm) with (ecc dm) by (rewrite Z; ring). unfold ecc2. rewrite Z. replace (0 / b_ax dm) with 0 by (unfold Rdiv; ring). rewrite atan_0. ring.
    + field. auto.
  - unfold area. rewrite A, E1. ring.
  - unfold rho_e. rewrite G, Gc, Vol. field. lra.
Qed.
Print Assumptions C24_units.

(** Names and units: what is accepted, and what a call returns. *)
Theorem C24_unknown_name k : (k_a k = None \/ k_flat k = None) -> ~ In (upper (k_ellipsoid k)) ellipsoid_names ->
  make k = Err AssertionError \/ upper (k_ellipsoid k) = "user_defined"%string.
Proof.
  intros H N. destruct (string_dec (upper (k_ellipsoid k)) "user_defined") as [E|E]; [now right|left].
  unfold make. assert (M : mem_str (upper (k_ellipsoid k)) (ellipsoid_names ++ ["user_defined"%string]) = false).
  { apply mem_str_false. rewrite in_app_iff. intros [X|[X|[]]]; auto. }
  destruct H as [-> | ->]; [now rewrite M | destruct (k_a k); now rewrite M].
Qed.

Lemma upper_no_lower s : forall c, In c (list_ascii_of_string (upper s)) -> StrBase.is_lower c = false.
Proof.
  induction s as [|x s IH]; cbn; [tauto|]. intros c [<-|H]; [|now apply IH].
  destruct x as [[] [] [] [] [] [] [] []]; reflexivity.
Qed.
Theorem C24_unknown_rejected k : (k_a k = None \/ k_flat k = None) -> ~ In (upper (k_ellipsoid k)) ellipsoid_names ->
  make k = Err AssertionError.
Proof.
  intros H N. destruct (C24_unknown_name k H N) as [E|E]; auto. exfalso.
  pose proof (upper_no_lower (k_ellipsoid k) "u"%char) as X. rewrite E in X. specialize (X (or_introl eq_refl)). discriminate.
Qed.
Print Assumptions C24_unknown_rejected.
Theorem C24_unknown_units k : ~ In (upper (k_units k)) unit_names -> make k = Err AssertionError.
Proof.
  intros N. unfold make. apply mem_str_false in N. rewrite N. now destruct (negb (mem_str _ _)).
Qed.
Print Assumptions C24_unknown_units.

(** A user-defined ellipsoid needs both the axis and the flattening, and then the
    name is ignored; given only one of them, it is ignored. *)
Theorem C24_user_defined k a f : k_a k = Some a -> k_flat k = Some f -> In (upper (k_units k)) unit_names ->
  exists d, make k = Ok d /\ d_flat d = f /\ (upper (k_units k) = "MKS"%string -> d_a d = a).
Proof.
  intros Ha Hf Hu. unfold make. rewrite Ha, Hf.
  change (negb (mem_str "user_defined" (ellipsoid_names ++ ["user_defined"%string]))) with false.
  apply mem_str_In in Hu. rewrite Hu. eexists. split; [reflexivity|]. split; [reflexivity|]. intros ->. reflexivity.
Qed.
Print Assumptions C24_user_defined.
Theorem C24_half_user_defined k : (k_a k = None \/ k_flat k = None) ->
  make k = make (Kw (k_ellipsoid k) (k_units k) None None (k_GM k) (k_omega k)).
Proof. intros [H|H]; unfold make; rewrite H; cbn [k_ellipsoid k_units k_a k_flat k_GM k_omega]; auto. now destruct (k_a k). Qed.
Print Assumptions C24_half_user_defined.

(** Every named ellipsoid, in any case and in both units, makes a sound datum. *)
Lemma table_total n : In n ellipsoid_names -> exists a f gm om, table n = Some (a, f, gm, om)
  /\ 6377000 < a < 6379000 /\ 1 / 300 < f < 1 / 290
  /\ match gm with Some g => 3.986004e14 < g < 3.98604e14 | None => True end
  /\ match om with Some w => 7.2921e-5 < w < 7.2922e-5 | None => True end.
Proof.
  intros H. cbn in H. repeat (destruct H as [<- | H]); [..|tauto];
    (do 4 eexists; split; [reflexivity|]); repeat split; lra.
Qed.
Theorem C24_named k : k_a k = None \/ k_flat k = None -> In (upper (k_ellipsoid k)) ellipsoid_names ->
  In (upper (k_units k)) unit_names -> exists d, make k = Ok d /\ sound d /\ 0 < d_flat d < 1 / 290
    /\ d_name d = upper (k_ellipsoid k).
Proof.
  intros H Hn Hu. destruct (table_total _ Hn) as (a & f & gm & om & T & Ha & Hf & _).
  assert (M : mem_str (upper (k_ellipsoid k)) (ellipsoid_names ++ ["user_defined"%string]) = true).
  { apply mem_str_In. rewrite in_app_iff. now left. }
  apply mem_str_In in Hu. rewrite (C24_half_user_defined k H). unfold make. cbn [k_ellipsoid k_units k_a k_flat k_GM k_omega].
  rewrite M, Hu, T. cbn [negb]. eexists. split; [reflexivity|]. unfold sound. cbn [d_a d_flat d_name].
  destruct (String.eqb _ "CGS"); repeat split; lra.
Qed.
Print Assumptions C24_named.

(** ** C25: normal gravity *)
(** Pizzetti's theorem: 2 gamma_a / a + gamma_b / b = 3 GM / (a^2 b) - 2 omega^2. *)
Theorem C25_pizzetti d : sound d -> d_GM d <> 0 ->
  2 * gamma_a d / d_a d + gamma_b d / b_ax d = 3 * d_GM d / (d_a d ^ 2 * b_ax d) - 2 * d_omega d ^ 2.
Proof.
  intros H HG. pose proof (b_ax_pos d H) as Hb. destruct H as [Ha _]. unfold gamma_a, gamma_b.
  assert (Hw : d_omega d ^ 2 = m_par d * d_GM d / (d_a d ^ 2 * b_ax d)).
  { unfold m_par. unfold b_ax in *. field. repeat split; try lra; auto. intros Z. rewrite Z in Hb. lra. }
  rewrite Hw. field. lra.
Qed.
Print Assumptions C25_pizzetti.

(** Normal gravity on the equator is gamma_a; the latitude formula and the free-air
    reduction agree at height 0. *)
Theorem C25_equator d th : gamma_0 d (PI / 2) = gamma_a d /\ gamma_h d th 0 = gamma_0 d th.
Proof. unfold gamma_h. split; [unfold gamma_0; rewrite cos_PI2; ring | ring]. Qed.
Print Assumptions C25_equator.

(** The constant returned does not depend on gravity at all: it is minus the
    flattening. *)
Theorem C25_dk_is_minus_flattening d : sound d -> gamma_b d <> 0 -> dk d = - d_flat d.
Proof. intros [Ha _] G. unfold dk, b_ax. field. split; [auto|lra]. Qed.
Print Assumptions C25_dk_is_minus_flattening.

(** So it is wrong: for every named ellipsoid in either unit system Somigliana's
    constant is positive and the one returned is negative. *)
Lemma named_row k : k_a k = None -> k_flat k = None -> k_GM k = None -> k_omega k = None ->
  In (upper (k_ellipsoid k)) ellipsoid_names -> upper (k_units k) = "MKS"%string ->
  exists d, make k = Ok d /\ 6377000 < d_a d < 6379000 /\ 1 / 300 < d_flat d < 1 / 290
    /\ 3.986004e14 < d_GM d < 3.98604e14 /\ 7.2921e-5 < d_omega d < 7.2922e-5.
Proof.
  intros K1 K2 K3 K4 Hn Hu. destruct (table_total _ Hn) as (a & f & gm & om & T & Ha & Hf & Hg & Ho).
  assert (M : mem_str (upper (k_ellipsoid k)) (ellipsoid_names ++ ["user_defined"%string]) = true).
  { apply mem_str_In. rewrite in_app_iff. now left. }
  unfold make. rewrite K1, K3, K4, M, Hu, T. change (mem_str "MKS" unit_names) with true. change (String.eqb "MKS" "CGS") with false.
  cbn [negb]. eexists. split; [reflexivity|]. cbn [d_a d_flat d_GM d_omega]. unfold pick.
  repeat split; try lra; destruct gm, om; lra.
Qed.
Lemma m_range d : 6377000 < d_a d < 6379000 -> 1 / 300 < d_flat d < 1 / 290 ->
  3.986004e14 < d_GM d < 3.98604e14 -> 7.2921e-5 < d_omega d < 7.2922e-5 -> 0.0034 < m_par d < 0.0035.
Proof.
  intros Ha Hf Hg Ho. unfold m_par.
  assert (A2 : 6377000 * 6377000 < d_a d * d_a d < 6379000 * 6379000) by (split; nra).
  assert (A3 : 6377000 * 6377000 * 6377000 < d_a d ^ 3 < 6379000 * 6379000 * 6379000) by (split; nra).
  assert (O2 : 7.2921e-5 * 7.2921e-5 < d_omega d ^ 2 < 7.2922e-5 * 7.2922e-5) by (split; nra).
  set (A := d_a d ^ 3) in *. set (O := d_omega d ^ 2) in *. clearbody A O.
  assert (B : 289 / 290 * 2.5932e20 < (1 - d_flat d) * A < 299 / 300 * 2.5958e20).
  { split.
    - apply Rlt_trans with (289 / 290 * A); [lra|]. apply Rmult_lt_compat_r; lra.
    - apply Rlt_trans with (299 / 300 * A); [|lra]. apply Rmult_lt_compat_r; lra. }
  set (Q := (1 - d_flat d) * A) in *. clearbody Q.
  assert (C : 7.2921e-5 * 7.2921e-5 * (289 / 290 * 2.5932e20) < O * Q < 7.2922e-5 * 7.2922e-5 * (299 / 300 * 2.5958e20)).
  { split.
    - apply Rlt_trans with (O * (289 / 290 * 2.5932e20)); [apply Rmult_lt_compat_r; lra | apply Rmult_lt_compat_l; lra].
    - apply Rlt_trans with (O * (299 / 300 * 2.5958e20)); [apply Rmult_lt_compat_l; lra | apply Rmult_lt_compat_r; lra]. }
  split.
  - apply Rmult_lt_reg_r with (d_GM d); [lra|]. unfold Rdiv. rewrite (Rmult_assoc (O * Q)), Rinv_l by lra. lra.
  - apply Rmult_lt_reg_r with (d_GM d); [lra|]. unfold Rdiv. rewrite (Rmult_assoc (O * Q)), Rinv_l by lra. lra.
Qed.

Theorem C25_dk_refuted k : k_a k = None -> k_flat k = None -> k_GM k = None -> k_omega k = None ->
  In (upper (k_ellipsoid k)) ellipsoid_names -> upper (k_units k) = "MKS"%string ->
  exists d, make k = Ok d /\ dk d < 0 < b_ax d * gamma_b d / (d_a d * gamma_a d) - 1.
Proof.
  intros K1 K2 K3 K4 Hn Hu. destruct (named_row k K1 K2 K3 K4 Hn Hu) as (d & E & Ha & Hf & Hg & Ho).
  exists d. split; auto. pose proof (m_range d Ha Hf Hg Ho) as Hm.
  assert (H : sound d) by (unfold sound; lra). pose proof (b_ax_pos d H) as Hb.
  assert (E0 : 0 <= ecc2 d ^ 2 <= 0.01).
  { rewrite (ecc2_sq' d H). split.
    - apply Rmult_le_pos; [pose proof (fsq_range d H); lra|]. left. apply Rinv_0_lt_compat. apply pow_lt. lra.
    - apply Rmult_le_reg_r with ((1 - d_flat d) ^ 2); [apply pow_lt; lra|]. unfold Rdiv. rewrite Rmult_assoc, Rinv_l by (apply Rgt_not_eq, pow_lt; lra). nra. }
  set (pa := 1 - 3 / 2 * m_par d - 3 / 14 * ecc2 d ^ 2 * m_par d). set (pb := 1 + m_par d + 3 / 7 * ecc2 d ^ 2 * m_par d).
  assert (Em : 0 <= ecc2 d ^ 2 * m_par d <= 0.000035) by (split; nra).
  assert (Pa : 0 < pa <= 1 - 3 / 2 * m_par d) by (unfold pa; split; nra).
  assert (Pb : 1 + m_par d <= pb) by (unfold pb; nra).
  assert (Gb : gamma_b d <> 0).
  { unfold gamma_b. fold pb. apply Rgt_not_eq. apply Rmult_lt_0_compat; [apply Rdiv_lt_0_compat; [lra|apply pow_lt; lra] | lra]. }
  split; [rewrite C25_dk_is_minus_flattening by auto; lra|].
  assert (Eq : b_ax d * gamma_b d / (d_a d * gamma_a d) = (1 - d_flat d) ^ 2 * pb / pa).
  { unfold gamma_a, gamma_b. fold pa pb. unfold b_ax in *. field. repeat split; try lra. }
  rewrite Eq. assert (L : pa < (1 - d_flat d) ^ 2 * pb).
  { apply Rle_lt_trans with (1 - 3 / 2 * m_par d); [lra|].
    apply Rlt_le_trans with ((1 - d_flat d) ^ 2 * (1 + m_par d)); [|apply Rmult_le_compat_l; [left; apply pow_lt; lra | lra]]. nra. }
  assert (1 < (1 - d_flat d) ^ 2 * pb / pa); [|lra].
  apply Rmult_lt_reg_r with pa; [lra|]. unfold Rdiv. rewrite (Rmult_assoc _ (/ pa)), Rinv_l by lra. lra.
Qed.
Print Assumptions C25_dk_refuted.

(** ** C59: the named ellipsoids are the published ones *)
(** Full statement: for every name.  Missing: GRS80 and NAD83, where it is false. *)
Theorem C59_published_partial n a fi : In (n, a, fi) published -> n <> "GRS80"%string -> n <> "NAD83"%string ->
  exists d, make (Kw n "MKS" None None None None) = Ok d /\ d_a d = a /\ d_flat d = / fi.
Proof.
  intros H N1 N2. unfold published in H. cbn [In] in H.
  repeat (destruct H as [H | H]); try tauto; inversion H; subst; try congruence;
    (eexists; split; [reflexivity|]); cbn [d_a d_flat]; (split; [reflexivity | apply Rmult_1_l]).
Qed.
Print Assumptions C59_published_partial.
Theorem C59_grs80_refuted n a fi : In (n, a, fi) published -> n = "GRS80"%string \/ n = "NAD83"%string ->
  exists d, make (Kw n "MKS" None None None None) = Ok d /\ d_a d = a - 2 /\ d_flat d <> / fi
    /\ make (Kw "WGS72" "MKS" None None None None) = Ok (Datum "WGS72" (d_units d) (d_a d) (d_flat d) 3.986004418e14 (d_omega d) (d_G d) (d_gamma d)).
Proof.
  intros H E. unfold published in H. cbn [In] in H.
  repeat (destruct H as [H | H]); try tauto; inversion H; subst; destruct E as [E|E]; try congruence;
    (match goal with |- context [make (Kw ?n _ _ _ _ _)] => exists (Datum n "MKS" 6378135 (1 / 298.26) 3.986005e14 7292115e-11 6.67430e-11 9.80665) end; split; [reflexivity|]; cbn [d_a d_flat d_units d_omega d_G d_gamma]); (split; [lra | split; [intros X; lra | reflexivity]]).
Qed.
Theorem C59_every_name n : In n ellipsoid_names <-> exists a fi, In (n, a, fi) published.
Proof.
  split.
  - intros H. cbn [In ellipsoid_names] in H. unfold published. repeat (destruct H as [<- | H]); try tauto;
      (do 2 eexists; cbn [In]; intuition reflexivity).
  - intros (a & fi & H). unfold published in H. cbn [In] in H. repeat (destruct H as [H | H]); try tauto; inversion H; subst;
      apply in_compute; reflexivity.
Qed.
Print Assumptions C59_every_name.
Print Assumptions C59_grs80_refuted.

Example C24_case : exists d, make (Kw "wgs84" "mks" None None None None) = Ok d /\ sound d.
Proof.
  destruct (C24_named (Kw "wgs84" "mks" None None None None)) as (d & E & S & _); [now left | apply in_compute; reflexivity | apply in_compute; reflexivity|].
  exists d. auto.
Qed.
Example C24_rejected_case : make (Kw "GRS90" "MKS" None None None None) = Err AssertionError
  /\ make (Kw "WGS84" "SI" None None None None) = Err AssertionError
  /\ make (Kw "user_defined" "MKS" None (Some 0) None None) = Err AssertionError.
Proof. repeat split. Qed.
Example C25_case : exists d, make (Kw "WGS84" "MKS" None None None None) = Ok d /\ dk d < 0 < b_ax d * gamma_b d / (d_a d * gamma_a d) - 1.
Proof. apply C25_dk_refuted; try reflexivity. apply in_compute. reflexivity. Qed.
