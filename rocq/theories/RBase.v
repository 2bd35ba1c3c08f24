(** Real-number helpers shared by the continuous parts of the model:
    numpy's [mod], [arctan2], angles in degrees, complex numbers as pairs. *)
From Coq Require Import Reals Lra Lia ZArith List.
Import ListNotations.
Open Scope R_scope.

(** ** Floor and [np.mod] (sign of the divisor, here always positive) *)

(** [floor x] as computed by python's [//] and numpy's [floor]. *)
Definition rfloor (x : R) : Z := Int_part x.

(** numpy [np.mod(x, m)] = [x - m*floor(x/m)]. *)
Definition rmod (x m : R) : R := x - m * IZR (rfloor (x / m)).

Lemma rfloor_bounds x : IZR (rfloor x) <= x < IZR (rfloor x) + 1.
Proof. unfold rfloor. destruct (base_Int_part x). lra. Qed.

Lemma rfloor_unique x n : IZR n <= x < IZR n + 1 -> rfloor x = n.
Proof.
  intros H. pose proof (rfloor_bounds x) as B.
  assert (IZR n < IZR (rfloor x) + 1) by lra.
  assert (IZR (rfloor x) < IZR n + 1) by lra.
  rewrite <- plus_IZR in *. apply lt_IZR in H0. apply lt_IZR in H1. lia.
Qed.

Lemma rfloor_IZR n : rfloor (IZR n) = n.
Proof. apply rfloor_unique; lra. Qed.

Lemma rfloor_add x n : rfloor (x + IZR n) = (rfloor x + n)%Z.
Proof.
  apply rfloor_unique. rewrite plus_IZR. pose proof (rfloor_bounds x). lra.
Qed.

Lemma rmod_bounds x m : 0 < m -> 0 <= rmod x m < m.
Proof.
  intros Hm. unfold rmod. pose proof (rfloor_bounds (x / m)) as B.
  assert (E : x = m * (x / m)) by (field; lra).
  set (q := x / m) in *. set (k := IZR (rfloor q)) in *. rewrite E.
  assert (m * k <= m * q) by (apply Rmult_le_compat_l; lra).
  assert (m * q < m * (k + 1)) by (apply Rmult_lt_compat_l; lra).
  lra.
Qed.

Lemma rmod_cong x m : exists k : Z, rmod x m = x + m * IZR k.
Proof.
  exists (- rfloor (x / m))%Z. unfold rmod. rewrite opp_IZR. lra.
Qed.

Lemma rmod_unique x m y k :
  0 < m -> 0 <= y < m -> y = x + m * IZR k -> rmod x m = y.
Proof.
  intros Hm Hy E. unfold rmod.
  assert (F : rfloor (x / m) = (- k)%Z).
  { apply rfloor_unique. rewrite opp_IZR.
    assert (G : x / m = y / m - IZR k) by (rewrite E; field; lra).
    rewrite G.
    assert (0 <= y / m) by (apply Rmult_le_pos; [lra | left; apply Rinv_0_lt_compat; lra]).
    assert (y / m < 1) by (apply Rmult_lt_reg_r with m; [lra|]; unfold Rdiv;
       rewrite Rmult_assoc, Rinv_l; lra).
    lra. }
  rewrite F, opp_IZR. lra.
Qed.

Lemma rmod_small x m : 0 <= x < m -> rmod x m = x.
Proof. intros H. apply rmod_unique with 0%Z; [lra | lra | lra]. Qed.

Lemma rmod_add_mult x m k : 0 < m -> rmod (x + m * IZR k) m = rmod x m.
Proof.
  intros Hm. destruct (rmod_cong x m) as [j Hj].
  apply rmod_unique with (j - k)%Z; auto using rmod_bounds.
  rewrite minus_IZR. lra.
Qed.

Lemma rmod_idem x m : 0 < m -> rmod (rmod x m) m = rmod x m.
Proof. intros; apply rmod_small, rmod_bounds; auto. Qed.

(** ** Angles *)

(** degrees to radians: [x*np.pi/180.0] *)
Definition deg2rad (x : R) : R := x * PI / 180.
(** radians to degrees: [x*180.0/np.pi] *)
Definition rad2deg (x : R) : R := x * 180 / PI.

Lemma PI_neq0' : PI <> 0.
Proof. apply PI_neq0. Qed.

Lemma deg2rad_rad2deg x : deg2rad (rad2deg x) = x.
Proof. unfold deg2rad, rad2deg. field. apply PI_neq0. Qed.

Lemma rad2deg_deg2rad x : rad2deg (deg2rad x) = x.
Proof. unfold deg2rad, rad2deg. field. apply PI_neq0. Qed.

Lemma deg2rad_turns x k : deg2rad (x + 360 * IZR k) = deg2rad x + 2 * IZR k * PI.
Proof. unfold deg2rad. field. Qed.

Lemma cos_turns x k : cos (x + 2 * IZR k * PI) = cos x.
Proof.
  destruct (Z_le_dec 0 k) as [H|H].
  - rewrite <- (Z2Nat.id k) by lia. rewrite <- INR_IZR_INZ. apply cos_period.
  - set (y := x + 2 * IZR k * PI).
    replace x with (y + 2 * INR (Z.to_nat (- k)) * PI).
    + symmetry. apply cos_period.
    + unfold y. rewrite INR_IZR_INZ, Z2Nat.id by lia. rewrite opp_IZR. lra.
Qed.

Lemma sin_turns x k : sin (x + 2 * IZR k * PI) = sin x.
Proof.
  destruct (Z_le_dec 0 k) as [H|H].
  - rewrite <- (Z2Nat.id k) by lia. rewrite <- INR_IZR_INZ. apply sin_period.
  - set (y := x + 2 * IZR k * PI).
    replace x with (y + 2 * INR (Z.to_nat (- k)) * PI).
    + symmetry. apply sin_period.
    + unfold y. rewrite INR_IZR_INZ, Z2Nat.id by lia. rewrite opp_IZR. lra.
Qed.

Lemma sin2_cos2' x : sin x * sin x + cos x * cos x = 1.
Proof. pose proof (sin2_cos2 x) as H. unfold Rsqr in H. exact H. Qed.

(** ** [np.arctan2(y, x)] (signed zeros are not modelled) *)
Definition atan2 (y x : R) : R :=
  if Rlt_dec 0 x then atan (y / x)
  else if Rlt_dec x 0 then
    (if Rle_dec 0 y then atan (y / x) + PI else atan (y / x) - PI)
  else if Rlt_dec 0 y then PI / 2
  else if Rlt_dec y 0 then - (PI / 2)
  else 0.

Lemma hyp_pos x y : 0 < x * x + y * y <-> (x <> 0 \/ y <> 0).
Proof.
  split; intros H.
  - destruct (Req_dec x 0) as [->|]; [|now left].
    destruct (Req_dec y 0) as [->|]; [lra | now right].
  - destruct H as [H|H].
    + assert (0 < x * x) by (apply Rlt_0_sqr in H; exact H).
      assert (0 <= y * y) by (apply Rle_0_sqr). lra.
    + assert (0 < y * y) by (apply Rlt_0_sqr in H; exact H).
      assert (0 <= x * x) by (apply Rle_0_sqr). lra.
Qed.

Lemma sqrt_hyp_div x y : x <> 0 ->
  sqrt (1 + Rsqr (y / x)) = sqrt (x * x + y * y) / Rabs x.
Proof.
  intros Hx.
  replace (1 + Rsqr (y / x)) with ((x * x + y * y) / Rsqr x)
    by (unfold Rsqr; field; auto).
  rewrite sqrt_div_alt by (apply Rlt_0_sqr; auto).
  now rewrite sqrt_Rsqr_abs.
Qed.

Lemma hyp_sqrt_pos x y : x <> 0 -> 0 < sqrt (x * x + y * y).
Proof. intros H. apply sqrt_lt_R0, hyp_pos; auto. Qed.

Lemma atan2_cos y x : sqrt (x * x + y * y) * cos (atan2 y x) = x.
Proof.
  unfold atan2.
  destruct (Rlt_dec 0 x) as [Hx|Hx].
  - rewrite cos_atan, sqrt_hyp_div by lra. rewrite Rabs_pos_eq by lra.
    pose proof (hyp_sqrt_pos x y ltac:(lra)). field. lra.
  - destruct (Rlt_dec x 0) as [Hx'|Hx'].
    + pose proof (hyp_sqrt_pos x y ltac:(lra)).
      assert (Hc : cos (atan (y / x)) = - x / sqrt (x * x + y * y)).
      { rewrite cos_atan, sqrt_hyp_div by lra. rewrite Rabs_left by lra. field. lra. }
      destruct (Rle_dec 0 y).
      * rewrite neg_cos, Hc. field; lra.
      * replace (cos (atan (y / x) - PI)) with (cos (atan (y / x) + PI)).
        -- rewrite neg_cos, Hc. field; lra.
        -- replace (atan (y/x) + PI) with (atan (y/x) - PI + 2 * IZR 1 * PI) by (simpl; lra).
           apply cos_turns.
    + assert (x = 0) by lra. subst x.
      destruct (Rlt_dec 0 y); [rewrite cos_PI2; lra|].
      destruct (Rlt_dec y 0); [rewrite cos_neg, cos_PI2; lra|].
      assert (y = 0) by lra. subst y.
      replace (0 * 0 + 0 * 0) with 0 by lra. rewrite sqrt_0. lra.
Qed.

Lemma atan2_sin y x : sqrt (x * x + y * y) * sin (atan2 y x) = y.
Proof.
  unfold atan2.
  destruct (Rlt_dec 0 x) as [Hx|Hx].
  - rewrite sin_atan, sqrt_hyp_div by lra. rewrite Rabs_pos_eq by lra.
    pose proof (hyp_sqrt_pos x y ltac:(lra)). field. lra.
  - destruct (Rlt_dec x 0) as [Hx'|Hx'].
    + pose proof (hyp_sqrt_pos x y ltac:(lra)).
      assert (Hc : sin (atan (y / x)) = - y / sqrt (x * x + y * y)).
      { rewrite sin_atan, sqrt_hyp_div by lra. rewrite Rabs_left by lra. field. lra. }
      destruct (Rle_dec 0 y).
      * rewrite neg_sin, Hc. field; lra.
      * replace (sin (atan (y / x) - PI)) with (sin (atan (y / x) + PI)).
        -- rewrite neg_sin, Hc. field; lra.
        -- replace (atan (y/x) + PI) with (atan (y/x) - PI + 2 * IZR 1 * PI) by (simpl; lra).
           apply sin_turns.
    + assert (x = 0) by lra. subst x.
      replace (0 * 0 + y * y) with (Rsqr y) by (unfold Rsqr; lra).
      rewrite sqrt_Rsqr_abs.
      destruct (Rlt_dec 0 y); [rewrite sin_PI2, Rabs_pos_eq; lra|].
      destruct (Rlt_dec y 0); [rewrite sin_neg, sin_PI2, Rabs_left; lra|].
      assert (y = 0) by lra. subst y. rewrite Rabs_R0. lra.
Qed.

Lemma atan2_range y x : - PI < atan2 y x <= PI.
Proof.
  unfold atan2. pose proof PI_RGT_0 as Hpi.
  destruct (Rlt_dec 0 x) as [Hx|Hx].
  - pose proof (atan_bound (y / x)). lra.
  - destruct (Rlt_dec x 0) as [Hx'|Hx'].
    + pose proof (atan_bound (y / x)).
      destruct (Rle_dec 0 y) as [Hy|Hy].
      * assert (y / x <= 0).
        { unfold Rdiv. pose proof (Rinv_lt_0_compat x Hx').
          assert (y * / x <= y * 0) by (apply Rmult_le_compat_l; lra). lra. }
        assert (atan (y / x) <= 0).
        { destruct H0 as [H0|H0].
          - left. rewrite <- atan_0. apply atan_increasing; auto.
          - rewrite H0, atan_0. lra. }
        lra.
      * assert (0 < y / x).
        { unfold Rdiv. pose proof (Rinv_lt_0_compat x Hx').
          replace (y * / x) with ((-y) * (- / x)) by lra.
          apply Rmult_lt_0_compat; lra. }
        assert (0 < atan (y / x)) by (rewrite <- atan_0; apply atan_increasing; auto).
        lra.
    + destruct (Rlt_dec 0 y); [lra|]. destruct (Rlt_dec y 0); lra.
Qed.

(** An angle in (-pi, pi] is determined by its cosine and sine. *)
Lemma angle_unique a b :
  - PI < a <= PI -> - PI < b <= PI -> cos a = cos b -> sin a = sin b -> a = b.
Proof.
  intros Ha Hb Hc Hs.
  assert (Hd : cos (a - b) = 1).
  { rewrite cos_minus, Hc, Hs. pose proof (sin2_cos2' b). lra. }
  assert (Hsd : sin (a - b) = 0) by (rewrite sin_minus, Hc, Hs; lra).
  destruct (Rle_dec 0 (a - b)) as [H|H].
  - destruct (Req_dec (a - b) 0) as [E|E]; [lra|].
    destruct (Rle_dec (a - b) PI) as [H1|H1].
    + destruct (Req_dec (a - b) PI) as [E1|E1].
      * rewrite E1, cos_PI in Hd. lra.
      * assert (0 < sin (a - b)) by (apply sin_gt_0; lra). lra.
    + assert (sin (a - b) < 0) by (apply sin_lt_0; lra). lra.
  - set (d := b - a). replace (a - b) with (- d) in * by (unfold d; lra).
    rewrite cos_neg in Hd. rewrite sin_neg in Hsd.
    destruct (Rle_dec d PI) as [H1|H1].
    + destruct (Req_dec d PI) as [E1|E1].
      * rewrite E1, cos_PI in Hd. lra.
      * assert (0 < sin d) by (apply sin_gt_0; unfold d in *; lra). lra.
    + assert (sin d < 0) by (apply sin_lt_0; unfold d in *; lra). lra.
Qed.

Lemma atan2_polar r t :
  0 < r -> - PI < t <= PI -> atan2 (r * sin t) (r * cos t) = t.
Proof.
  intros Hr Ht.
  assert (E : sqrt (r * cos t * (r * cos t) + r * sin t * (r * sin t)) = r).
  { replace (r * cos t * (r * cos t) + r * sin t * (r * sin t))
      with (r * r * (sin t * sin t + cos t * cos t)) by ring.
    rewrite sin2_cos2', Rmult_1_r. apply sqrt_square; lra. }
  pose proof (atan2_cos (r * sin t) (r * cos t)) as Hc.
  pose proof (atan2_sin (r * sin t) (r * cos t)) as Hs.
  rewrite E in Hc, Hs.
  apply Rmult_eq_reg_l in Hc; [|lra]. apply Rmult_eq_reg_l in Hs; [|lra].
  apply angle_unique; auto. apply atan2_range.
Qed.

Lemma atan2_zero : atan2 0 0 = 0.
Proof.
  unfold atan2. destruct (Rlt_dec 0 0); lra.
Qed.

Lemma atan2_scale k y x : 0 < k -> atan2 (k * y) (k * x) = atan2 y x.
Proof.
  intros Hk. unfold atan2.
  assert (P : forall z, 0 < z -> 0 < k * z) by (intros; apply Rmult_lt_0_compat; auto).
  assert (N : forall z, z < 0 -> k * z < 0).
  { intros z Hz. pose proof (P (-z) ltac:(lra)). lra. }
  destruct (Rlt_dec 0 x); destruct (Rlt_dec 0 (k * x)).
  - f_equal. field. lra.
  - pose proof (P x); lra.
  - destruct (Rlt_dec x 0) as [H|H]; [pose proof (N x H); lra|].
    assert (x = 0) by lra. subst; lra.
  - destruct (Rlt_dec x 0); destruct (Rlt_dec (k * x) 0).
    + replace (k * y / (k * x)) with (y / x) by (field; lra).
      destruct (Rle_dec 0 y); destruct (Rle_dec 0 (k * y)); auto.
      * exfalso. apply n1. apply Rmult_le_pos; lra.
      * pose proof (N y); lra.
    + pose proof (N x); lra.
    + assert (x = 0) by lra. subst; lra.
    + destruct (Rlt_dec 0 y); destruct (Rlt_dec 0 (k * y)); auto.
      * pose proof (P y); lra.
      * destruct (Rlt_dec y 0) as [H|H]; [pose proof (N y H); lra|].
        assert (y = 0) by lra. subst; lra.
      * destruct (Rlt_dec y 0); destruct (Rlt_dec (k * y) 0); auto.
        -- pose proof (N y); lra.
        -- assert (y = 0) by lra. subst; lra.
Qed.

(** Angles agreeing in cosine and sine differ by full turns. *)
Lemma same_angle_mod a b :
  cos a = cos b -> sin a = sin b -> exists k : Z, a = b + 2 * IZR k * PI.
Proof.
  intros Hc Hs. pose proof PI_RGT_0 as Hpi.
  assert (K : forall t, exists k : Z, - PI < t - 2 * IZR k * PI <= PI).
  { intros t. exists (- rfloor ((PI - t) / (2 * PI)))%Z.
    pose proof (rfloor_bounds ((PI - t) / (2 * PI))) as B.
    rewrite opp_IZR. set (q := (PI - t) / (2 * PI)) in *.
    assert (E : t = PI - 2 * PI * q) by (unfold q; field; lra).
    set (f := IZR (rfloor q)) in *. rewrite E.
    assert (2 * PI * f <= 2 * PI * q) by (apply Rmult_le_compat_l; lra).
    assert (2 * PI * q < 2 * PI * (f + 1)) by (apply Rmult_lt_compat_l; lra). lra. }
  destruct (K a) as [i Hi]. destruct (K b) as [j Hj].
  assert (E : a - 2 * IZR i * PI = b - 2 * IZR j * PI).
  { apply angle_unique; auto.
    - replace (a - 2 * IZR i * PI) with (a + 2 * IZR (- i) * PI) by (rewrite opp_IZR; lra).
      replace (b - 2 * IZR j * PI) with (b + 2 * IZR (- j) * PI) by (rewrite opp_IZR; lra).
      now rewrite !cos_turns.
    - replace (a - 2 * IZR i * PI) with (a + 2 * IZR (- i) * PI) by (rewrite opp_IZR; lra).
      replace (b - 2 * IZR j * PI) with (b + 2 * IZR (- j) * PI) by (rewrite opp_IZR; lra).
      now rewrite !sin_turns. }
  exists (i - j)%Z. rewrite minus_IZR. lra.
Qed.

(** ** Complex numbers as pairs (real, imaginary) *)
Notation cpx := (R * R)%type (only parsing).
Definition cre (z : cpx) : R := fst z.
Definition cim (z : cpx) : R := snd z.
Definition cadd (a b : cpx) : cpx := (cre a + cre b, cim a + cim b).
Definition csub (a b : cpx) : cpx := (cre a - cre b, cim a - cim b).
Definition cmul (a b : cpx) : cpx :=
  (cre a * cre b - cim a * cim b, cre a * cim b + cim a * cre b).
Definition cscale (k : R) (a : cpx) : cpx := (k * cre a, k * cim a).
Definition cconj (a : cpx) : cpx := (cre a, - cim a).
(** [np.abs] of a complex number *)
Definition cabs (a : cpx) : R := sqrt (cre a * cre a + cim a * cim a).
(** [amp*np.exp(1j*t)] *)
Definition cexp (t : R) : cpx := (cos t, sin t).
(** [np.angle] / [arctan2(imag, real)] *)
Definition carg (a : cpx) : R := atan2 (cim a) (cre a).

Lemma cabs_nonneg a : 0 <= cabs a.
Proof. apply sqrt_pos. Qed.

Lemma cpx_polar a : a = cscale (cabs a) (cexp (carg a)).
Proof.
  destruct a as [x y]. unfold cscale, cexp, carg, cabs, cre, cim; simpl.
  now rewrite atan2_cos, atan2_sin.
Qed.

Lemma cabs_polar r t : 0 <= r -> cabs (cscale r (cexp t)) = r.
Proof.
  intros Hr. unfold cabs, cscale, cexp, cre, cim; simpl.
  replace (r * cos t * (r * cos t) + r * sin t * (r * sin t))
    with (r * r * (sin t * sin t + cos t * cos t)) by ring.
  rewrite sin2_cos2', Rmult_1_r. now apply sqrt_square.
Qed.

Lemma cabs_zero a : cabs a = 0 -> a = (0, 0).
Proof.
  intros H. rewrite (cpx_polar a), H. unfold cscale; simpl. f_equal; ring.
Qed.
