(** C18, continued: the Moritz iteration converges to the geodetic coordinates, with
    an explicit geometric error bound, and what the batch loop returns. *)
From Coq Require Import Reals String List Bool ZArith Lra Lia.
From Verif Require Import PyBase RBase StrBase MathModel AstroModel GeoModel GeoSpec GeoProofs LocalProps GeodeticProps.
Import ListNotations.
Open Scope R_scope.

(** ** A contraction.  [1 / (1 - A / sqrt (p^2 + q^2 k^2))] on [k >= 1]. *)
Section Contraction.
  Variables (A p q d : R).
  Hypothesis (HA : 0 <= A) (Hp : 0 < p) (Hq : 0 <= q) (Hd : 0 <= d < 1).
  Hypothesis (HAd : A <= d * sqrt (p * p + q * q)).
  Let rho (k : R) : R := sqrt (p * p + q * q * (k * k)).
  Let F (k : R) : R := 1 / (1 - A / rho k).

  Lemma rho_sq k : rho k * rho k = p * p + q * q * (k * k).
  Proof.
    apply sqrt_sqrt. pose proof (Rle_0_sqr p). pose proof (Rle_0_sqr q). pose proof (Rle_0_sqr k). unfold Rsqr in *.
    assert (0 <= q * q * (k * k)) by (apply Rmult_le_pos; auto). lra.
  Qed.
  Lemma rho_pos k : 0 < rho k.
  Proof.
    apply sqrt_lt_R0. pose proof (Rle_0_sqr q). pose proof (Rle_0_sqr k). unfold Rsqr in *.
    assert (0 <= q * q * (k * k)) by (apply Rmult_le_pos; auto).
    assert (0 < p * p) by (apply Rmult_lt_0_compat; auto). lra.
  Qed.
  Lemma rho_mono k : 1 <= k -> sqrt (p * p + q * q) <= rho k.
  Proof.
    intros Hk. apply sqrt_le_1_alt. assert (1 <= k * k) by (replace 1 with (1 * 1) by ring; apply Rmult_le_compat; lra).
    pose proof (Rle_0_sqr q). unfold Rsqr in *. assert (q * q * 1 <= q * q * (k * k)) by (apply Rmult_le_compat_l; auto). lra.
  Qed.
  Lemma q_le_rho k : 0 <= k -> q * k <= rho k.
  Proof.
    intros Hk. apply Rsqr_incr_0_var; [|left; apply rho_pos]. unfold Rsqr. rewrite rho_sq.
    assert (0 < p * p) by (apply Rmult_lt_0_compat; auto). lra.
  Qed.
  Lemma ratio_bound k : 1 <= k -> 0 <= A / rho k <= d.
  Proof.
    intros Hk. pose proof (rho_pos k) as H. pose proof (rho_mono k Hk) as H1. split.
    - apply Rmult_le_pos; auto. left. now apply Rinv_0_lt_compat.
    - apply Rmult_le_reg_r with (rho k); auto. unfold Rdiv. rewrite Rmult_assoc, Rinv_l by lra.
      assert (d * sqrt (p * p + q * q) <= d * rho k) by (apply Rmult_le_compat_l; lra). lra.
  Qed.
  Lemma F_range k : 1 <= k -> 1 <= F k <= 1 / (1 - d).
  Proof.
    intros Hk. pose proof (ratio_bound k Hk) as H. unfold F. split.
    - unfold Rdiv at 1. rewrite Rmult_1_l, <- Rinv_1 at 1. apply Rinv_le_contravar; lra.
    - unfold Rdiv. rewrite !Rmult_1_l. apply Rinv_le_contravar; lra.
  Qed.
  Lemma F_contracts k m : 1 <= k -> 1 <= m -> Rabs (F k - F m) <= d / ((1 - d) * (1 - d)) * Rabs (k - m).
  Proof.
    intros Hk Hm. pose proof (rho_pos k) as Pk. pose proof (rho_pos m) as Pm.
    pose proof (ratio_bound k Hk) as Bk. pose proof (ratio_bound m Hm) as Bm.
    pose proof (rho_sq k) as Sk. pose proof (rho_sq m) as Sm.
    pose proof (q_le_rho k ltac:(lra)) as Qk. pose proof (q_le_rho m ltac:(lra)) as Qm.
    pose proof (F_range k Hk) as Fk. pose proof (F_range m Hm) as Fm.
    assert (Hkn : rho k - A <> 0).
    { intros X. assert (A / rho k = 1) by (replace A with (rho k) by lra; field; lra). lra. }
    assert (Hmn : rho m - A <> 0).
    { intros X. assert (A / rho m = 1) by (replace A with (rho m) by lra; field; lra). lra. }
    assert (E : F k - F m = A / rho k * ((rho m - rho k) / rho m) * (F k * F m)).
    { unfold F. field. repeat split; lra. }
    assert (Dr : Rabs ((rho m - rho k) / rho m) <= Rabs (k - m)).
    { replace ((rho m - rho k) / rho m) with (q * (m + k) / (rho m + rho k) * (q / rho m) * (m - k)).
      - rewrite Rabs_mult. rewrite (Rabs_minus_sym m k). rewrite <- (Rmult_1_l (Rabs (k - m))) at 2.
        apply Rmult_le_compat_r; [apply Rabs_pos|]. rewrite Rabs_pos_eq.
        + assert (0 <= q * (m + k)) by (apply Rmult_le_pos; lra).
          assert (q * (m + k) / (rho m + rho k) <= 1).
          { apply Rmult_le_reg_r with (rho m + rho k); [lra|]. unfold Rdiv. rewrite Rmult_assoc, Rinv_l by lra. lra. }
          assert (0 <= q * (m + k) / (rho m + rho k)) by (apply Rmult_le_pos; auto; left; apply Rinv_0_lt_compat; lra).
          assert (q <= rho m) by (apply Rle_trans with (q * m); auto; rewrite <- (Rmult_1_r q) at 1; apply Rmult_le_compat_l; auto).
          assert (q / rho m <= 1).
          { apply Rmult_le_reg_r with (rho m); [lra|]. unfold Rdiv. rewrite Rmult_assoc, Rinv_l by lra. lra. }
          assert (0 <= q / rho m) by (apply Rmult_le_pos; auto; left; apply Rinv_0_lt_compat; lra).
          replace 1 with (1 * 1) by ring. apply Rmult_le_compat; auto.
        + apply Rmult_le_pos.
          * apply Rmult_le_pos; [apply Rmult_le_pos; lra|]. left; apply Rinv_0_lt_compat; lra.
          * apply Rmult_le_pos; auto. left; apply Rinv_0_lt_compat; lra.
      - apply Rmult_eq_reg_r with ((rho m + rho k) * rho m); [|apply Rmult_integral_contrapositive; lra].
        replace (q * (m + k) / (rho m + rho k) * (q / rho m) * (m - k) * ((rho m + rho k) * rho m))
          with (q * q * (m * m) - q * q * (k * k)) by (field; lra).
        replace ((rho m - rho k) / rho m * ((rho m + rho k) * rho m)) with (rho m * rho m - rho k * rho k) by (field; lra).
        lra. }
    rewrite E, !Rabs_mult. rewrite (Rabs_pos_eq (A / rho k)), (Rabs_pos_eq (F k)), (Rabs_pos_eq (F m)) by lra.
    replace (d / ((1 - d) * (1 - d)) * Rabs (k - m)) with (d * Rabs (k - m) * (1 / (1 - d) * (1 / (1 - d)))) by (field; lra).
    apply Rmult_le_compat.
    - apply Rmult_le_pos; [lra | apply Rabs_pos].
    - apply Rmult_le_pos; lra.
    - apply Rmult_le_compat; try lra; try apply Rabs_pos; auto.
    - apply Rmult_le_compat; lra.
  Qed.

  Fixpoint Fiter (k : R) (n : nat) : R := match n with O => k | S n' => F (Fiter k n') end.
  Lemma Fiter_ge k n : 1 <= k -> 1 <= Fiter k n.
  Proof. intros Hk. induction n; cbn; auto. apply F_range; auto. Qed.
  Lemma Fiter_error k0 k n : 1 <= k0 -> 1 <= k -> F k = k ->
    Rabs (Fiter k0 (S n) - k) <= (d / ((1 - d) * (1 - d))) ^ n * (d / (1 - d)).
  Proof.
    intros H0 Hk Fx. induction n as [|n IH].
    - cbn [Fiter pow]. rewrite Rmult_1_l. pose proof (F_range k0 H0) as A0. pose proof (F_range k Hk) as A1. rewrite Fx in A1.
      replace (d / (1 - d)) with (1 / (1 - d) - 1) by (field; lra). unfold Rabs. destruct (Rcase_abs _); lra.
    - change (Fiter k0 (S (S n))) with (F (Fiter k0 (S n))). rewrite <- Fx at 1.
      pose proof (F_contracts (Fiter k0 (S n)) k (Fiter_ge k0 (S n) H0) Hk) as C.
      assert (0 <= d / ((1 - d) * (1 - d))).
      { apply Rmult_le_pos; [lra|]. left. apply Rinv_0_lt_compat. apply Rmult_lt_0_compat; lra. }
      eapply Rle_trans; [exact C|]. cbn [pow]. rewrite Rmult_assoc. apply Rmult_le_compat_l; auto.
  Qed.
End Contraction.

(** ** The iteration in terms of the scaled tangent *)
Lemma pv_cos e t : valid e -> 0 < cos t ->
  prime_vertical e t * cos t = ax e / sqrt (1 + (1 - esq e) * (tan t * tan t)).
Proof.
  intros V Hc. rewrite (pv_eq e t V). pose proof (pw_pos e t V) as W.
  assert (E : sqrt (1 + (1 - esq e) * (tan t * tan t)) = pw e t / cos t).
  { apply sqrt_lem_1.
    - pose proof (esq_range e V). pose proof (Rle_0_sqr (tan t)). unfold Rsqr in *.
      assert (0 <= (1 - esq e) * (tan t * tan t)) by (apply Rmult_le_pos; lra). lra.
    - apply Rmult_le_pos; [lra|]. left. now apply Rinv_0_lt_compat.
    - replace (pw e t / cos t * (pw e t / cos t)) with (pw e t * pw e t / (cos t * cos t)) by (field; lra).
      rewrite (pw_sq e t V). unfold tan. pose proof (sin2_cos2' t) as Q.
      apply Rmult_eq_reg_r with (cos t * cos t); [|apply Rmult_integral_contrapositive; lra].
      unfold Rdiv at 1. rewrite (Rmult_assoc _ (/ (cos t * cos t))), Rinv_l by (apply Rmult_integral_contrapositive; lra).
      replace ((1 + (1 - esq e) * (sin t / cos t * (sin t / cos t))) * (cos t * cos t))
        with (cos t * cos t + (1 - esq e) * (sin t * sin t)) by (field; lra). lra. }
  rewrite E. field. split; lra.
Qed.

Lemma cos_atan_pos x : 0 < cos (atan x).
Proof. pose proof (atan_bound x). apply cos_gt_0; lra. Qed.

Lemma m_step_tan e p z t : valid e -> 0 < p -> 0 < cos t ->
  tan (m_phi e p z t (m_height e p t)) = z / (p - esq e * ax e / sqrt (1 + (1 - esq e) * (tan t * tan t))).
Proof.
  intros V Hp Hc. unfold m_phi, m_height. rewrite tan_atan, (ecc1_sq e V). f_equal.
  pose proof (pv_cos e t V Hc) as P. unfold Rdiv at 3. rewrite Rmult_assoc. fold (ax e / sqrt (1 + (1 - esq e) * (tan t * tan t))).
  rewrite <- P. field. lra.
Qed.

Definition m_iter (e : ellipsoid) (v : vec) (n : nat) : mstate := Nat.iter n (m_step e) (m_start e v).

Lemma m_iter_pz e v n : mp (m_iter e v n) = sqrt (vx v ^ 2 + vy v ^ 2) /\ mz (m_iter e v n) = vz v.
Proof. unfold m_iter. induction n; cbn; auto. Qed.
Lemma m_iter_phi e v n : exists x, mphi (m_iter e v n) = atan x.
Proof. unfold m_iter. destruct n; cbn; [eexists; reflexivity | unfold m_phi; eexists; reflexivity]. Qed.
Lemma m_iter_cos e v n : 0 < cos (mphi (m_iter e v n)).
Proof. destruct (m_iter_phi e v n) as [x ->]. apply cos_atan_pos. Qed.
Lemma m_iter_S e v n : m_iter e v (S n) = m_step e (m_iter e v n).
Proof. reflexivity. Qed.

Section Converge.
  Variables (e : ellipsoid) (lon lat h d : R).
  Hypothesis (Ve : valid e) (Hlat : -90 < lat < 90) (Hh : 0 < prime_vertical e (rad lat) * (1 - esq e) + h).
  Let v := to_cartesian e lon lat h.
  Hypothesis (Hd : 0 <= d < 1).
  Hypothesis (Hfar : esq e * ax e <= d * ((1 - fl e) * norm3 v)).
  Let p := sqrt (vx v ^ 2 + vy v ^ 2).
  Let z := vz v.
  Let N := prime_vertical e (rad lat).
  Let qq := (1 - fl e) * Rabs z.
  Let rho (k : R) : R := sqrt (p * p + qq * qq * (k * k)).

  Lemma p_eq : p = (N + h) * cos (rad lat).
  Proof. unfold p, v. apply radius_cart; auto. now apply above_centre. Qed.
  Lemma p_pos : 0 < p.
  Proof. rewrite p_eq. apply Rmult_lt_0_compat; [now apply above_centre | now apply cos_lat_pos]. Qed.
  Lemma z_eq : z = (N * (1 - esq e) + h) * sin (rad lat).
  Proof. unfold z, v. now apply cart_z. Qed.
  Lemma qq_nonneg : 0 <= qq.
  Proof. unfold qq. destruct Ve as [_ F]. apply Rmult_le_pos; [lra | apply Rabs_pos]. Qed.
  Lemma qq_sq : qq * qq = (1 - esq e) * (z * z).
  Proof.
    unfold qq. rewrite one_esq.
    assert (Rabs z * Rabs z = z * z) by (rewrite <- Rabs_mult; apply Rabs_pos_eq, Rle_0_sqr).
    ring [H].
  Qed.
  Lemma far_ok : esq e * ax e <= d * sqrt (p * p + qq * qq).
  Proof.
    eapply Rle_trans; [exact Hfar|]. apply Rmult_le_compat_l; [lra|].
    assert (Hf : 0 <= 1 - fl e) by (destruct Ve; lra).
    rewrite <- (sqrt_square (1 - fl e)) by lra. unfold norm3. rewrite <- sqrt_mult_alt by (apply Rmult_le_pos; lra).
    apply sqrt_le_1_alt. unfold dot3. rewrite qq_sq, one_esq. fold z. pose proof p_pos.
    replace (p * p) with (vx v * vx v + vy v * vy v).
    - pose proof (Rle_0_sqr (vx v)). pose proof (Rle_0_sqr (vy v)). unfold Rsqr in *.
      assert ((1 - fl e) * (1 - fl e) <= 1).
      { destruct Ve as [_ Hff]. replace 1 with (1 * 1) at 3 by ring. apply Rmult_le_compat; lra. }
      assert ((1 - fl e) * (1 - fl e) * (vx v * vx v + vy v * vy v) <= 1 * (vx v * vx v + vy v * vy v)) by (apply Rmult_le_compat_r; lra).
      lra.
    - unfold p. rewrite sqrt_sqrt; [ring|]. pose proof (pow2_ge_0 (vx v)). pose proof (pow2_ge_0 (vy v)). lra.
  Qed.

  (** the scaled tangent *)
  Lemma step_scaled k t : z <> 0 -> 0 < cos t -> 1 <= k -> tan t = k * z / p ->
    tan (m_phi e p z t (m_height e p t)) = 1 / (1 - esq e * ax e / rho k) * z / p.
  Proof.
    intros Hz Hc Hk Ht. pose proof p_pos as Hp. rewrite m_step_tan by auto.
    assert (HA : 0 <= esq e * ax e) by (pose proof (esq_range e Ve); destruct Ve; apply Rmult_le_pos; lra).
    pose proof (rho_pos p qq Hp k) as Pr. change (0 < rho k) in Pr.
    pose proof (ratio_bound (esq e * ax e) p qq d HA Hp Hd far_ok k Hk) as B. change (0 <= esq e * ax e / rho k <= d) in B.
    assert (R1 : sqrt (1 + (1 - esq e) * (tan t * tan t)) = rho k / p).
    { apply sqrt_lem_1.
      - pose proof (esq_range e Ve). pose proof (Rle_0_sqr (tan t)). unfold Rsqr in *.
        assert (0 <= (1 - esq e) * (tan t * tan t)) by (apply Rmult_le_pos; lra). lra.
      - apply Rmult_le_pos; [lra|]. left. now apply Rinv_0_lt_compat.
      - replace (rho k / p * (rho k / p)) with (rho k * rho k / (p * p)) by (field; lra).
        pose proof (rho_sq p qq k) as RS. change (rho k * rho k = p * p + qq * qq * (k * k)) in RS. rewrite RS, qq_sq, Ht. field. lra. }
    rewrite R1. assert (Hn : rho k - esq e * ax e <> 0).
    { intros X. assert (esq e * ax e / rho k = 1) by (replace (esq e * ax e) with (rho k) by lra; field; lra). lra. }
    field. repeat split; try lra; auto.
    intros X. apply Hn. apply Rmult_eq_reg_l with p; lra.
  Qed.

  Let k0 := 1 / (1 - esq e).
  Let Fi := Fiter (esq e * ax e) p qq.
  Lemma k0_ge : 1 <= k0.
  Proof.
    pose proof (esq_range e Ve). unfold k0, Rdiv. rewrite Rmult_1_l, <- Rinv_1 at 1. apply Rinv_le_contravar; lra.
  Qed.
  Lemma Fi_ge n : 1 <= Fi k0 n.
  Proof.
    assert (HA : 0 <= esq e * ax e) by (pose proof (esq_range e Ve); destruct Ve; apply Rmult_le_pos; lra).
    apply (Fiter_ge (esq e * ax e) p qq d HA p_pos Hd far_ok). apply k0_ge.
  Qed.
  Lemma iter_scaled n : z <> 0 -> tan (mphi (m_iter e v n)) = Fi k0 n * z / p.
  Proof.
    intros Hz. pose proof p_pos as Hp. pose proof (esq_range e Ve) as He. induction n as [|n IH].
    - unfold m_iter, m_start; cbn [Nat.iter nat_rect mphi]. rewrite tan_atan, (ecc1_sq e Ve). fold p z.
      unfold Fi; cbn [Fiter]. unfold k0. field. lra.
    - rewrite m_iter_S. unfold m_step; cbn [mphi]. destruct (m_iter_pz e v n) as [-> ->]. fold p z.
      rewrite (step_scaled (Fi k0 n) _ Hz (m_iter_cos e v n) (Fi_ge n) IH). reflexivity.
  Qed.

  Let kx := (N + h) / (N * (1 - esq e) + h).
  Lemma kx_tan : tan (rad lat) = kx * z / p.
  Proof.
    rewrite z_eq, p_eq. unfold kx, tan. pose proof (cos_lat_pos _ Hlat). pose proof Hh as X1.
    pose proof (above_centre e (rad lat) h Ve Hh) as X2. fold N in X1, X2. field. repeat split; lra.
  Qed.
  Lemma kx_ge : 1 <= kx.
  Proof.
    unfold kx. pose proof Hh as A. fold N in A. pose proof (esq_range e Ve).
    pose proof (pv_pos e (rad lat) Ve) as P. fold N in P. apply Rmult_le_reg_r with (N * (1 - esq e) + h); auto.
    unfold Rdiv. rewrite Rmult_assoc, Rinv_l by lra. assert (0 <= N * esq e) by (apply Rmult_le_pos; lra). lra.
  Qed.
  Lemma kx_fixed : z <> 0 -> 1 / (1 - esq e * ax e / rho kx) = kx.
  Proof.
    intros Hz. pose proof p_pos as Hp.
    pose proof (step_scaled kx (rad lat) Hz (cos_lat_pos _ Hlat) kx_ge kx_tan) as S1.
    assert (X : m_phi e p z (rad lat) (m_height e p (rad lat)) = rad lat).
    { rewrite p_eq, z_eq. unfold N. rewrite (m_height_exact e lat h Ve Hlat). now apply m_phi_exact. }
    rewrite X, kx_tan in S1.
    apply Rmult_eq_reg_r with (z / p).
    - unfold Rdiv in *. rewrite <- !Rmult_assoc. symmetry. exact S1.
    - unfold Rdiv. apply Rmult_integral_contrapositive. split; auto. apply Rinv_neq_0_compat. lra.
  Qed.

  Lemma tan_error n :
    Rabs (tan (mphi (m_iter e v (S n))) - tan (rad lat))
    <= (d / ((1 - d) * (1 - d))) ^ n * (d / (1 - d)) * Rabs (tan (rad lat)).
  Proof.
    pose proof p_pos as Hp.
    assert (HA : 0 <= esq e * ax e) by (pose proof (esq_range e Ve); destruct Ve; apply Rmult_le_pos; lra).
    destruct (Req_dec z 0) as [Hz|Hz].
    - assert (T : tan (rad lat) = 0) by (rewrite kx_tan, Hz; field; lra).
      assert (I : tan (mphi (m_iter e v (S n))) = 0).
      { rewrite m_iter_S. unfold m_step; cbn [mphi]. destruct (m_iter_pz e v n) as [-> ->]. fold p z.
        rewrite Hz. unfold m_phi. rewrite tan_atan. unfold Rdiv. ring. }
      rewrite T, I, Rminus_0_r, Rabs_R0. lra.
    - rewrite iter_scaled by auto. rewrite kx_tan.
      replace (Fi k0 (S n) * z / p - kx * z / p) with ((Fi k0 (S n) - kx) * (z / p)) by (field; lra).
      replace (kx * z / p) with (kx * (z / p)) by (field; lra).
      rewrite !Rabs_mult, <- Rmult_assoc. apply Rmult_le_compat_r; [apply Rabs_pos|].
      eapply Rle_trans.
      + apply (Fiter_error (esq e * ax e) p qq d HA Hp qq_nonneg Hd far_ok k0 kx n k0_ge kx_ge).
        fold (rho kx). now apply kx_fixed.
      + rewrite <- (Rmult_1_r (_ ^ n * _)) at 1. apply Rmult_le_compat_l.
        * apply Rmult_le_pos; [apply pow_le|]; apply Rmult_le_pos; try lra; left; apply Rinv_0_lt_compat; try lra.
          apply Rmult_lt_0_compat; lra.
        * pose proof kx_ge. rewrite Rabs_pos_eq; lra.
  Qed.

  Lemma sin_error n :
    Rabs (sin (mphi (m_iter e v (S n)) - rad lat)) <= (d / ((1 - d) * (1 - d))) ^ n * (d / (1 - d)).
  Proof.
    pose proof (m_iter_cos e v (S n)) as C1. pose proof (cos_lat_pos _ Hlat) as C2.
    pose proof (tan_error n) as T. set (B := (d / ((1 - d) * (1 - d))) ^ n * (d / (1 - d))) in *.
    set (t := mphi (m_iter e v (S n))) in *.
    assert (HB : 0 <= B).
    { apply Rmult_le_pos; [apply pow_le|]; apply Rmult_le_pos; try lra; left; apply Rinv_0_lt_compat; try lra.
      apply Rmult_lt_0_compat; lra. }
    replace (sin (t - rad lat)) with ((tan t - tan (rad lat)) * (cos t * cos (rad lat))).
    - rewrite Rabs_mult, (Rabs_pos_eq (cos t * _)) by (apply Rmult_le_pos; lra).
      eapply Rle_trans; [apply Rmult_le_compat_r; [apply Rmult_le_pos; lra | exact T]|].
      unfold tan, Rdiv. rewrite Rabs_mult, (Rabs_pos_eq (/ cos (rad lat))) by (left; apply Rinv_0_lt_compat; lra).
      replace (B * (Rabs (sin (rad lat)) * / cos (rad lat)) * (cos t * cos (rad lat)))
        with (B * (Rabs (sin (rad lat)) * cos t)) by (field; lra).
      rewrite <- (Rmult_1_r B) at 2. apply Rmult_le_compat_l; auto.
      pose proof (SIN_bound (rad lat)). pose proof (COS_bound t).
      assert (Rabs (sin (rad lat)) <= 1) by (unfold Rabs; destruct (Rcase_abs _); lra).
      replace 1 with (1 * 1) by ring. apply Rmult_le_compat; try lra. apply Rabs_pos.
    - rewrite sin_minus. unfold tan. field. lra.
  Qed.
End Converge.

(** Error after each pass: with [d] the ratio of e^2 a to the (shortened) geocentric
    distance, the latitude is wrong by at most [(d/(1-d)^2)^n d/(1-d)] after [n+1]
    passes, for all points above the evolute. *)
Theorem C18_moritz_error e lon lat h d n : valid e -> -90 < lat < 90 -> - (b_axis e ^ 2 / ax e) < h ->
  0 <= d < 1 ->
  (2 * fl e - fl e ^ 2) * ax e <= d * ((1 - fl e) * norm3 (to_cartesian e lon lat h)) ->
  let s := Nat.iter (S n) (m_step e) (m_start e (to_cartesian e lon lat h)) in
  Rabs (sin (mphi s - rad lat)) <= (d / ((1 - d) * (1 - d))) ^ n * (d / (1 - d))
  /\ Rabs (tan (mphi s) - tan (rad lat)) <= (d / ((1 - d) * (1 - d))) ^ n * (d / (1 - d)) * Rabs (tan (rad lat)).
Proof.
  intros V Hl Hh Hd Hfar s. split.
  - apply (sin_error e lon lat h d V Hl (above_evolute _ _ _ V Hh) Hd Hfar n).
  - apply (tan_error e lon lat h d V Hl (above_evolute _ _ _ V Hh) Hd Hfar n).
Qed.
Print Assumptions C18_moritz_error.

Lemma geometric_to_0 r c : 0 <= r < 1 -> Un_cv (fun n => r ^ n * c) 0.
Proof.
  intros Hr. replace 0 with (0 * c) by ring.
  apply (CV_mult (fun n => r ^ n) (fun _ => c)).
  - intros eps He. destruct (pow_lt_1_zero r ltac:(rewrite Rabs_pos_eq; lra) eps He) as [M HM].
    exists M. intros n Hn. unfold R_dist. rewrite Rminus_0_r. now apply HM.
  - intros eps He. exists 0%nat. intros n _. unfold R_dist. rewrite Rminus_diag_eq, Rabs_R0; auto.
Qed.

Lemma Un_cv_shift u l : Un_cv (fun n => u (S n)) l -> Un_cv u l.
Proof.
  intros H eps He. destruct (H eps He) as [M HM]. exists (S M). intros n Hn.
  destruct n as [|n]; [lia|]. apply HM. lia.
Qed.
Lemma Un_cv_unshift u l : Un_cv u l -> Un_cv (fun n => u (S n)) l.
Proof. intros H eps He. destruct (H eps He) as [M HM]. exists M. intros n Hn. apply HM. lia. Qed.

(** Convergence of the latitude and of the height to the true values. *)
Theorem C18_moritz_converges e lon lat h d : valid e -> -90 < lat < 90 -> - (b_axis e ^ 2 / ax e) < h ->
  0 <= d -> d < (1 - d) * (1 - d) -> d < 1 ->
  (2 * fl e - fl e ^ 2) * ax e <= d * ((1 - fl e) * norm3 (to_cartesian e lon lat h)) ->
  let s n := Nat.iter n (m_step e) (m_start e (to_cartesian e lon lat h)) in
  Un_cv (fun n => mphi (s n) / dtr) lat /\ Un_cv (fun n => mh (s n)) h.
Proof.
  intros V Hl Hh Hd Hd2 Hd1 Hfar s.
  assert (Hr : 0 <= d / ((1 - d) * (1 - d)) < 1).
  { assert (0 < (1 - d) * (1 - d)) by (apply Rmult_lt_0_compat; lra). split.
    - apply Rmult_le_pos; [lra|]. left. now apply Rinv_0_lt_compat.
    - apply Rmult_lt_reg_r with ((1 - d) * (1 - d)); auto. unfold Rdiv. rewrite Rmult_assoc, Rinv_l by lra. lra. }
  assert (T : Un_cv (fun n => tan (mphi (s n))) (tan (rad lat))).
  { apply Un_cv_shift. intros eps He.
    destruct (geometric_to_0 _ (d / (1 - d) * Rabs (tan (rad lat))) Hr eps He) as [M HM].
    exists M. intros n Hn. specialize (HM n Hn). unfold R_dist in *. rewrite Rminus_0_r in HM.
    eapply Rle_lt_trans; [apply (tan_error e lon lat h d V Hl (above_evolute _ _ _ V Hh) (conj Hd Hd1) Hfar n)|].
    rewrite Rmult_assoc. eapply Rle_lt_trans; [apply Rle_abs | exact HM]. }
  assert (P : Un_cv (fun n => mphi (s n)) (rad lat)).
  { pose proof (continuity_seq atan _ _ (derivable_continuous_pt _ _ (derivable_pt_atan _)) T) as C.
    rewrite atan_tan in C by now apply rad_sbound.
    intros eps He. destruct (C eps He) as [M HM]. exists M. intros n Hn. specialize (HM n Hn).
    destruct (m_iter_phi e (to_cartesian e lon lat h) n) as [x Hx]. unfold m_iter in Hx. fold (s n) in Hx.
    rewrite Hx in *. rewrite tan_atan in HM. exact HM. }
  split.
  - rewrite <- (dtr_div lat) at 1.
    apply (CV_mult (fun n => mphi (s n)) (fun _ => / dtr)); auto.
    intros eps He. exists 0%nat. intros n _. unfold R_dist. rewrite Rminus_diag_eq, Rabs_R0; auto.
  - apply Un_cv_shift.
    set (p := sqrt (vx (to_cartesian e lon lat h) ^ 2 + vy (to_cartesian e lon lat h) ^ 2)).
    assert (E : m_height e p (rad lat) = h).
    { unfold p. rewrite (radius_cart e lon lat h V Hl (above_evolute' _ _ _ V Hh)). now apply m_height_exact. }
    rewrite <- E.
    assert (C : continuity_pt (m_height e p) (rad lat)).
    { unfold m_height. pose proof (cos_lat_pos _ Hl).
      apply continuity_pt_minus.
      - apply continuity_pt_mult; [apply continuity_pt_const; intros ? ?; reflexivity|].
        apply continuity_pt_inv; [apply continuity_cos | lra].
      - unfold prime_vertical. apply continuity_pt_mult; [apply continuity_pt_const; intros ? ?; reflexivity|].
        apply continuity_pt_inv.
        + apply (continuity_pt_comp (fun t => 1 - ecc1 e ^ 2 * sin t ^ 2) sqrt).
          * apply continuity_pt_minus; [apply continuity_pt_const; intros ? ?; reflexivity|].
            apply continuity_pt_mult; [apply continuity_pt_const; intros ? ?; reflexivity|].
            apply (continuity_pt_comp sin (fun x => x ^ 2)); [apply continuity_sin | apply derivable_continuous_pt, derivable_pt_pow].
          * apply continuity_pt_sqrt. rewrite (ecc1_sq e V). pose proof (wsq_pos e (rad lat) V).
            replace (sin (rad lat) ^ 2) with (sin (rad lat) * sin (rad lat)) by ring. lra.
        + rewrite (ecc1_sq e V). pose proof (pw_pos e (rad lat) V) as W. unfold pw in W.
          replace (sin (rad lat) ^ 2) with (sin (rad lat) * sin (rad lat)) by ring. lra. }
    pose proof (continuity_seq _ _ _ C P) as Q.
    intros eps He. destruct (Q eps He) as [M HM]. exists M. intros n Hn. specialize (HM n Hn).
    change (s (S n)) with (m_step e (s n)). unfold m_step; cbn [mh].
    destruct (m_iter_pz e (to_cartesian e lon lat h) n) as [X _]. unfold m_iter in X. fold (s n) in X. rewrite X. exact HM.
Qed.
Print Assumptions C18_moritz_converges.

(** ** The batch loop *)
Lemma iter_succ_r {A} (f : A -> A) n x : Nat.iter (S n) f x = Nat.iter n f (f x).
Proof. induction n as [|n IH]; [reflexivity|]. change (f (Nat.iter (S n) f x) = f (Nat.iter n f (f x))). now rewrite IH. Qed.

Lemma iterate_passes {St} (step : St -> St) moved fuel l :
  exists k, (k <= fuel)%nat /\ iterate step moved fuel l = map (fun s => Nat.iter k step s) l
    /\ (k = fuel \/ existsb moved (map (fun s => Nat.iter k step s) l) = false)
    /\ (forall j, (j < k)%nat -> existsb moved (map (fun s => Nat.iter j step s) l) = true).
Proof.
  revert l; induction fuel as [|fuel IH]; intros l.
  - exists 0%nat. cbn. rewrite map_id. repeat split; auto. intros j Hj; lia.
  - cbn [iterate]. destruct (existsb moved l) eqn:B.
    + destruct (IH (map step l)) as (k & Hk & E & St1 & Bf). exists (S k).
      assert (X : forall j, map (fun s => Nat.iter j step s) (map step l) = map (fun s => Nat.iter (S j) step s) l).
      { intros j. rewrite map_map. apply map_ext. intros s. symmetry. apply iter_succ_r. }
      rewrite !X in *. repeat split; auto; try lia.
      * destruct St1 as [->|St1]; auto.
      * intros j Hj. destruct j as [|j]; [cbn; now rewrite map_id|]. rewrite <- X. apply Bf. lia.
    + exists 0%nat. cbn. rewrite map_id. repeat split; auto; try lia.
Qed.

Lemma combine_map_same {A B C} (f : A -> B) (g : A * B -> C) l :
  map g (combine l (map f l)) = map (fun x => g (x, f x)) l.
Proof. induction l as [|x l IH]; cbn; auto. now rewrite IH. Qed.

(** What the batch loop returns: every point has been given the same number of
    passes, at least one and at most iterations + 1, and if fewer, no height moved by
    more than the tolerance in the last one. *)
Theorem C18_moritz_batch e eps iterations vs : vs <> [] ->
  let s n v := Nat.iter n (m_step e) (m_start e v) in
  exists k, (k <= iterations)%nat
    /\ moritz e eps iterations vs
       = map (fun v => (longitude v, mphi (s (S k) v) / dtr, mh (s (S k) v))) vs
    /\ (k = iterations \/ forall v, In v vs -> Rabs (mh (s (S k) v) - mh (s k v)) <= eps).
Proof.
  intros Hne s. unfold moritz.
  destruct (iterate_passes (m_step e) (fun x => far eps (mh x) (mh0 x)) (S iterations) (map (m_start e) vs))
    as (k & Hk & E & St1 & Bf).
  destruct k as [|k].
  { exfalso. destruct St1 as [St1|St1]; [discriminate|]. destruct vs as [|v vs]; [congruence|]. cbn in St1. discriminate. }
  exists k. split; [lia|]. split.
  - rewrite E, map_map. now rewrite combine_map_same.
  - destruct St1 as [St1|St1]; [left; lia | right]. intros v Hv.
    rewrite map_map in St1.
    assert (F : far eps (mh (s (S k) v)) (mh0 (s (S k) v)) = false).
    { destruct (far eps (mh (s (S k) v)) (mh0 (s (S k) v))) eqn:B; auto. exfalso.
      assert (existsb (fun x => far eps (mh x) (mh0 x)) (map (fun x => Nat.iter (S k) (m_step e) (m_start e x)) vs) = true).
      { apply existsb_exists. exists (s (S k) v). split; auto. apply in_map_iff. exists v. auto. }
      congruence. }
    change (mh0 (s (S k) v)) with (Some (mh (s k v))) in F. unfold far, rlt in F.
    destruct (Rlt_dec eps (Rabs (mh (s (S k) v) - mh (s k v)))); [discriminate | lra].
Qed.
Print Assumptions C18_moritz_batch.

(** Points of the ellipsoid itself are converted exactly, whatever the tolerance and
    the number of iterations. *)
Lemma m_surface e lon lat n : valid e -> -90 < lat < 90 ->
  let s := Nat.iter (S n) (m_step e) (m_start e (to_cartesian e lon lat 0)) in mphi s = rad lat /\ mh s = 0.
Proof.
  intros V Hl.
  assert (H0 : - (b_axis e ^ 2 / ax e) < 0).
  { pose proof (b_pos e V). destruct V. assert (0 < b_axis e ^ 2 / ax e) by (apply Rdiv_lt_0_compat; auto; apply pow_lt; auto). lra. }
  assert (P : forall m, mphi (m_iter e (to_cartesian e lon lat 0) m) = rad lat).
  { induction m as [|m IH].
    - unfold m_iter; cbn [Nat.iter nat_rect]. unfold m_start; cbn [mphi].
      rewrite (radius_cart e lon lat 0 V Hl (above_evolute' _ _ _ V H0)), (cart_z _ _ _ _ V), (ecc1_sq e V).
      pose proof (pv_pos e (rad lat) V). pose proof (cos_lat_pos _ Hl). pose proof (esq_range e V).
      apply atan_quot; [now apply rad_sbound| |ring].
      apply Rgt_not_eq. apply Rmult_lt_0_compat; [apply Rmult_lt_0_compat; lra | lra].
    - rewrite m_iter_S. destruct (m_iter_pz e (to_cartesian e lon lat 0) m) as [X Y].
      unfold m_step at 1; cbn [mphi]. rewrite X, Y, IH.
      rewrite (radius_cart e lon lat 0 V Hl (above_evolute' _ _ _ V H0)), (cart_z _ _ _ _ V).
      rewrite m_height_exact by auto. apply m_phi_exact; auto. now apply above_evolute. }
  intros s. split; [apply (P (S n))|].
  change s with (m_iter e (to_cartesian e lon lat 0) (S n)). rewrite m_iter_S.
  destruct (m_iter_pz e (to_cartesian e lon lat 0) n) as [X Y]. unfold m_step at 1; cbn [mh]. rewrite X, P.
  rewrite (radius_cart e lon lat 0 V Hl (above_evolute' _ _ _ V H0)). now apply m_height_exact.
Qed.

Theorem C18_moritz_surface e eps iterations coords : valid e ->
  (forall lon lat, In (lon, lat) coords -> -180 < lon <= 180 /\ -90 < lat < 90) ->
  moritz e eps iterations (map (fun q => to_cartesian e (fst q) (snd q) 0) coords)
  = map (fun q => (fst q, snd q, 0)) coords.
Proof.
  intros V H. destruct coords as [|q0 coords]; [reflexivity|]. set (l := q0 :: coords) in *.
  destruct (C18_moritz_batch e eps iterations (map (fun q => to_cartesian e (fst q) (snd q) 0) l)) as (k & _ & -> & _); [discriminate|].
  rewrite map_map. apply map_ext_in. intros [lon lat] Hin. destruct (H _ _ Hin) as [H1 H2]. cbn [fst snd].
  destruct (m_surface e lon lat k V H2) as [-> ->].
  rewrite dtr_div, longitude_cart; auto. rewrite Rplus_0_r. now apply pv_pos.
Qed.
Print Assumptions C18_moritz_surface.

(** Concretely: an Earth-like ellipsoid, a point 2 km up at 60 degrees north; the
    hypotheses of the error bound hold with d = 1/100. *)
Example C18_moritz_case :
  let e := Ell 6378137 (1 / 298) in
  valid e /\ - (b_axis e ^ 2 / ax e) < 2000 /\ (1 / 100 < (1 - 1 / 100) * (1 - 1 / 100))
  /\ (2 * fl e - fl e ^ 2) * ax e <= 1 / 100 * ((1 - fl e) * norm3 (to_cartesian e 30 60 2000)).
Proof.
  set (e := Ell 6378137 (1 / 298)). assert (V : valid e) by (unfold valid, e; cbn; lra).
  split; [exact V|]. split; [unfold b_axis, e; cbn [ax fl]; lra|]. split; [lra|].
  assert (L : ax e * (1 - esq e) <= norm3 (to_cartesian e 30 60 2000)).
  { unfold norm3. pose proof (esq_range e V) as He. rewrite <- (sqrt_square (ax e * (1 - esq e))) by (destruct V; apply Rmult_le_pos; lra).
    apply sqrt_le_1_alt. unfold dot3. rewrite (cart_x _ _ _ _ V), (cart_y _ _ _ _ V), (cart_z _ _ _ _ V).
    set (N := prime_vertical e (rad 60)).
    assert (HN : ax e <= N).
    { pose proof (above_evolute e (rad 60) (- (b_axis e ^ 2 / ax e) + 1) V ltac:(lra)).
      unfold N. rewrite (pv_eq e _ V). pose proof (pw_pos e (rad 60) V) as W. pose proof (pw_sq e (rad 60) V) as W2.
      assert (pw e (rad 60) <= 1).
      { apply Rsqr_incr_0_var; [|lra]. unfold Rsqr. rewrite W2, Rmult_1_l.
        assert (0 <= esq e * (sin (rad 60) * sin (rad 60))) by (apply Rmult_le_pos; [lra | apply Rle_0_sqr]). lra. }
      apply Rmult_le_reg_r with (pw e (rad 60)); auto. unfold Rdiv. rewrite Rmult_assoc, Rinv_l by lra.
      assert (ax e * pw e (rad 60) <= ax e * 1) by (apply Rmult_le_compat_l; [cbn; lra|auto]). lra. }
    pose proof (sq_cos (rad 60)) as Q. pose proof (sq_cos (rad 30)) as Q2.
    set (a := ax e) in *. assert (Ha : 0 < a) by (unfold a, e; cbn; lra).
    set (E := esq e) in *.
    replace ((N + 2000) * cos (rad 60) * cos (rad 30) * ((N + 2000) * cos (rad 60) * cos (rad 30))
       + (N + 2000) * cos (rad 60) * sin (rad 30) * ((N + 2000) * cos (rad 60) * sin (rad 30))
       + (N * (1 - E) + 2000) * sin (rad 60) * ((N * (1 - E) + 2000) * sin (rad 60)))
     with ((N + 2000) * (N + 2000) * (cos (rad 60) * cos (rad 60)) + (N * (1 - E) + 2000) * (N * (1 - E) + 2000) * (sin (rad 60) * sin (rad 60)))
     by (ring [Q2]).
    assert (A1 : a * (1 - E) <= N * (1 - E)) by (apply Rmult_le_compat_r; lra).
    assert (A0 : 0 <= a * (1 - E)) by (apply Rmult_le_pos; lra).
    assert (A2 : N * (1 - E) <= N * 1) by (apply Rmult_le_compat_l; lra).
    assert (B1 : a * (1 - E) * (a * (1 - E)) <= (N + 2000) * (N + 2000)) by (apply Rmult_le_compat; lra).
    assert (B2 : a * (1 - E) * (a * (1 - E)) <= (N * (1 - E) + 2000) * (N * (1 - E) + 2000)) by (apply Rmult_le_compat; lra).
    pose proof (Rle_0_sqr (cos (rad 60))) as C1. pose proof (Rle_0_sqr (sin (rad 60))) as C2. unfold Rsqr in C1, C2.
    pose proof (Rmult_le_compat_r _ _ _ C1 B1). pose proof (Rmult_le_compat_r _ _ _ C2 B2).
    pose proof (sin2_cos2' (rad 60)).
    replace (a * (1 - E) * (a * (1 - E))) with (a * (1 - E) * (a * (1 - E)) * (cos (rad 60) * cos (rad 60)) + a * (1 - E) * (a * (1 - E)) * (sin (rad 60) * sin (rad 60))); [lra|].
    rewrite <- Rmult_plus_distr_l. rewrite (Rplus_comm (cos (rad 60) * _)), H1. ring. }
  unfold e, esq in *; cbn [ax fl] in *. lra.
Qed.
