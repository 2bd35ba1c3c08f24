(** Lemmas about the ellipsoid model. *)
From Coq Require Import Reals String List Bool ZArith Lra Lia.
From Verif Require Import PyBase RBase StrBase MathModel AstroModel GeoModel GeoSpec.
Import ListNotations.
Open Scope R_scope.

Definition valid (e : ellipsoid) : Prop := 0 < ax e /\ 0 <= fl e < 1.

Lemma vec_ext a b : vx a = vx b -> vy a = vy b -> vz a = vz b -> a = b.
Proof. destruct a, b; simpl; intros; subst; reflexivity. Qed.

Lemma sq_cos t : cos t * cos t = 1 - sin t * sin t.
Proof. pose proof (sin2_cos2' t). lra. Qed.

(** square of the first eccentricity *)
Definition esq (e : ellipsoid) : R := 2 * fl e - fl e ^ 2.

Lemma esq_range e : valid e -> 0 <= esq e < 1.
Proof.
  intros [_ [H0 H1]]. unfold esq. replace (2 * fl e - fl e ^ 2) with (fl e * (2 - fl e)) by ring.
  assert (0 < (1 - fl e) * (1 - fl e)) by (apply Rmult_lt_0_compat; lra).
  split; [apply Rmult_le_pos; lra | lra].
Qed.

Lemma lin_ecc_sq e : valid e -> lin_ecc e * lin_ecc e = esq e * (ax e * ax e).
Proof.
  intros V. pose proof (esq_range e V) as H. unfold lin_ecc. fold (esq e).
  rewrite sqrt_sqrt; [ring|]. apply Rmult_le_pos; [lra|]. apply pow2_ge_0.
Qed.

Lemma ecc1_sq e : valid e -> ecc1 e ^ 2 = esq e.
Proof.
  intros V. unfold ecc1. replace ((lin_ecc e / ax e) ^ 2) with (lin_ecc e * lin_ecc e / (ax e * ax e))
    by (field; destruct V; lra).
  rewrite (lin_ecc_sq e V). field. destruct V; lra.
Qed.

Lemma e12_eq e : valid e -> e12 e = esq e.
Proof.
  intros V. unfold e12. replace (lin_ecc e ^ 2) with (lin_ecc e * lin_ecc e) by ring.
  rewrite (lin_ecc_sq e V). field. destruct V; lra.
Qed.

Lemma one_esq e : 1 - esq e = (1 - fl e) * (1 - fl e).
Proof. unfold esq; ring. Qed.

Lemma b_pos e : valid e -> 0 < b_axis e.
Proof. intros [H1 H2]. unfold b_axis. apply Rmult_lt_0_compat; lra. Qed.

Lemma b_sq e : b_axis e * b_axis e = (1 - esq e) * (ax e * ax e).
Proof. rewrite one_esq. unfold b_axis. ring. Qed.

Lemma e22_eq e : valid e -> e22 e * (b_axis e * b_axis e) = esq e * (ax e * ax e).
Proof.
  intros V. unfold e22. replace (lin_ecc e ^ 2) with (lin_ecc e * lin_ecc e) by ring.
  rewrite (lin_ecc_sq e V). pose proof (b_pos e V). field. lra.
Qed.

(** 1 - e^2 sin^2 is positive *)
Lemma wsq_pos e t : valid e -> 0 < 1 - esq e * (sin t * sin t).
Proof.
  intros V. pose proof (esq_range e V). pose proof (sin2_cos2' t) as Q.
  pose proof (Rle_0_sqr (sin t)) as S1. pose proof (Rle_0_sqr (cos t)) as S2. unfold Rsqr in *.
  assert (esq e * (sin t * sin t) <= esq e * 1) by (apply Rmult_le_compat_l; lra). lra.
Qed.

Definition pw (e : ellipsoid) (t : R) : R := sqrt (1 - esq e * (sin t * sin t)).
Lemma pw_pos e t : valid e -> 0 < pw e t.
Proof. intros V. apply sqrt_lt_R0, wsq_pos, V. Qed.
Lemma pw_sq e t : valid e -> pw e t * pw e t = 1 - esq e * (sin t * sin t).
Proof. intros V. apply sqrt_sqrt. left. now apply wsq_pos. Qed.
Lemma pv_eq e t : valid e -> prime_vertical e t = ax e / pw e t.
Proof. intros V. unfold prime_vertical, pw. rewrite (ecc1_sq e V). do 4 f_equal. ring. Qed.
Lemma pv_pos e t : valid e -> 0 < prime_vertical e t.
Proof. intros V. rewrite (pv_eq e t V). apply Rdiv_lt_0_compat; [apply V | now apply pw_pos]. Qed.
Lemma pv_sq e t : valid e ->
  prime_vertical e t * prime_vertical e t * (1 - esq e * (sin t * sin t)) = ax e * ax e.
Proof.
  intros V. rewrite (pv_eq e t V), <- (pw_sq e t V). field. pose proof (pw_pos e t V). lra.
Qed.

(** The conditional shift of negative longitudes is invisible. *)
Lemma lon_shift_cos lon : cos ((if Rlt_dec lon 0 then lon + 360 else lon) * dtr) = cos (lon * dtr).
Proof.
  destruct (Rlt_dec lon 0); [|reflexivity].
  replace ((lon + 360) * dtr) with (lon * dtr + 2 * IZR 1 * PI) by (unfold dtr; lra). apply cos_turns.
Qed.
Lemma lon_shift_sin lon : sin ((if Rlt_dec lon 0 then lon + 360 else lon) * dtr) = sin (lon * dtr).
Proof.
  destruct (Rlt_dec lon 0); [|reflexivity].
  replace ((lon + 360) * dtr) with (lon * dtr + 2 * IZR 1 * PI) by (unfold dtr; lra). apply sin_turns.
Qed.

Lemma cart_x e lon lat h : valid e -> vx (to_cartesian e lon lat h) =
  (prime_vertical e (rad lat) + h) * cos (rad lat) * cos (rad lon).
Proof. intros V. unfold to_cartesian; cbn [vx]. now rewrite lon_shift_cos. Qed.
Lemma cart_y e lon lat h : valid e -> vy (to_cartesian e lon lat h) =
  (prime_vertical e (rad lat) + h) * cos (rad lat) * sin (rad lon).
Proof. intros V. unfold to_cartesian; cbn [vy]. now rewrite lon_shift_sin. Qed.
Lemma cart_z e lon lat h : valid e -> vz (to_cartesian e lon lat h) =
  (prime_vertical e (rad lat) * (1 - esq e) + h) * sin (rad lat).
Proof. intros V. unfold to_cartesian; cbn [vz]. now rewrite (ecc1_sq e V). Qed.

Lemma rad_bound lat : -90 <= lat <= 90 -> - (PI / 2) <= rad lat <= PI / 2.
Proof.
  intros H. unfold rad. pose proof PI_RGT_0.
  assert (0 < PI / 180) by lra. split.
  - assert (-90 * (PI / 180) <= lat * (PI / 180)) by (apply Rmult_le_compat_r; lra). lra.
  - assert (lat * (PI / 180) <= 90 * (PI / 180)) by (apply Rmult_le_compat_r; lra). lra.
Qed.
Lemma rad_sbound lat : -90 < lat < 90 -> - (PI / 2) < rad lat < PI / 2.
Proof.
  intros H. unfold rad. pose proof PI_RGT_0.
  assert (0 < PI / 180) by lra. split.
  - assert (-90 * (PI / 180) < lat * (PI / 180)) by (apply Rmult_lt_compat_r; lra). lra.
  - assert (lat * (PI / 180) < 90 * (PI / 180)) by (apply Rmult_lt_compat_r; lra). lra.
Qed.
Lemma cos_lat_pos lat : -90 < lat < 90 -> 0 < cos (rad lat).
Proof. intros H. apply cos_gt_0; apply rad_sbound; auto. Qed.
Lemma cos_lat_nonneg lat : -90 <= lat <= 90 -> 0 <= cos (rad lat).
Proof. intros H. apply cos_ge_0; apply rad_bound; auto. Qed.

Lemma dtr_pos : 0 < dtr.
Proof. unfold dtr. pose proof PI_RGT_0. lra. Qed.
Lemma dtr_div x : rad x / dtr = x.
Proof. unfold rad, dtr. field. apply PI_neq0'. Qed.
Lemma pow2_pos x : x <> 0 -> 0 < x ^ 2.
Proof. intros H. replace (x ^ 2) with (Rsqr x) by (unfold Rsqr; ring). now apply Rlt_0_sqr. Qed.
