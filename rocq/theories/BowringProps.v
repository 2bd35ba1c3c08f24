(** C18, continued: the Bowring iteration (spatial.py:1850-1916) and the dispatch of
    to_geodetic. *)
From Coq Require Import Reals String List Bool ZArith Lra Lia.
From Verif Require Import PyBase RBase StrBase MathModel AstroModel GeoModel GeoSpec GeoProofs LocalProps GeodeticProps MoritzProps.
Import ListNotations.
Open Scope R_scope.

(** cosine and sine of the reduced latitude *)
Lemma reduced e t : valid e -> 0 < cos t ->
  cos (atan (b_axis e * tan t / ax e)) = cos t / pw e t /\ sin (atan (b_axis e * tan t / ax e)) = (1 - fl e) * sin t / pw e t.
Proof.
  intros V Hc. pose proof (pw_pos e t V) as W. pose proof (pw_sq e t V) as W2.
  assert (T : b_axis e * tan t / ax e = (1 - fl e) * tan t) by (unfold b_axis; field; destruct V; lra).
  rewrite T. set (x := (1 - fl e) * tan t).
  assert (R1 : sqrt (1 + x * x) = pw e t / cos t).
  { apply sqrt_lem_1.
    - pose proof (Rle_0_sqr x). unfold Rsqr in *. lra.
    - apply Rmult_le_pos; [lra|]. left. now apply Rinv_0_lt_compat.
    - replace (pw e t / cos t * (pw e t / cos t)) with (pw e t * pw e t / (cos t * cos t)) by (field; lra).
      rewrite W2. unfold x, tan. pose proof (sin2_cos2' t) as Q. pose proof (one_esq e) as O.
      apply Rmult_eq_reg_r with (cos t * cos t); [|apply Rmult_integral_contrapositive; lra].
      unfold Rdiv at 1. rewrite (Rmult_assoc _ (/ (cos t * cos t))), Rinv_l by (apply Rmult_integral_contrapositive; lra).
      replace ((1 + (1 - fl e) * (sin t / cos t) * ((1 - fl e) * (sin t / cos t))) * (cos t * cos t))
        with (cos t * cos t + (1 - fl e) * (1 - fl e) * (sin t * sin t)) by (field; lra). rewrite <- O. lra. }
  assert (C : cos (atan x) = cos t / pw e t).
  { rewrite cos_atan. unfold Rsqr. rewrite R1. field. lra. }
  split; auto.
  pose proof (tan_atan x) as TA. unfold tan in TA. rewrite C in TA.
  apply Rmult_eq_compat_r with (r := cos t / pw e t) in TA.
  replace (sin (atan x) / (cos t / pw e t) * (cos t / pw e t)) with (sin (atan x)) in TA by (field; lra).
  rewrite TA. unfold x, tan. field. lra.
Qed.

(** The centre of curvature lies on the normal: the correction terms of Bowring's
    formula at the reduced latitude of [t]. *)
Lemma bowring_terms e t : valid e -> 0 < cos t ->
  let u := atan (b_axis e * tan t / ax e) in
  e22 e * b_axis e * sin u ^ 3 * cos t + e12 e * ax e * cos u ^ 3 * sin t = esq e * prime_vertical e t * sin t * cos t
  /\ e12 e * ax e * cos u ^ 3 = esq e * (cos t * cos t / (pw e t * pw e t)) * prime_vertical e t * cos t.
Proof.
  intros V Hc u. destruct (reduced e t V Hc) as [C D]. fold u in C, D.
  pose proof (pw_pos e t V) as W. pose proof (pw_sq e t V) as W2.
  assert (Hf : 0 < 1 - fl e) by (destruct V; lra). assert (Ha : 0 < ax e) by (destruct V; lra).
  assert (E2 : e22 e * b_axis e = esq e * ax e / (1 - fl e)).
  { pose proof (e22_eq e V) as X. pose proof (b_pos e V) as B.
    apply Rmult_eq_reg_r with (b_axis e); [|lra]. rewrite Rmult_assoc, X. unfold b_axis. field. lra. }
  rewrite E2, C, D, (e12_eq e V), (pv_eq e t V). split.
  - replace (esq e * ax e / (1 - fl e) * ((1 - fl e) * sin t / pw e t) ^ 3 * cos t + esq e * ax e * (cos t / pw e t) ^ 3 * sin t)
      with (esq e * ax e * sin t * cos t * ((1 - fl e) * (1 - fl e) * (sin t * sin t) + cos t * cos t) / (pw e t * (pw e t * pw e t)))
      by (field; lra).
    replace ((1 - fl e) * (1 - fl e) * (sin t * sin t) + cos t * cos t) with (pw e t * pw e t).
    + field. lra.
    + rewrite W2. rewrite <- one_esq. pose proof (sin2_cos2' t). lra.
  - field. lra.
Qed.

Lemma b_phi_exact e lat h : valid e -> -90 < lat < 90 -> 0 < prime_vertical e (rad lat) * (1 - esq e) + h ->
  b_phi e ((prime_vertical e (rad lat) + h) * cos (rad lat)) ((prime_vertical e (rad lat) * (1 - esq e) + h) * sin (rad lat))
    (atan (b_axis e * tan (rad lat) / ax e)) = rad lat.
Proof.
  intros V Hl Hh. pose proof (cos_lat_pos _ Hl) as Hc.
  destruct (bowring_terms e (rad lat) V Hc) as [T1 T2]. unfold b_phi.
  set (u := atan (b_axis e * tan (rad lat) / ax e)) in *.
  pose proof Hh as A1.
  pose proof (pv_pos e (rad lat) V) as HN. set (N := prime_vertical e (rad lat)) in *.
  pose proof (pw_pos e (rad lat) V) as W. pose proof (pw_sq e (rad lat) V) as W2. pose proof (esq_range e V) as He.
  apply atan_quot; [now apply rad_sbound | |].
  - rewrite T2. apply Rgt_not_eq.
    replace ((N + h) * cos (rad lat) - esq e * (cos (rad lat) * cos (rad lat) / (pw e (rad lat) * pw e (rad lat))) * N * cos (rad lat))
      with (cos (rad lat) * (h + N * ((pw e (rad lat) * pw e (rad lat) - esq e * (cos (rad lat) * cos (rad lat))) / (pw e (rad lat) * pw e (rad lat)))))
      by (field; lra).
    apply Rmult_lt_0_compat; auto.
    replace (pw e (rad lat) * pw e (rad lat) - esq e * (cos (rad lat) * cos (rad lat))) with (1 - esq e)
      by (rewrite W2, sq_cos; ring).
    assert (1 - esq e <= (1 - esq e) / (pw e (rad lat) * pw e (rad lat))).
    { rewrite <- (Rmult_1_r (1 - esq e)) at 1. apply Rmult_le_compat_l; [lra|]. rewrite <- Rinv_1 at 1.
      apply Rinv_le_contravar; [apply Rmult_lt_0_compat; auto|]. rewrite W2.
      assert (0 <= esq e * (sin (rad lat) * sin (rad lat))) by (apply Rmult_le_pos; [lra | apply Rle_0_sqr]). lra. }
    assert (N * (1 - esq e) <= N * ((1 - esq e) / (pw e (rad lat) * pw e (rad lat)))) by (apply Rmult_le_compat_l; lra).
    lra.
  - replace (((N * (1 - esq e) + h) * sin (rad lat) + e22 e * b_axis e * sin u ^ 3) * cos (rad lat))
      with ((N * (1 - esq e) + h) * sin (rad lat) * cos (rad lat)
            + (e22 e * b_axis e * sin u ^ 3 * cos (rad lat) + e12 e * ax e * cos u ^ 3 * sin (rad lat)) - e12 e * ax e * cos u ^ 3 * sin (rad lat)) by ring.
    rewrite T1. ring.
Qed.

Lemma b_height_exact e lat h : valid e ->
  b_height e ((prime_vertical e (rad lat) + h) * cos (rad lat)) ((prime_vertical e (rad lat) * (1 - esq e) + h) * sin (rad lat)) (rad lat) = h.
Proof.
  intros V. unfold b_height. rewrite (e12_eq e V).
  assert (X : ax e / sqrt (1 - esq e * sin (rad lat) ^ 2) = prime_vertical e (rad lat)).
  { unfold prime_vertical. now rewrite (ecc1_sq e V). }
  rewrite X. pose proof (pv_sq e (rad lat) V) as P. pose proof (pv_pos e (rad lat) V) as HN.
  set (N := prime_vertical e (rad lat)) in *.
  replace (ax e ^ 2) with (ax e * ax e) by ring. rewrite <- P.
  replace (N * N * (1 - esq e * (sin (rad lat) * sin (rad lat))) / N) with (N * (1 - esq e * (sin (rad lat) * sin (rad lat)))) by (field; lra).
  pose proof (sq_cos (rad lat)) as Q. ring [Q].
Qed.

(** The true latitude is a fixed point of a pass and the height formula then returns
    the true height. *)
Theorem C18_bowring_fixed_point e lon lat h prev : valid e -> -90 < lat < 90 -> - (b_axis e ^ 2 / ax e) < h ->
  let v := to_cartesian e lon lat h in
  let s := b_step e (BState (sqrt (vx v ^ 2 + vy v ^ 2)) (vz v) (rad lat) prev) in
  bphi s = rad lat /\ b_height e (bp s) (bz s) (bphi s) = h.
Proof.
  intros V Hl Hh v s. unfold s, v, b_step; cbn [bp bz bphi].
  rewrite (radius_cart e lon lat h V Hl (above_evolute' _ _ _ V Hh)), (cart_z _ _ _ _ V).
  rewrite (b_phi_exact e lat h V Hl (above_evolute _ _ _ V Hh)). split; auto. now apply b_height_exact.
Qed.
Print Assumptions C18_bowring_fixed_point.

(** Any latitude that a pass leaves unchanged is exact, with the exact height. *)
Theorem C18_bowring_exact_when_fixed e x y z phi prev : valid e ->
  - (PI / 2) < phi < PI / 2 ->
  let u := atan (b_axis e * tan phi / ax e) in
  let p := sqrt (x ^ 2 + y ^ 2) in
  p <> e12 e * ax e * cos u ^ 3 ->
  let s := b_step e (BState p z phi prev) in
  bphi s = phi ->
  to_cartesian e (longitude (Vec x y z)) (bphi s / dtr) (b_height e p z (bphi s)) = Vec x y z.
Proof.
  intros V Hphi u p Hden s. unfold s, b_step; cbn [bp bz bphi]. clear s. intros F. rewrite F.
  assert (Hc : 0 < cos phi) by (apply cos_gt_0; lra).
  destruct (bowring_terms e phi V Hc) as [T1 T2]. fold u in T1, T2, F. unfold b_phi in F.
  assert (T : (z + e22 e * b_axis e * sin u ^ 3) / (p - e12 e * ax e * cos u ^ 3) = tan phi) by (rewrite <- F; now rewrite tan_atan).
  assert (X : (z + e22 e * b_axis e * sin u ^ 3) * cos phi = (p - e12 e * ax e * cos u ^ 3) * sin phi).
  { apply Rmult_eq_compat_r with (r := (p - e12 e * ax e * cos u ^ 3) * cos phi) in T.
    unfold tan in T. replace ((z + e22 e * b_axis e * sin u ^ 3) / (p - e12 e * ax e * cos u ^ 3) * ((p - e12 e * ax e * cos u ^ 3) * cos phi))
      with ((z + e22 e * b_axis e * sin u ^ 3) * cos phi) in T by (field; lra).
    rewrite T. field. lra. }
  assert (Y : z * cos phi = p * sin phi - esq e * prime_vertical e phi * sin phi * cos phi) by lra.
  pose proof (pv_sq e phi V) as P. pose proof (pv_pos e phi V) as HN.
  assert (H0 : b_height e p z phi = p * cos phi + z * sin phi - prime_vertical e phi * (1 - esq e * (sin phi * sin phi))).
  { unfold b_height. rewrite (e12_eq e V).
    assert (XX : ax e / sqrt (1 - esq e * sin phi ^ 2) = prime_vertical e phi) by (unfold prime_vertical; now rewrite (ecc1_sq e V)).
    rewrite XX. f_equal. replace (ax e ^ 2) with (ax e * ax e) by ring. rewrite <- P. field. lra. }
  set (N := prime_vertical e phi) in *. set (h := b_height e p z phi) in *.
  assert (Ep : (N + h) * cos phi = p).
  { rewrite H0. replace ((N + (p * cos phi + z * sin phi - N * (1 - esq e * (sin phi * sin phi)))) * cos phi)
      with (p * (cos phi * cos phi) + z * cos phi * sin phi + N * (esq e * (sin phi * sin phi)) * cos phi) by ring.
    rewrite Y, sq_cos. ring. }
  assert (Ez : (N * (1 - esq e) + h) * sin phi = z).
  { rewrite H0. apply Rmult_eq_reg_r with (cos phi); [|lra].
    replace ((N * (1 - esq e) + (p * cos phi + z * sin phi - N * (1 - esq e * (sin phi * sin phi)))) * sin phi * cos phi)
      with ((N * (1 - esq e) - N * (1 - esq e * (sin phi * sin phi))) * sin phi * cos phi + p * sin phi * (cos phi * cos phi) + z * cos phi * (sin phi * sin phi)) by ring.
    rewrite Y. rewrite sq_cos. ring. }
  assert (R1 : rad (phi / dtr) = phi) by (unfold rad, dtr; field; apply PI_neq0').
  assert (R2 : rad (longitude (Vec x y z)) = atan2 y x) by (unfold longitude, rad, dtr; cbn [vx vy]; field; apply PI_neq0').
  assert (Q : p = sqrt (x * x + y * y)) by (unfold p; f_equal; ring).
  apply vec_ext.
  - rewrite (cart_x _ _ _ _ V), R1, R2. fold N. rewrite Ep, Q, atan2_cos. reflexivity.
  - rewrite (cart_y _ _ _ _ V), R1, R2. fold N. rewrite Ep, Q, atan2_sin. reflexivity.
  - rewrite (cart_z _ _ _ _ V), R1. fold N. cbn [vz]. exact Ez.
Qed.
Print Assumptions C18_bowring_exact_when_fixed.

Theorem C18_bowring_batch e eps iterations vs : vs <> [] ->
  let s n v := Nat.iter n (b_step e) (b_start e v) in
  exists k, (k <= iterations)%nat
    /\ bowring e eps iterations vs
       = map (fun v => (longitude v, bphi (s (S k) v) / dtr, b_height e (sqrt (vx v ^ 2 + vy v ^ 2)) (vz v) (bphi (s (S k) v)))) vs
    /\ (k = iterations \/ forall v, In v vs -> Rabs (bphi (s (S k) v) - bphi (s k v)) <= eps).
Proof.
  intros Hne s. unfold bowring.
  destruct (iterate_passes (b_step e) (fun x => far eps (bphi x) (bphi0 x)) (S iterations) (map (b_start e) vs))
    as (k & Hk & E & St1 & Bf).
  destruct k as [|k].
  { exfalso. destruct St1 as [St1|St1]; [discriminate|]. destruct vs as [|v vs]; [congruence|]. cbn in St1. discriminate. }
  assert (PZ : forall n v, bp (s n v) = sqrt (vx v ^ 2 + vy v ^ 2) /\ bz (s n v) = vz v).
  { intros n v. unfold s. induction n; cbn; auto. }
  exists k. split; [lia|]. split.
  - rewrite E, map_map. rewrite combine_map_same. apply map_ext. intros v. cbn [fst snd]. fold (s (S k) v).
    destruct (PZ (S k) v) as [-> ->]. reflexivity.
  - destruct St1 as [St1|St1]; [left; lia | right]. intros v Hv.
    rewrite map_map in St1.
    assert (F : far eps (bphi (s (S k) v)) (bphi0 (s (S k) v)) = false).
    { destruct (far eps (bphi (s (S k) v)) (bphi0 (s (S k) v))) eqn:B; auto. exfalso.
      assert (existsb (fun x => far eps (bphi x) (bphi0 x)) (map (fun x => Nat.iter (S k) (b_step e) (b_start e x)) vs) = true).
      { apply existsb_exists. exists (s (S k) v). split; auto. apply in_map_iff. exists v. auto. }
      congruence. }
    change (bphi0 (s (S k) v)) with (Some (bphi (s k v))) in F. unfold far, rlt in F.
    destruct (Rlt_dec eps (Rabs (bphi (s (S k) v) - bphi (s k v)))); [discriminate | lra].
Qed.
Print Assumptions C18_bowring_batch.

Theorem C18_bowring_surface e eps iterations coords : valid e ->
  (forall lon lat, In (lon, lat) coords -> -180 < lon <= 180 /\ -90 < lat < 90) ->
  bowring e eps iterations (map (fun q => to_cartesian e (fst q) (snd q) 0) coords)
  = map (fun q => (fst q, snd q, 0)) coords.
Proof.
  intros V H. destruct coords as [|q0 coords]; [reflexivity|]. set (l := q0 :: coords) in *.
  destruct (C18_bowring_batch e eps iterations (map (fun q => to_cartesian e (fst q) (snd q) 0) l)) as (k & _ & -> & _); [discriminate|].
  rewrite map_map. apply map_ext_in. intros [lon lat] Hin. destruct (H _ _ Hin) as [H1 H2]. cbn [fst snd].
  assert (H0 : - (b_axis e ^ 2 / ax e) < 0).
  { pose proof (b_pos e V). destruct V. assert (0 < b_axis e ^ 2 / ax e) by (apply Rdiv_lt_0_compat; auto; apply pow_lt; auto). lra. }
  set (v := to_cartesian e lon lat 0).
  assert (Rv : sqrt (vx v ^ 2 + vy v ^ 2) = (prime_vertical e (rad lat) + 0) * cos (rad lat))
    by (apply radius_cart; auto; now apply above_evolute').
  assert (Zv : vz v = (prime_vertical e (rad lat) * (1 - esq e) + 0) * sin (rad lat)) by now apply cart_z.
  assert (P : forall m, bp (Nat.iter m (b_step e) (b_start e v)) = sqrt (vx v ^ 2 + vy v ^ 2)
            /\ bz (Nat.iter m (b_step e) (b_start e v)) = vz v
            /\ bphi (Nat.iter m (b_step e) (b_start e v)) = rad lat).
  { induction m as [|m (I1 & I2 & I3)].
    - cbn [Nat.iter nat_rect]. unfold b_start; cbn [bp bz bphi]. repeat split.
      rewrite <- (b_phi_exact e lat 0 V H2 (above_evolute _ _ _ V H0)) at 1. rewrite Rv, Zv. f_equal. f_equal. unfold tan.
      pose proof (cos_lat_pos _ H2). pose proof (pv_pos e (rad lat) V). pose proof (b_pos e V).
      rewrite one_esq. unfold b_axis. destruct V. field. repeat split; lra.
    - change (Nat.iter (S m) (b_step e) (b_start e v)) with (b_step e (Nat.iter m (b_step e) (b_start e v))).
      unfold b_step at 1 3 5; cbn [bp bz bphi]. rewrite I1, I2, I3. repeat split.
      rewrite Rv, Zv. apply b_phi_exact; auto. now apply above_evolute. }
  destruct (P (S k)) as (_ & _ & ->). rewrite dtr_div, Rv, Zv, b_height_exact by auto.
  unfold v. rewrite longitude_cart; auto. rewrite Rplus_0_r. now apply pv_pos.
Qed.
Print Assumptions C18_bowring_surface.

(** The method name is matched without regard to case and any other name is an
    error. *)
Theorem C18_dispatch e method eps iterations vs :
  to_geodetic e method eps iterations vs =
  match lower method with
  | "moritz"%string => Ok (moritz e eps iterations vs)
  | "bowring"%string => Ok (bowring e eps iterations vs)
  | "zhu"%string => Ok (zhu e vs)
  | _ => Err ValueError
  end.
Proof.
  unfold to_geodetic. generalize (lower method). intros m.
  destruct (String.eqb_spec m "moritz") as [->|N1]; [reflexivity|].
  destruct (String.eqb_spec m "bowring") as [->|N2]; [reflexivity|].
  destruct (String.eqb_spec m "zhu") as [->|N3]; [reflexivity|].
  repeat match goal with
  | |- context [match ?x with EmptyString => _ | _ => _ end] => destruct x; try reflexivity; try congruence
  | |- context [match ?x with Ascii.Ascii _ _ _ _ _ _ _ _ => _ end] => destruct x; try reflexivity; try congruence
  | |- context [if ?b then _ else _] => destruct b; try reflexivity; try congruence
  end.
Qed.
Print Assumptions C18_dispatch.

Example C18_surface_case : bowring (Ell 6378137 (1 / 298)) (1 / 10 ^ 12) 10
    [to_cartesian (Ell 6378137 (1 / 298)) 30 60 0; to_cartesian (Ell 6378137 (1 / 298)) (-45) (-10) 0]
  = [(30, 60, 0); (-45, -10, 0)].
Proof.
  apply (C18_bowring_surface (Ell 6378137 (1 / 298)) (1 / 10 ^ 12) 10 [(30, 60); (-45, -10)]).
  - unfold valid; cbn; lra.
  - intros lon lat [X|[X|[]]]; injection X as <- <-; lra.
Qed.
