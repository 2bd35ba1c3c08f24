(** C20: convert_ellipsoid reaches the exact position. *)
From Coq Require Import Reals List Bool ZArith Lra Lia.
From Verif Require Import PyBase RBase StrBase MathModel AstroModel GeoModel GeoSpec GeoProofs LocalProps GeodeticProps MoritzProps BowringProps ConvertProps ConvertProofs.
Import ListNotations.
Open Scope R_scope.

(** ** South mirrors north *)
Lemma newton_odd F F' G G' eps n : (forall u, G (- u) / G' (- u) = - (F u / F' u)) -> (forall u, Rabs (G' (- u)) = Rabs (F' u)) ->
  forall u, newton G G' eps n (- u) = - newton F F' eps n u.
Proof.
  intros H1 H2. induction n as [|n IH]; intros u; cbn [newton]; auto.
  rewrite H2. destruct (rlt (Rabs (F' u)) eps); auto. rewrite H1, Rabs_Ropp.
  replace (- u - - (F u / F' u)) with (- (u - F u / F' u)) by ring. rewrite IH. now destruct (rlt _ eps).
Qed.
Lemma limit90_neg x : limit90 (- x) = - limit90 x.
Proof.
  unfold limit90. rewrite Rabs_Ropp. unfold rlt at 1 2. destruct (Rlt_dec 90 (Rabs x)) as [H|H]; auto.
  unfold sign, rlt. unfold Rabs in H. destruct (Rcase_abs x); destruct (Rlt_dec x 0), (Rlt_dec 0 x), (Rlt_dec (- x) 0), (Rlt_dec 0 (- x)); lra.
Qed.
Theorem C20_mirror e1 e2 eps itmax phi h :
  convert_point e1 e2 eps itmax (- phi) h =
  (- fst (convert_point e1 e2 eps itmax phi h), snd (convert_point e1 e2 eps itmax phi h)).
Proof.
  unfold convert_point. rewrite Rabs_Ropp. destruct (rlt (Rabs phi) eps); auto. destruct (rlt (90 - Rabs phi) eps); auto.
  replace (- phi * PI / 180) with (- (phi * PI / 180)) by (unfold Rdiv; ring). rewrite cos_neg, sin_neg.
  set (s := sin (phi * PI / 180)). set (c := if rlt (cos (phi * PI / 180)) eps then eps else cos (phi * PI / 180)).
  replace (b_axis e1 / ax e1 * (- s / c)) with (- (b_axis e1 / ax e1 * (s / c))) by (unfold Rdiv; ring).
  rewrite atan_opp. set (u1 := atan (b_axis e1 / ax e1 * (s / c))). cbv zeta. rewrite cos_neg, sin_neg.
  replace (b_axis e1 * - sin u1 + h * - s) with (- (b_axis e1 * sin u1 + h * s)) by ring.
  set (hs := b_axis e1 * sin u1 + h * s). set (hc := ax e1 * cos u1 + h * c).
  destruct (rle (Rabs phi) 45).
  - rewrite (newton_odd (fun u => (b_axis e2 * b_axis e2 - ax e2 * ax e2) * sin u + ax e2 * hc * tan u - b_axis e2 * hs)
      (fun u => (b_axis e2 * b_axis e2 - ax e2 * ax e2) * cos u + ax e2 * hc / (cos u * cos u))).
    2: { intros u. rewrite sin_neg, cos_neg, tan_neg. unfold Rdiv. ring. }
    2: { intros u. now rewrite cos_neg. }
    match goal with |- context [newton ?a ?b ?c ?d ?e] => set (u2 := newton a b c d e) end.
    rewrite tan_neg, cos_neg. replace (ax e2 / b_axis e2 * - tan u2) with (- (ax e2 / b_axis e2 * tan u2)) by ring.
    rewrite atan_opp. set (t := atan (ax e2 / b_axis e2 * tan u2)). cbn [fst snd].
    replace (- t * 180 / PI) with (- (t * 180 / PI)) by (unfold Rdiv; ring). now rewrite limit90_neg, cos_neg.
  - rewrite (newton_odd (fun u => (ax e2 * ax e2 - b_axis e2 * b_axis e2) * cos u + b_axis e2 * hs / tan u - ax e2 * hc)
      (fun u => - 1 * ((ax e2 * ax e2 - b_axis e2 * b_axis e2) * sin u + b_axis e2 * hs / (sin u * sin u)))).
    2: { intros u. rewrite sin_neg, cos_neg, tan_neg. unfold Rdiv. rewrite Rinv_opp.
         replace (- sin u * - sin u) with (sin u * sin u) by ring.
         replace (- 1 * ((ax e2 * ax e2 - b_axis e2 * b_axis e2) * - sin u + b_axis e2 * - hs * / (sin u * sin u)))
           with (- (- 1 * ((ax e2 * ax e2 - b_axis e2 * b_axis e2) * sin u + b_axis e2 * hs * / (sin u * sin u)))) by ring.
         rewrite Rinv_opp. ring. }
    2: { intros u. rewrite sin_neg. rewrite <- Rabs_Ropp. f_equal.
         replace (- sin u * - sin u) with (sin u * sin u) by ring. unfold Rdiv. ring. }
    match goal with |- context [newton ?a ?b ?c ?d ?e] => set (u2 := newton a b c d e) end.
    rewrite tan_neg, sin_neg. replace (ax e2 / b_axis e2 * - tan u2) with (- (ax e2 / b_axis e2 * tan u2)) by ring.
    rewrite atan_opp. set (t := atan (ax e2 / b_axis e2 * tan u2)). cbn [fst snd].
    replace (- t * 180 / PI) with (- (t * 180 / PI)) by (unfold Rdiv; ring). rewrite limit90_neg, sin_neg. f_equal.
    replace (- hs - b_axis e2 * - sin u2) with (- (hs - b_axis e2 * sin u2)) by ring. unfold Rdiv. rewrite Rinv_opp. ring.
Qed.
Print Assumptions C20_mirror.

(** ** The equations solved *)
Section Low.
  Variables (c A B Ts : R).
  Hypothesis HA : 0 < A.
  Hypothesis Hc : Rabs c <= 0.0147 * A.
  Hypothesis HT : Rabs Ts <= 1.02.
  Let G v := c * sin v + A * tan v - B.
  Let G' v := c * cos v + A / (cos v * cos v).
  Lemma sec_atan s : A / (cos (atan s) * cos (atan s)) = A * (1 + s * s).
  Proof.
    pose proof (cos_atan_sq s) as Q. pose proof (cos_atan_pos s) as C. apply Rmult_eq_reg_r with (cos (atan s) * cos (atan s)).
    - replace (A / (cos (atan s) * cos (atan s)) * (cos (atan s) * cos (atan s))) with A by (field; lra).
      replace (A * (1 + s * s) * (cos (atan s) * cos (atan s))) with (A * (cos (atan s) * cos (atan s) * (1 + s * s))) by ring. rewrite Q. ring.
    - apply Rgt_not_eq, Rmult_lt_0_compat; lra.
  Qed.
  Lemma low_der x : cos x <> 0 -> derivable_pt_lim G x (G' x).
  Proof.
    intros N. unfold G, G'.
    replace (c * cos x + A / (cos x * cos x)) with (c * cos x + A * ((cos x * cos x - - sin x * sin x) / (Rsqr (cos x))) - 0).
    - apply (derivable_pt_lim_minus (fun v => c * sin v + A * tan v) (fun _ => B)); [|apply derivable_pt_lim_const].
      apply (derivable_pt_lim_plus (fun v => c * sin v) (fun v => A * tan v)).
      + apply (derivable_pt_lim_scal sin), derivable_pt_lim_sin.
      + apply (derivable_pt_lim_scal tan). apply (derivable_pt_lim_div sin cos x); auto using derivable_pt_lim_sin, derivable_pt_lim_cos.
    - pose proof (sin2_cos2' x) as Q. unfold Rsqr. replace (cos x * cos x - - sin x * sin x) with 1 by lra. field. auto.
  Qed.
  Lemma low_min x : Rabs (x - atan Ts) <= 0.02 -> cos x <> 0 /\ 0.985 * A <= Rabs (G' x).
  Proof.
    intros H. destruct (tan_near x Ts HT H) as (s & S1 & -> & S3). pose proof (cos_atan_pos s). split; [lra|].
    unfold G'. rewrite sec_atan. pose proof (COS_bound (atan s)) as Cb.
    assert (Rabs (c * cos (atan s)) <= 0.0147 * A).
    { rewrite Rabs_mult, <- (Rmult_1_r (0.0147 * A)). apply Rmult_le_compat; auto using Rabs_pos. rewrite Rabs_pos_eq; lra. }
    assert (0 <= A * (s * s)) by (apply Rmult_le_pos; [lra|apply Rle_0_sqr]).
    apply Rle_trans with (c * cos (atan s) + A * (1 + s * s)); [|apply Rle_abs].
    assert (- (0.0147 * A) <= c * cos (atan s)) by (unfold Rabs in *; destruct (Rcase_abs (c * cos (atan s))); lra). lra.
  Qed.
  Lemma low_lip x y : Rabs (x - atan Ts) <= 0.02 -> Rabs (y - atan Ts) <= 0.02 -> Rabs (G' x - G' y) <= 5 * (0.985 * A) * Rabs (x - y).
  Proof.
    intros H1 H2. destruct (tan_near x Ts HT H1) as (s & S1 & -> & _). destruct (tan_near y Ts HT H2) as (t & T1 & -> & _).
    unfold G'. rewrite !sec_atan.
    replace (c * cos (atan s) + A * (1 + s * s) - (c * cos (atan t) + A * (1 + t * t)))
      with (c * (cos (atan s) - cos (atan t)) + A * ((1 + s * s) - (1 + t * t))) by ring.
    refine (Rle_trans _ _ _ (Rabs_triang _ _) _). rewrite !Rabs_mult, (Rabs_pos_eq A) by lra.
    pose proof (sec_lip s t S1 T1) as L1. pose proof (cos_lip (atan s) (atan t)) as L2. pose proof (Rabs_pos (atan s - atan t)) as P.
    apply Rle_trans with (0.0147 * A * Rabs (atan s - atan t) + A * (4.862 * Rabs (atan s - atan t))).
    - apply Rplus_le_compat; [apply Rmult_le_compat|apply Rmult_le_compat_l]; auto using Rabs_pos; lra.
    - replace (0.0147 * A * Rabs (atan s - atan t) + A * (4.862 * Rabs (atan s - atan t))) with (4.8767 * A * Rabs (atan s - atan t)) by lra.
      apply Rmult_le_compat_r; lra.
  Qed.
End Low.

Lemma low_newton c A B Ts eps n u r : 0 < A -> Rabs c <= 0.0147 * A -> Rabs Ts <= 1.02 ->
  0 < eps <= 0.985 * A -> r <= 0.02 -> (1 / 10) ^ (2 ^ n) <= eps ^ 2 ->
  c * sin (atan Ts) + A * tan (atan Ts) - B = 0 -> Rabs (u - atan Ts) <= r ->
  Rabs (newton (fun v => c * sin v + A * tan v - B) (fun v => c * cos v + A / (cos v * cos v)) eps n u - atan Ts) <= 10 * eps ^ 2.
Proof.
  intros HA Hc HT He Hr Hn Hroot Hu. pose proof (Rabs_pos (u - atan Ts)) as P.
  refine (Rle_trans _ _ _ (newton_close (fun v => c * sin v + A * tan v - B) (fun v => c * cos v + A / (cos v * cos v)) (atan Ts) r (0.985 * A) 5 eps _ _ _ Hroot ltac:(lra) ltac:(lra) He n u (1 / 10) Hu ltac:(lra) ltac:(lra)) _).
  - intros x Hx. apply low_der. apply (low_min c A Ts HA Hc HT x). lra.
  - intros x Hx. apply (low_min c A Ts HA Hc HT x). lra.
  - intros x y Hx Hy. apply (low_lip c A Ts HA Hc HT x y); lra.
  - apply Rmax_lub; [lra|]. pose proof (pow2_ge_0 eps). lra.
Qed.

(** the same equation in the complement of the angle *)
Lemma high_newton c A B Cs eps n u r : 0 < A -> Rabs c <= 0.0147 * A -> 0 < Cs <= 1.02 ->
  0 < eps <= 0.985 * A -> r <= 0.02 -> r < atan Cs -> (1 / 10) ^ (2 ^ n) <= eps ^ 2 ->
  c * sin (atan Cs) + A * tan (atan Cs) - B = 0 -> Rabs (u - (PI / 2 - atan Cs)) <= r ->
  Rabs (newton (fun u => c * cos u + A / tan u - B) (fun u => - 1 * (c * sin u + A / (sin u * sin u))) eps n u - (PI / 2 - atan Cs)) <= 10 * eps ^ 2.
Proof.
  intros HA Hc HC He Hr Hr2 Hn Hroot Hu. pose proof (Rabs_pos (u - (PI / 2 - atan Cs))) as P.
  assert (HT : Rabs Cs <= 1.02) by (rewrite Rabs_pos_eq; lra).
  assert (Sw : forall x, Rabs (x - (PI / 2 - atan Cs)) <= r -> Rabs (PI / 2 - x - atan Cs) <= r).
  { intros x Hx. replace (PI / 2 - x - atan Cs) with (- (x - (PI / 2 - atan Cs))) by ring. now rewrite Rabs_Ropp. }
  pose proof (atan_bound Cs) as Ba.
  assert (In : forall x, Rabs (x - (PI / 2 - atan Cs)) <= r -> 0 < cos x /\ cos (PI / 2 - x) <> 0 /\ sin x = cos (PI / 2 - x)).
  { intros x Hx. pose proof (Sw x Hx) as Hs. pose proof (proj1 (low_min c A Cs HA Hc HT (PI / 2 - x) ltac:(lra))) as C2.
    split; [|split; auto; symmetry; apply cos_shift]. destruct (tan_near (PI / 2 - x) Cs HT ltac:(lra)) as (s & _ & _ & Rg).
    apply cos_gt_0; unfold Rabs in Hs; destruct (Rcase_abs (PI / 2 - x - atan Cs)); lra. }
  refine (Rle_trans _ _ _ (newton_close (fun u => c * cos u + A / tan u - B) (fun u => - 1 * (c * sin u + A / (sin u * sin u))) (PI / 2 - atan Cs) r (0.985 * A) 5 eps _ _ _ _ ltac:(lra) ltac:(lra) He n u (1 / 10) Hu ltac:(lra) ltac:(lra)) _).
  - intros x Hx. destruct (In x Hx) as (C1 & C2 & E). rewrite <- E in C2.
    assert (Tx : tan x <> 0) by (unfold tan; intros Z; apply Rmult_integral in Z as [Z|Z]; [auto|]; apply Rinv_neq_0_compat in Z; lra).
    replace (- 1 * (c * sin x + A / (sin x * sin x)))
      with (c * - sin x + (0 * tan x - (cos x * cos x - - sin x * sin x) / Rsqr (cos x) * A) / Rsqr (tan x) - 0).
    + apply (derivable_pt_lim_minus (fun v => c * cos v + A / tan v) (fun _ => B)); [|apply derivable_pt_lim_const].
      apply (derivable_pt_lim_plus (fun v => c * cos v) (fun v => A / tan v)).
      * apply (derivable_pt_lim_scal cos), derivable_pt_lim_cos.
      * apply (derivable_pt_lim_div (fun _ => A) tan); [apply (derivable_pt_lim_const A)| |exact Tx].
        apply (derivable_pt_lim_div sin cos x); [apply derivable_pt_lim_sin|apply derivable_pt_lim_cos|lra].
    + pose proof (sin2_cos2' x) as Q. unfold Rsqr, tan. replace (cos x * cos x - - sin x * sin x) with 1 by lra. field. split; auto; lra.
  - intros x Hx. destruct (In x Hx) as (C1 & C2 & E). pose proof (proj2 (low_min c A Cs HA Hc HT (PI / 2 - x) ltac:(specialize (Sw x Hx); lra))) as L.
    rewrite E. refine (Rle_trans _ _ _ L _). match goal with |- _ <= Rabs (- 1 * ?p) => replace (- 1 * p) with (- p) by ring end. rewrite Rabs_Ropp. lra.
  - intros x y Hx Hy. destruct (In x Hx) as (_ & _ & Ex). destruct (In y Hy) as (_ & _ & Ey).
    pose proof (low_lip c A Cs HA Hc HT (PI / 2 - x) (PI / 2 - y) ltac:(specialize (Sw x Hx); lra) ltac:(specialize (Sw y Hy); lra)) as L.
    rewrite Ex, Ey. match goal with |- Rabs (- 1 * ?p - - 1 * ?q) <= _ => replace (- 1 * p - - 1 * q) with (- (p - q)) by ring end.
    rewrite Rabs_Ropp. refine (Rle_trans _ _ _ L _). replace (PI / 2 - x - (PI / 2 - y)) with (- (x - y)) by ring. rewrite Rabs_Ropp. lra.
  - cbv beta. assert (Rabs (PI / 2 - atan Cs - (PI / 2 - atan Cs)) <= r) as Hz by (unfold Rminus at 1; rewrite Rplus_opp_r, Rabs_R0; lra).
    destruct (In _ Hz) as (C1 & C2 & E). rewrite <- Hroot. rewrite cos_shift in *. unfold tan at 1. rewrite cos_shift, sin_shift.
    pose proof (cos_atan_pos Cs). unfold tan. field. lra.
  - apply Rmax_lub; [lra|]. pose proof (pow2_ge_0 eps). lra.
Qed.

(** ** The geometry *)
Lemma height_ratio e t h : valid e -> fl e <= 1 / 200 -> Rabs h <= ax e / 100 ->
  let P := prime_vertical e t + h in let Q := prime_vertical e t * (1 - esq e) + h in
  0 < P /\ 0.99 * ax e <= P /\ 0.9898 * P <= Q <= P.
Proof.
  intros V Hf Hh P Q. assert (Ha : 0 < ax e) by (destruct V; lra).
  pose proof (esq_range e V) as [E0 _]. assert (E1 : esq e <= 0.01) by (unfold esq; pose proof (pow2_ge_0 (fl e)); lra).
  assert (PN : ax e <= prime_vertical e t).
  { pose proof (pv_pos e t V) as Np. pose proof (pv_sq e t V) as Sq. apply Rnot_lt_le. intros H.
    pose proof (Rle_0_sqr (sin t)) as S0. unfold Rsqr in S0.
    assert (prime_vertical e t * prime_vertical e t < ax e * ax e) by (apply Rmult_le_0_lt_compat; lra).
    assert (0 <= prime_vertical e t * prime_vertical e t * (esq e * (sin t * sin t))) by (apply Rmult_le_pos; apply Rmult_le_pos; lra).
    lra. }
  assert (Hb : - (ax e / 100) <= h <= ax e / 100) by (unfold Rabs in Hh; destruct (Rcase_abs h); lra).
  assert (0 <= prime_vertical e t * esq e <= 0.01 * prime_vertical e t).
  { split; [apply Rmult_le_pos; lra|]. rewrite Rmult_comm. apply Rmult_le_compat_r; lra. }
  unfold P, Q. repeat split; lra.
Qed.
Lemma ratio_bounds P1 Q1 P2 Q2 : 0 < P1 -> 0 < P2 -> 0.9898 * P1 <= Q1 <= P1 -> 0.9898 * P2 <= Q2 <= P2 ->
  0.9898 <= Q1 * P2 / (P1 * Q2) <= 1.0104.
Proof.
  intros H1 H2 H3 H4. assert (0 < Q2) by lra. assert (0 < P1 * Q2) by (apply Rmult_lt_0_compat; lra).
  split; apply Rmult_le_reg_r with (P1 * Q2); auto; replace (Q1 * P2 / (P1 * Q2) * (P1 * Q2)) with (Q1 * P2) by (field; lra).
  - apply Rle_trans with (0.9898 * P1 * P2).
    + rewrite !Rmult_assoc. do 2 (apply Rmult_le_compat_l; [lra|]). lra.
    + apply Rmult_le_compat_r; lra.
  - apply Rle_trans with (P1 * P2); [apply Rmult_le_compat_r; lra|].
    replace (1.0104 * (P1 * Q2)) with (P1 * (1.0104 * Q2)) by ring. apply Rmult_le_compat_l; lra.
Qed.
Lemma tan_pos_lat phi : 0 < phi < 90 -> 0 < sin (rad phi) /\ 0 < cos (rad phi) /\ 0 < rad phi < PI / 2.
Proof.
  intros H. pose proof PI_RGT_0. assert (0 < rad phi < PI / 2).
  { unfold rad. split; [apply Rmult_lt_0_compat; lra|]. replace (PI / 2) with (90 * (PI / 180)) by field. apply Rmult_lt_compat_r; lra. }
  repeat split; try lra; [apply sin_gt_0|apply cos_gt_0]; lra.
Qed.
(* a sine or cosine from a bound on the tangent or cotangent *)
Lemma leg_bound x y : 0 < x -> x * x + y * y = 1 -> y <= 1.0104 * x -> 0 <= y -> 0.7 <= x.
Proof.
  intros Hx E H Hy. apply Rnot_lt_le. intros L.
  assert (y * y <= 1.0104 * x * (1.0104 * x)) by (apply Rmult_le_compat; lra).
  assert (x * x < 0.7 * 0.7) by (apply Rmult_le_0_lt_compat; lra). lra.
Qed.

Section Core.
  Variables (e1 e2 : ellipsoid) (eps : R) (itmax : nat) (phi h phis hx : R).
  Hypothesis V1 : valid e1.
  Hypothesis V2 : valid e2.
  Hypothesis F1 : fl e1 <= 1 / 200.
  Hypothesis F2 : fl e2 <= 1 / 200.
  Hypothesis A2 : 1 <= ax e2.
  Hypothesis H1 : Rabs h <= ax e1 / 100.
  Hypothesis H2 : Rabs hx <= ax e2 / 100.
  Hypothesis He : 0 < eps <= 1 / 1000.
  Hypothesis Hphi : eps <= phi.
  Hypothesis Hphi2 : eps <= 90 - phi.
  Hypothesis Hc : eps <= cos (rad phi).
  Hypothesis Hn : (1 / 10) ^ (2 ^ S itmax) <= eps ^ 2.
  Hypothesis Hs : -90 < phis < 90.
  Hypothesis EX : axis_distance e2 phis hx = axis_distance e1 phi h.
  Hypothesis EZ : axis_height e2 phis hx = axis_height e1 phi h.

  Lemma core : let '(phi2, h2) := convert_point e1 e2 eps itmax phi h in
    Rabs (rad phi2 - rad phis) <= 11 * eps ^ 2 /\ Rabs (h2 - hx) <= 15 * ax e2 * eps ^ 2.
  Proof.
    destruct (tan_pos_lat phi ltac:(lra)) as (S1 & C1 & R1).
    pose proof (cos_lat_pos _ Hs) as Cs. pose proof (rad_sbound _ Hs) as Rs.
    set (t1 := rad phi) in *. set (ts := rad phis) in *.
    destruct (height_ratio e1 t1 h V1 F1 H1) as (P1p & _ & Q1b). destruct (height_ratio e2 ts hx V2 F2 H2) as (P2p & P2a & Q2b).
    rewrite (merid_x e2 phis hx V2), (merid_x e1 phi h V1) in EX. rewrite (merid_z e2 phis hx V2), (merid_z e1 phi h V1) in EZ. fold t1 ts in EX, EZ.
    set (P1 := prime_vertical e1 t1 + h) in *. set (P2 := prime_vertical e2 ts + hx) in *.
    set (Q1 := prime_vertical e1 t1 * (1 - esq e1) + h) in *. set (Q2 := prime_vertical e2 ts * (1 - esq e2) + hx) in *.
    pose proof (ratio_bounds P1 Q1 P2 Q2 P1p P2p Q1b Q2b) as Kb. set (k := Q1 * P2 / (P1 * Q2)) in *.
    assert (Q2p : 0 < Q2) by lra. assert (Q1p : 0 < Q1) by lra.
    assert (Ss : 0 < sin ts).
    { apply Rmult_lt_reg_l with Q2; auto. rewrite Rmult_0_r, EZ. now apply Rmult_lt_0_compat. }
    assert (Tk : tan ts = k * tan t1).
    { unfold tan, k. apply Rmult_eq_reg_r with (Q2 * (P2 * cos ts)); [|apply Rgt_not_eq; repeat apply Rmult_lt_0_compat; lra].
      replace (sin ts / cos ts * (Q2 * (P2 * cos ts))) with (Q2 * sin ts * P2) by (field; lra). rewrite EX, EZ. field. lra. }
    assert (T1p : 0 < tan t1) by (unfold tan; apply Rdiv_lt_0_compat; lra).
    assert (Tsp : 0 < tan ts) by (unfold tan; apply Rdiv_lt_0_compat; lra).
    set (f1 := fl e1) in *. set (f2 := fl e2) in *.
    assert (f10 : 0 <= f1) by (destruct V1; unfold f1; lra). assert (f20 : 0 <= f2) by (destruct V2; unfold f2; lra).
    assert (Ha1 : 0 < ax e1) by (destruct V1; lra). assert (Ha2 : 0 < ax e2) by lra.
    assert (Eb1 : b_axis e1 / ax e1 = 1 - f1) by (unfold b_axis, f1; field; lra).
    assert (Eb2 : b_axis e2 = (1 - f2) * ax e2) by reflexivity.
    assert (Hb2 : 0 < b_axis e2) by now apply b_pos.
    destruct (reduced_pv e2 ts V2 Cs) as [Z1 Z2]. destruct (reduced_pv e1 t1 V1 C1) as [Y1 Y2]. cbv zeta in *.
    set (Ts := b_axis e2 / ax e2 * tan ts) in *. set (us := atan Ts) in *.
    assert (ETs : Ts = (1 - f2) * (k * tan t1)) by (unfold Ts; rewrite Eb2, Tk; field; lra).
    assert (Tus : tan us = Ts) by apply tan_atan.
    assert (Cus : 0 < cos us) by apply cos_atan_pos.
    assert (Sus : sin us = Ts * cos us) by (rewrite <- Tus; unfold tan; field; lra).
    assert (Tsp' : 0 < Ts) by (unfold Ts; apply Rmult_lt_0_compat; auto; apply Rdiv_lt_0_compat; lra).
    assert (Back : atan (ax e2 / b_axis e2 * tan us) = ts).
    { rewrite Tus. unfold Ts. replace (ax e2 / b_axis e2 * (b_axis e2 / ax e2 * tan ts)) with (tan ts) by (field; lra). now apply atan_tan. }
    assert (EXs : P2 * cos ts = ax e2 * cos us + hx * cos ts) by (unfold P2; rewrite Z1; ring).
    assert (EZs : Q2 * sin ts = b_axis e2 * sin us + hx * sin ts) by (unfold Q2; rewrite Z2; ring).
    assert (Ee : esq e2 <= 0.01) by (unfold esq; fold f2; pose proof (pow2_ge_0 f2); lra). pose proof (esq_range e2 V2) as [Ee0 _].
    assert (Edif : ax e2 * ax e2 - b_axis e2 * b_axis e2 = esq e2 * (ax e2 * ax e2)) by (rewrite Eb2; unfold esq; fold f2; ring).
    assert (Ha22 : 1 <= ax e2 * ax e2) by (rewrite <- (Rmult_1_l 1); apply Rmult_le_compat; lra).
    assert (Ecd : 0 <= ax e2 * ax e2 - b_axis e2 * b_axis e2 <= 0.01 * (ax e2 * ax e2)).
    { rewrite Edif. split; [apply Rmult_le_pos; lra|]. apply Rmult_le_compat_r; lra. }
    assert (e2p : 0 < eps ^ 2) by (apply pow_lt; lra).
    assert (e2s : eps ^ 2 <= 1 / 1000 * eps) by (replace (eps ^ 2) with (eps * eps) by ring; apply Rmult_le_compat_r; lra).
    assert (Kst : 1 <= ax e2 / b_axis e2 <= 1.1).
    { split; apply Rmult_le_reg_r with (b_axis e2); auto; replace (ax e2 / b_axis e2 * b_axis e2) with (ax e2) by (field; lra); rewrite Eb2.
      - rewrite Rmult_1_l. rewrite <- (Rmult_1_l (ax e2)) at 2. apply Rmult_le_compat_r; lra.
      - rewrite <- Rmult_assoc. rewrite <- (Rmult_1_l (ax e2)) at 1. apply Rmult_le_compat_r; lra. }
    (* from the reduced latitude to latitude *)
    assert (Lat : forall u2, - (PI / 2) < u2 < PI / 2 -> Rabs (u2 - us) <= 10 * eps ^ 2 ->
      let t2 := atan (ax e2 / b_axis e2 * tan u2) in
      rad (limit90 (t2 * 180 / PI)) = t2 /\ Rabs (t2 - ts) <= 11 * eps ^ 2).
    { intros u2 Hu2 Hd t2. pose proof (atan_bound (ax e2 / b_axis e2 * tan u2)) as Bt. fold t2 in Bt. pose proof PI_RGT_0 as Hpi.
      split.
      - rewrite limit90_id; [unfold rad; field; lra|].
        split; apply Rmult_le_reg_r with (PI / 180); try lra; replace (t2 * 180 / PI * (PI / 180)) with t2 by (field; lra); lra.
      - rewrite <- Back. unfold t2. pose proof (atan_bound Ts) as Bu. fold us in Bu.
        refine (Rle_trans _ _ _ (stretch_lip _ u2 us (proj1 Kst) Hu2 ltac:(lra)) _).
        apply Rle_trans with (1.1 * (10 * eps ^ 2)); [apply Rmult_le_compat; try lra; apply Rabs_pos|lra]. }
    assert (Fin : forall X w W v W2 v2, 0.7 <= w -> 0 <= W <= ax e2 -> X - W * v = hx * w -> Rabs (v - v2) <= 10 * eps ^ 2 -> Rabs (w - W2) <= 11 * eps ^ 2 ->
      Rabs ((X - W * v2) / W2 - hx) <= 15 * ax e2 * eps ^ 2).
    { intros X w W v W2 v2 Hw HW EXw D1 D2.
      assert (W2p : 0.69 <= W2) by (unfold Rabs in D2; destruct (Rcase_abs (w - W2)); lra).
      replace ((X - W * v2) / W2 - hx) with ((W * (v - v2) + hx * (w - W2)) / W2).
      - unfold Rdiv. rewrite Rabs_mult, Rabs_inv, (Rabs_pos_eq W2) by lra.
        apply Rmult_le_reg_r with W2; [lra|]. rewrite Rmult_assoc, Rinv_l, Rmult_1_r by lra.
        refine (Rle_trans _ _ _ (Rabs_triang _ _) _). rewrite !Rabs_mult, (Rabs_pos_eq W) by lra.
        assert (W * Rabs (v - v2) <= ax e2 * (10 * eps ^ 2)) by (apply Rmult_le_compat; try lra; apply Rabs_pos).
        assert (Rabs hx * Rabs (w - W2) <= ax e2 / 100 * (11 * eps ^ 2)) by (apply Rmult_le_compat; auto using Rabs_pos).
        assert (P : 0 < ax e2 * eps ^ 2) by (apply Rmult_lt_0_compat; lra).
        assert (0.69 * (15 * ax e2 * eps ^ 2) <= 15 * ax e2 * eps ^ 2 * W2) by (rewrite Rmult_comm; apply Rmult_le_compat_l; lra).
        lra.
      - replace (hx * (w - W2)) with (X - W * v - hx * W2) by lra. field. lra. }
    unfold convert_point. rewrite <- rabs_rad. fold t1. rewrite (Rabs_pos_eq phi) by lra.
    rewrite (rlt_f phi eps), (rlt_f (90 - phi) eps), (rlt_f (cos t1) eps) by lra.
    replace (sin t1 / cos t1) with (tan t1) by reflexivity.
    set (u1 := atan (b_axis e1 / ax e1 * tan t1)) in *. cbv zeta.
    replace (ax e1 * cos u1 + h * cos t1) with (P2 * cos ts) by (rewrite EX, Y1; unfold P1; ring).
    replace (b_axis e1 * sin u1 + h * sin t1) with (Q2 * sin ts) by (rewrite EZ, Y2; unfold Q1; ring).
    pose proof (sin2_cos2' ts) as Qs. pose proof PI_RGT_0 as Hpi.
    unfold rle. destruct (Rle_dec phi 45) as [L|L].
    - (* up to 45 degrees *)
      assert (T1 : tan t1 <= 1).
      { rewrite <- tan_PI4. assert (t1 <= PI / 4) by (unfold t1, rad; replace (PI / 4) with (45 * (PI / 180)) by field; apply Rmult_le_compat_r; lra).
        destruct H as [H|H]; [left; apply tan_increasing; lra|rewrite H; lra]. }
      assert (Hcos : 0.7 <= cos ts).
      { apply (leg_bound (cos ts) (sin ts)); try lra. replace (sin ts) with (tan ts * cos ts) by (unfold tan; field; lra).
        apply Rmult_le_compat_r; [lra|]. rewrite Tk. rewrite <- (Rmult_1_r 1.0104). apply Rmult_le_compat; lra. }
      assert (HA : 0.693 * (ax e2 * ax e2) <= ax e2 * (P2 * cos ts)).
      { replace (0.693 * (ax e2 * ax e2)) with (ax e2 * (0.99 * ax e2 * 0.7)) by lra. apply Rmult_le_compat_l; [lra|]. apply Rmult_le_compat; lra. }
      assert (Kt : 0 <= (1 - f2) * k <= 1.0104).
      { split; [apply Rmult_le_pos; lra|]. rewrite <- (Rmult_1_l 1.0104). apply Rmult_le_compat; lra. }
      assert (Kt2 : 0.98 <= (1 - f2) * k) by (apply Rle_trans with (0.995 * 0.9898); [lra|]; apply Rmult_le_compat; lra).
      assert (KT : 0.9848 <= (1 - f2) * k) by (apply Rle_trans with (0.995 * 0.9898); [lra|]; apply Rmult_le_compat; lra).
      assert (BTs : Rabs Ts <= 1.02).
      { rewrite Rabs_pos_eq by lra. rewrite ETs, <- Rmult_assoc. apply Rle_trans with (1.0104 * 1); [apply Rmult_le_compat; lra|lra]. }
      assert (Start : Rabs (u1 - us) <= 0.02).
      { unfold u1, us. refine (Rle_trans _ _ _ (atan_lip _ _) _). rewrite Eb1, ETs.
        replace ((1 - f1) * tan t1 - (1 - f2) * (k * tan t1)) with ((1 - f1 - (1 - f2) * k) * tan t1) by ring.
        rewrite Rabs_mult, (Rabs_pos_eq (tan t1)) by lra. rewrite <- (Rmult_1_r 0.02). apply Rmult_le_compat; auto using Rabs_pos; try lra.
        unfold Rabs. destruct (Rcase_abs (1 - f1 - (1 - f2) * k)); lra. }
      pose proof (low_newton (b_axis e2 * b_axis e2 - ax e2 * ax e2) (ax e2 * (P2 * cos ts)) (b_axis e2 * (Q2 * sin ts)) Ts eps (S itmax) u1 0.02) as NW.
      fold us in NW.
      specialize (NW ltac:(lra) ltac:(rewrite Rabs_minus_sym, Rabs_pos_eq; lra) BTs ltac:(lra) ltac:(lra) Hn).
      assert (Hroot : (b_axis e2 * b_axis e2 - ax e2 * ax e2) * sin us + ax e2 * (P2 * cos ts) * tan us - b_axis e2 * (Q2 * sin ts) = 0).
      { rewrite EXs, EZs, Tus, Sus. unfold Ts, tan. field. lra. }
      specialize (NW Hroot Start).
      match goal with |- context [newton ?a ?b ?c ?d ?e] => set (u2 := newton a b c d e) in * end.
      assert (Ru2 : - (PI / 2) < u2 < PI / 2) by (destruct (tan_near u2 Ts BTs) as (_ & _ & _ & ?); auto; fold us; lra).
      destruct (Lat u2 Ru2 NW) as [-> D]. split; [exact D|].
      apply (Fin _ (cos ts) (ax e2) (cos us)); try lra.
      + refine (Rle_trans _ _ _ (cos_lip _ _) _). rewrite Rabs_minus_sym. exact NW.
      + refine (Rle_trans _ _ _ (cos_lip _ _) _). rewrite Rabs_minus_sym. exact D.
    - (* beyond 45 degrees *)
      set (q := / tan t1). assert (T1 : 1 <= tan t1).
      { rewrite <- tan_PI4. assert (PI / 4 < t1) by (unfold t1, rad; replace (PI / 4) with (45 * (PI / 180)) by field; apply Rmult_lt_compat_r; lra).
        left. apply tan_increasing; lra. }
      assert (Hq : 0 < q <= 1) by (unfold q; split; [apply Rinv_0_lt_compat; lra|rewrite <- Rinv_1; apply Rinv_le_contravar; lra]).
      assert (Hqe : eps <= q).
      { unfold q. apply Rle_trans with (cos t1); [lra|]. apply Rmult_le_reg_r with (tan t1); auto. rewrite Rinv_l by lra.
        unfold tan. replace (cos t1 * (sin t1 / cos t1)) with (sin t1) by (field; lra). apply SIN_bound. }
      assert (Hsin : 0.7 <= sin ts).
      { apply (leg_bound (sin ts) (cos ts)); try lra. apply Rmult_le_reg_r with (k * tan t1); [apply Rmult_lt_0_compat; lra|].
        rewrite <- Tk. unfold tan at 1. replace (cos ts * (sin ts / cos ts)) with (sin ts) by (field; lra).
        replace (1.0104 * sin ts * tan ts) with (sin ts * (1.0104 * tan ts)) by ring. rewrite <- (Rmult_1_r (sin ts)) at 1. apply Rmult_le_compat_l; [lra|].
        rewrite Tk. apply Rle_trans with (1.0104 * (0.9898 * 1)); [lra|]. apply Rmult_le_compat_l; [lra|]. apply Rmult_le_compat; lra. }
      assert (HA : 0.682 * (ax e2 * ax e2) <= b_axis e2 * (Q2 * sin ts)).
      { apply Rle_trans with (0.995 * ax e2 * (0.9898 * (0.99 * ax e2) * 0.7)); [lra|].
        apply Rmult_le_compat; [lra| |rewrite Eb2; apply Rmult_le_compat_r; lra|apply Rmult_le_compat; lra].
        apply Rmult_le_pos; lra. }
      assert (Kt : 0.9848 <= (1 - f2) * k <= 1.0104).
      { split; [apply Rle_trans with (0.995 * 0.9898); [lra|]; apply Rmult_le_compat; lra|]. rewrite <- (Rmult_1_l 1.0104). apply Rmult_le_compat; lra. }
      assert (ECs : / Ts = q * / ((1 - f2) * k)) by (rewrite ETs; unfold q; field; lra).
      assert (Ki : 0.9897 <= / ((1 - f2) * k) <= 1.01545).
      { split; apply Rmult_le_reg_r with ((1 - f2) * k); try lra; rewrite Rinv_l by lra; lra. }
      assert (Fi : 1 <= / (1 - f1) <= 1.00503).
      { split; apply Rmult_le_reg_r with (1 - f1); try lra; rewrite Rinv_l by lra; lra. }
      assert (BCs : 0 < / Ts <= 1.02).
      { rewrite ECs. split; [apply Rmult_lt_0_compat; lra|]. apply Rle_trans with (1 * 1.01545); [apply Rmult_le_compat; lra|lra]. }
      assert (Eus : us = PI / 2 - atan (/ Ts)) by (rewrite atan_inv by auto; unfold us; ring).
      assert (Lo : 0.48 * q <= atan (/ Ts)).
      { pose proof (atan_lower 0 (/ Ts) 1.02 ltac:(lra) ltac:(lra) ltac:(lra)) as LL. rewrite atan_0 in LL.
        assert (0.9897 * q <= / Ts) by (rewrite ECs, Rmult_comm; apply Rmult_le_compat_l; lra). lra. }
      assert (Start : Rabs (u1 - us) <= 0.016 * q).
      { assert (E1 : u1 = PI / 2 - atan (/ ((1 - f1) * tan t1))).
        { rewrite atan_inv by (apply Rmult_lt_0_compat; lra). unfold u1. rewrite Eb1. ring. }
        rewrite E1, Eus.
        replace (PI / 2 - atan (/ ((1 - f1) * tan t1)) - (PI / 2 - atan (/ Ts))) with (- (atan (/ ((1 - f1) * tan t1)) - atan (/ Ts))) by ring.
        rewrite Rabs_Ropp. refine (Rle_trans _ _ _ (atan_lip _ _) _). rewrite ECs.
        replace (/ ((1 - f1) * tan t1)) with (q * / (1 - f1)) by (unfold q; field; lra).
        replace (q * / (1 - f1) - q * / ((1 - f2) * k)) with (q * (/ (1 - f1) - / ((1 - f2) * k))) by ring.
        rewrite Rabs_mult, (Rabs_pos_eq q), (Rmult_comm 0.016) by lra. apply Rmult_le_compat_l; [lra|].
        unfold Rabs. destruct (Rcase_abs (/ (1 - f1) - / ((1 - f2) * k))); lra. }
      pose proof (high_newton (ax e2 * ax e2 - b_axis e2 * b_axis e2) (b_axis e2 * (Q2 * sin ts)) (ax e2 * (P2 * cos ts)) (/ Ts) eps (S itmax) u1 (0.016 * q)) as NW.
      specialize (NW ltac:(lra) ltac:(rewrite Rabs_pos_eq; lra) BCs ltac:(lra) ltac:(lra) ltac:(lra) Hn).
      assert (Hroot : (ax e2 * ax e2 - b_axis e2 * b_axis e2) * sin (atan (/ Ts)) + b_axis e2 * (Q2 * sin ts) * tan (atan (/ Ts)) - ax e2 * (P2 * cos ts) = 0).
      { rewrite tan_atan. replace (atan (/ Ts)) with (PI / 2 - us) by lra. rewrite sin_shift, EXs, EZs, Sus. unfold Ts, tan. field. repeat split; lra. }
      rewrite <- Eus in NW. specialize (NW Hroot Start).
      match goal with |- context [newton ?a ?b ?c ?d ?e] => set (u2 := newton a b c d e) in * end.
      assert (Ru2 : - (PI / 2) < u2 < PI / 2).
      { assert (0 < us) by (unfold us; rewrite <- atan_0; now apply atan_increasing). unfold Rabs in NW. pose proof PI_4. pose proof PI2_1. destruct (Rcase_abs (u2 - us)); lra. }
      destruct (Lat u2 Ru2 NW) as [-> D]. split; [exact D|].
      apply (Fin _ (sin ts) (b_axis e2) (sin us)); try lra.
      + split; [lra|]. rewrite Eb2. rewrite <- (Rmult_1_l (ax e2)) at 2. apply Rmult_le_compat_r; lra.
      + refine (Rle_trans _ _ _ (sin_lip _ _) _). rewrite Rabs_minus_sym. exact NW.
      + refine (Rle_trans _ _ _ (sin_lip _ _) _). rewrite Rabs_minus_sym. exact D.
  Qed.
End Core.

(** ** The result *)
(** A position at (phi, h) on the first ellipsoid, away from the bands where the code
    takes its shortcuts, has exact coordinates (phis, hx) on the second; the code
    returns them to a few times the square of its tolerance (latitude in radians,
    height relative to the semimajor axis).  The hypotheses: flattenings up to 1/200,
    heights within one part in a hundred of the radius, a tolerance up to 1/1000, and
    enough passes for it (two to the number of passes is at least twice its digits;
    the defaults allow 2048 digits for 12). *)
Theorem C20_exact e1 e2 eps itmax lon phi h phis hx : valid e1 -> valid e2 -> fl e1 <= 1 / 200 -> fl e2 <= 1 / 200 -> 1 <= ax e2 ->
  Rabs h <= ax e1 / 100 -> Rabs hx <= ax e2 / 100 ->
  0 < eps <= 1 / 1000 -> (1 / 10) ^ (2 ^ S itmax) <= eps ^ 2 ->
  eps <= Rabs phi -> eps <= 90 - Rabs phi -> eps <= cos (rad phi) ->
  -90 < phis < 90 -> to_cartesian e2 lon phis hx = to_cartesian e1 lon phi h ->
  let '(phi2, h2) := convert_point e1 e2 eps itmax phi h in
  Rabs (rad phi2 - rad phis) <= 11 * eps ^ 2 /\ Rabs (h2 - hx) <= 15 * ax e2 * eps ^ 2.
Proof.
  intros V1 V2 F1 F2 A2 H1 H2 He Hn B1 B2 Hc Hs E.
  assert (EX : axis_distance e2 phis hx = axis_distance e1 phi h).
  { rewrite (merid_x e2 phis hx V2), (merid_x e1 phi h V1).
    pose proof (f_equal vx E) as Ex. pose proof (f_equal vy E) as Ey.
    rewrite (cart_x _ _ _ _ V1), (cart_x _ _ _ _ V2) in Ex. rewrite (cart_y _ _ _ _ V1), (cart_y _ _ _ _ V2) in Ey.
    pose proof (sin2_cos2' (rad lon)) as Q.
    set (D1 := (prime_vertical e1 (rad phi) + h) * cos (rad phi)) in *. set (D2 := (prime_vertical e2 (rad phis) + hx) * cos (rad phis)) in *.
    replace D2 with (D2 * cos (rad lon) * cos (rad lon) + D2 * sin (rad lon) * sin (rad lon))
      by (replace (D2 * cos (rad lon) * cos (rad lon) + D2 * sin (rad lon) * sin (rad lon)) with (D2 * (sin (rad lon) * sin (rad lon) + cos (rad lon) * cos (rad lon))) by ring; rewrite Q; ring).
    rewrite Ex, Ey. replace (D1 * cos (rad lon) * cos (rad lon) + D1 * sin (rad lon) * sin (rad lon)) with (D1 * (sin (rad lon) * sin (rad lon) + cos (rad lon) * cos (rad lon))) by ring.
    rewrite Q. ring. }
  assert (EZ : axis_height e2 phis hx = axis_height e1 phi h).
  { rewrite (merid_z e2 phis hx V2), (merid_z e1 phi h V1). pose proof (f_equal vz E) as Ez. now rewrite (cart_z _ _ _ _ V1), (cart_z _ _ _ _ V2) in Ez. }
  destruct (Rle_or_lt 0 phi) as [L|L].
  - rewrite Rabs_pos_eq in B1, B2 by lra. now apply core.
  - rewrite (Rabs_left phi) in B1, B2 by lra.
    assert (Rn : forall x, rad (- x) = - rad x) by (intros x; unfold rad; ring).
    assert (Pn : forall e t, valid e -> prime_vertical e (- t) = prime_vertical e t).
    { intros e t V. unfold prime_vertical. rewrite sin_neg. do 4 f_equal. ring. }
    pose proof (core e1 e2 eps itmax (- phi) h (- phis) hx V1 V2 F1 F2 A2 H1 H2 He B1 B2) as C. specialize (C ltac:(rewrite Rn, cos_neg; lra) Hn ltac:(lra)).
    rewrite (merid_x _ _ _ V1), (merid_x _ _ _ V2), (merid_z _ _ _ V1), (merid_z _ _ _ V2) in C.
    rewrite (merid_x _ _ _ V1), (merid_x _ _ _ V2) in EX. rewrite (merid_z _ _ _ V1), (merid_z _ _ _ V2) in EZ.
    rewrite !Rn, !Pn, !cos_neg, !sin_neg in C by auto. specialize (C EX ltac:(lra)).
    rewrite C20_mirror in C. destruct (convert_point e1 e2 eps itmax phi h) as [phi2 h2]. cbn [fst snd] in C.
    rewrite !Rn in C. destruct C as [C1 C2]. split; auto.
    replace (- rad phi2 - - rad phis) with (- (rad phi2 - rad phis)) in C1 by ring. now rewrite Rabs_Ropp in C1.
Qed.
Print Assumptions C20_exact.

(** From a sphere, where every position is explicit: 45 degrees on WGS84 at the
    defaults of the code (spatial.py:1379-1380). *)
Example C20_exact_case : let e1 := Ell 6371000 0 in
  exists phi h, to_cartesian wgs84 30 45 0 = to_cartesian e1 30 phi h /\
  let '(phi2, h2) := convert_point e1 wgs84 1e-12 10 phi h in
  Rabs (rad phi2 - PI / 4) <= 1e-22 /\ Rabs (h2 - 0) <= 1e-15.
Proof.
  intros e1. set (N := prime_vertical wgs84 (rad 45)).
  assert (Vw : valid wgs84) by apply C20_valid_case. assert (V1 : valid e1) by (unfold e1, valid; cbn [ax fl]; lra).
  assert (R45 : rad 45 = PI / 4) by (unfold rad; field). pose proof PI_RGT_0 as Hpi.
  assert (Cp : 0 < cos (PI / 4)) by (apply cos_gt_0; lra).
  assert (Sc : sin (PI / 4) = cos (PI / 4)) by apply sin_cos_PI4.
  assert (Fw : 0.00335 <= fl wgs84 <= 0.00336) by (unfold wgs84; cbn [fl]; lra).
  assert (Es : 0.0066 <= esq wgs84 <= 0.0068).
  { unfold esq. assert (0 <= fl wgs84 ^ 2 <= 0.00336 ^ 2) by (split; [apply pow2_ge_0|apply pow_incr; lra]). lra. }
  assert (Nb : 6378137 <= N <= 6400000).
  { unfold N. pose proof (pv_sq wgs84 (rad 45) Vw) as Sq. rewrite R45 in *. pose proof (pv_pos wgs84 (PI / 4) Vw) as Np.
    set (n := prime_vertical wgs84 (PI / 4)) in *. pose proof (sin2_cos2' (PI / 4)) as Q. rewrite Sc in Q, Sq.
    replace (cos (PI / 4) * cos (PI / 4)) with (1 / 2) in Sq by lra. change (ax wgs84) with 6378137 in Sq.
    assert (n * n * (esq wgs84 * (1 / 2)) <= n * n * 0.0034) by (apply Rmult_le_compat_l; [apply Rle_0_sqr|lra]).
    assert (0 <= n * n * (esq wgs84 * (1 / 2))) by (apply Rmult_le_pos; [apply Rle_0_sqr|lra]).
    split; apply Rnot_lt_le; intros L.
    - assert (n * n < 6378137 * 6378137) by (apply Rmult_le_0_lt_compat; lra). lra.
    - assert (6400000 * 6400000 < n * n) by (apply Rmult_le_0_lt_compat; lra). lra. }
  set (X := N * cos (PI / 4)). set (Z := N * (1 - esq wgs84) * sin (PI / 4)).
  assert (Xp : 0 < X) by (unfold X; apply Rmult_lt_0_compat; lra).
  assert (EZ : Z = (1 - esq wgs84) * X) by (unfold Z, X; rewrite Sc; ring).
  set (q := 1 - esq wgs84) in *. assert (Qb : 0.9932 <= q <= 0.9934) by (unfold q; lra). set (g := atan q).
  assert (Gb : 0 < g < PI / 4).
  { unfold g. split; [rewrite <- atan_0; apply atan_increasing; lra|]. rewrite <- atan_1. apply atan_increasing; lra. }
  assert (Cg : 0 < cos g) by (unfold g; apply cos_atan_pos).
  assert (Tg : sin g = q * cos g) by (replace q with (tan g) by (unfold g; apply tan_atan); unfold tan; field; lra).
  assert (Rg : rad (g * 180 / PI) = g) by (unfold rad; field; lra).
  assert (C707 : 0.707 <= cos (PI / 4) <= 0.7072).
  { pose proof (sin2_cos2' (PI / 4)) as Q. rewrite Sc in Q. split; apply Rnot_lt_le; intros L.
    - assert (cos (PI / 4) * cos (PI / 4) < 0.707 * 0.707) by (apply Rmult_le_0_lt_compat; lra). lra.
    - assert (0.7072 * 0.7072 < cos (PI / 4) * cos (PI / 4)) by (apply Rmult_le_0_lt_compat; lra). lra. }
  assert (Cgb : 0.707 <= cos g <= 0.7098).
  { pose proof (sin2_cos2' g) as Q. rewrite Tg in Q.
    assert (q * cos g * (q * cos g) <= cos g * cos g).
    { apply Rmult_le_compat; try (apply Rmult_le_pos; lra); rewrite <- (Rmult_1_l (cos g)) at 2; apply Rmult_le_compat_r; lra. }
    assert (0.9932 * cos g * (0.9932 * cos g) <= q * cos g * (q * cos g)).
    { apply Rmult_le_compat; try (apply Rmult_le_pos; lra); apply Rmult_le_compat_r; lra. }
    split; apply Rnot_lt_le; intros L.
    - assert (cos g * cos g < 0.707 * 0.707) by (apply Rmult_le_0_lt_compat; lra). lra.
    - assert (0.7098 * 0.7098 < cos g * cos g) by (apply Rmult_le_0_lt_compat; lra). lra. }
  set (r := X / cos g).
  assert (Er : r * cos g = X) by (unfold r; field; lra).
  assert (Rp : 0 < r) by (unfold r; now apply Rdiv_lt_0_compat).
  assert (Rb : 6340000 <= r <= 6420000).
  { unfold X in Er. assert (6378137 * 0.707 <= N * cos (PI / 4)) by (apply Rmult_le_compat; lra).
    assert (N * cos (PI / 4) <= 6400000 * 0.7072) by (apply Rmult_le_compat; lra).
    split; apply Rnot_lt_le; intros L.
    - assert (r * cos g < 6340000 * 0.71); [|lra]. apply Rmult_le_0_lt_compat; lra.
    - assert (6420000 * 0.706 < r * cos g) by (apply Rmult_le_0_lt_compat; lra). lra. }
  exists (g * 180 / PI), (r - 6371000).
  assert (P1 : prime_vertical e1 g = 6371000).
  { pose proof (pv_sq e1 g V1) as Sq. pose proof (pv_pos e1 g V1) as Np. assert (Z1 : esq e1 = 0) by (unfold esq, e1; cbn [fl]; ring). rewrite Z1 in Sq.
    change (ax e1) with 6371000 in Sq. apply Rsqr_inj; try lra. unfold Rsqr. lra. }
  assert (E : to_cartesian wgs84 30 45 0 = to_cartesian e1 30 (g * 180 / PI) (r - 6371000)).
  { assert (Z1 : esq e1 = 0) by (unfold esq, e1; cbn [fl]; ring).
    apply vec_ext.
    - rewrite (cart_x _ _ _ _ Vw), (cart_x _ _ _ _ V1), Rg, P1, R45. f_equal. replace (6371000 + (r - 6371000)) with r by ring. rewrite Er.
      replace (prime_vertical wgs84 (PI / 4) + 0) with (prime_vertical wgs84 (rad 45)) by (rewrite R45; ring). reflexivity.
    - rewrite (cart_y _ _ _ _ Vw), (cart_y _ _ _ _ V1), Rg, P1, R45. f_equal. replace (6371000 + (r - 6371000)) with r by ring. rewrite Er.
      replace (prime_vertical wgs84 (PI / 4) + 0) with (prime_vertical wgs84 (rad 45)) by (rewrite R45; ring). reflexivity.
    - rewrite (cart_z _ _ _ _ Vw), (cart_z _ _ _ _ V1), Rg, P1, R45, Z1. replace (6371000 * (1 - 0) + (r - 6371000)) with r by ring.
      rewrite Tg. replace (r * (q * cos g)) with (q * (r * cos g)) by ring. rewrite Er, <- EZ. unfold Z, N, q. rewrite R45. ring. }
  split; [exact E|].
  pose proof (C20_exact e1 wgs84 1e-12 10 30 (g * 180 / PI) (r - 6371000) 45 0 V1 Vw) as T.
  assert (Dg : 0 < g * 180 / PI < 45).
  { split; apply Rmult_lt_reg_r with (PI / 180); try lra; replace (g * 180 / PI * (PI / 180)) with g by (field; lra); lra. }
  assert (Lo : 1 < g * 180 / PI).
  { apply Rmult_lt_reg_r with (PI / 180); try lra. replace (g * 180 / PI * (PI / 180)) with g by (field; lra).
    pose proof (atan_lower 0 q 1 ltac:(lra) ltac:(lra) ltac:(lra)) as LL. rewrite atan_0 in LL. fold g in LL. pose proof PI_4. lra. }
  rewrite Rg, R45 in T. rewrite (Rabs_pos_eq (g * 180 / PI)) in T by lra.
  assert (Pw : (1 / 10) ^ (2 ^ 11) <= 1e-12 ^ 2).
  { replace (2 ^ 11)%nat with (24 + 2024)%nat by reflexivity. rewrite pow_add.
    assert (B : (1 / 10) ^ 2024 <= 1) by (rewrite <- (pow1 2024); apply pow_incr; lra).
    assert (A : (1 / 10) ^ 24 = 1e-12 ^ 2) by (unfold pow; lra).
    rewrite A. rewrite <- (Rmult_1_r (1e-12 ^ 2)) at 2. apply Rmult_le_compat_l; auto. apply pow2_ge_0. }
  assert (G : let '(phi2, h2) := convert_point e1 wgs84 1e-12 10 (g * 180 / PI) (r - 6371000) in
    Rabs (rad phi2 - PI / 4) <= 11 * 1e-12 ^ 2 /\ Rabs (h2 - 0) <= 15 * ax wgs84 * 1e-12 ^ 2).
  { apply T; auto; unfold e1, wgs84 in *; cbn [ax fl] in *; try lra.
    - unfold Rabs. destruct (Rcase_abs (r - 6371000)); lra.
    - rewrite Rabs_R0. lra. }
  destruct (convert_point e1 wgs84 1e-12 10 (g * 180 / PI) (r - 6371000)) as [phi2 h2]. change (ax wgs84) with 6378137 in G.
  destruct G as [G1 G2]. split.
  - refine (Rle_trans _ _ _ G1 _). unfold pow. lra.
  - refine (Rle_trans _ _ _ G2 _). unfold pow. lra.
Qed.
