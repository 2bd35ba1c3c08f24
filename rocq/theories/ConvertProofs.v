(** Newton's iteration of convert_ellipsoid (spatial.py:1452-1462): how close it gets. *)
From Coq Require Import Reals List Bool ZArith Lra Lia.
From Verif Require Import PyBase RBase StrBase MathModel AstroModel GeoModel GeoSpec GeoProofs LocalProps GeodeticProps MoritzProps BowringProps ConvertProps.
Import ListNotations.
Open Scope R_scope.

Section Newton.
  Variables (F F' : R -> R) (us r m K eps : R).
  Hypothesis Hder : forall x, Rabs (x - us) <= r -> derivable_pt_lim F x (F' x).
  Hypothesis Hm : forall x, Rabs (x - us) <= r -> m <= Rabs (F' x).
  Hypothesis HK : forall x y, Rabs (x - us) <= r -> Rabs (y - us) <= r -> Rabs (F' x - F' y) <= K * m * Rabs (x - y).
  Hypothesis Hroot : F us = 0.
  Hypothesis Hmp : 0 < m.
  Hypothesis HKp : 0 < K.
  Hypothesis Heps : 0 < eps <= m.

  Lemma mean u : Rabs (u - us) <= r -> exists c, Rabs (c - us) <= Rabs (u - us) /\ Rabs (c - u) <= Rabs (u - us) /\ F u = F' c * (u - us).
  Proof.
    intros Hu. destruct (Rtotal_order u us) as [L|[E|G]].
    - assert (exists c, F us - F u = F' c * (us - u) /\ u < c < us) as (c & E & Hc).
      { apply (MVT_cor2 F F' u us L). intros c Hc. apply Hder. unfold Rabs in *. destruct (Rcase_abs (u - us)), (Rcase_abs (c - us)); lra. }
      exists c. unfold Rabs. destruct (Rcase_abs (u - us)), (Rcase_abs (c - us)), (Rcase_abs (c - u)); repeat split; try lra.
    - exists us. subst u. unfold Rminus. rewrite !Rplus_opp_r, Rabs_R0. repeat split; lra.
    - assert (exists c, F u - F us = F' c * (u - us) /\ us < c < u) as (c & E & Hc).
      { apply (MVT_cor2 F F' us u G). intros c Hc. apply Hder. unfold Rabs in *. destruct (Rcase_abs (u - us)), (Rcase_abs (c - us)); lra. }
      exists c. unfold Rabs. destruct (Rcase_abs (u - us)), (Rcase_abs (c - us)), (Rcase_abs (c - u)); repeat split; try lra.
  Qed.

  Lemma step u : Rabs (u - us) <= r -> Rabs (u - F u / F' u - us) <= K * Rabs (u - us) ^ 2.
  Proof.
    intros Hu. destruct (mean u Hu) as (c & C1 & C2 & E). rewrite E.
    pose proof (Hm u Hu) as Hmu. assert (N : F' u <> 0) by (intros Z; rewrite Z, Rabs_R0 in Hmu; lra).
    replace (u - F' c * (u - us) / F' u - us) with ((F' u - F' c) * (u - us) / F' u) by (field; auto).
    unfold Rdiv. rewrite !Rabs_mult. rewrite (Rabs_inv (F' u)).
    assert (B : Rabs (F' u - F' c) <= K * m * Rabs (u - us)).
    { refine (Rle_trans _ _ _ (HK u c Hu _) _); [lra|]. apply Rmult_le_compat_l; [apply Rmult_le_pos; lra|]. rewrite Rabs_minus_sym. exact C2. }
    pose proof (Rabs_pos (u - us)) as P. pose proof (Rabs_pos (F' u - F' c)) as P2.
    apply Rmult_le_reg_r with (Rabs (F' u)); [lra|].
    replace (Rabs (F' u - F' c) * Rabs (u - us) * / Rabs (F' u) * Rabs (F' u)) with (Rabs (F' u - F' c) * Rabs (u - us)) by (field; lra).
    apply Rle_trans with (K * m * Rabs (u - us) * Rabs (u - us)); [now apply Rmult_le_compat_r|].
    replace (K * m * Rabs (u - us) * Rabs (u - us)) with (K * Rabs (u - us) ^ 2 * m) by ring.
    apply Rmult_le_compat_l; auto. apply Rmult_le_pos; [lra|]. apply pow2_ge_0.
  Qed.

  (* a short step means the starting point was close *)
  Lemma short u : Rabs (u - us) <= r -> K * Rabs (u - us) <= 1 / 10 -> Rabs (F u / F' u) < eps -> Rabs (u - us) <= 10 / 9 * eps.
  Proof.
    intros Hu Hk Hd. pose proof (step u Hu) as St.
    assert (T : Rabs (u - us) <= Rabs (u - F u / F' u - us) + Rabs (F u / F' u)).
    { replace (u - us) with ((u - F u / F' u - us) + F u / F' u) by ring. apply Rabs_triang. }
    pose proof (Rabs_pos (u - us)) as P.
    assert (K * Rabs (u - us) ^ 2 <= 1 / 10 * Rabs (u - us)).
    { replace (K * Rabs (u - us) ^ 2) with (K * Rabs (u - us) * Rabs (u - us)) by ring. now apply Rmult_le_compat_r. }
    lra.
  Qed.

  Lemma newton_close n : forall u q, Rabs (u - us) <= r -> K * Rabs (u - us) <= q -> q <= 1 / 10 ->
    Rabs (newton F F' eps n u - us) <= Rmax (2 * K * eps ^ 2) (q ^ (2 ^ n) / K).
  Proof.
    induction n as [|n IH]; intros u q Hu Hk Hq.
    - cbn [newton Nat.pow]. apply Rle_trans with (q ^ 1 / K); [|apply Rmax_r].
      apply Rmult_le_reg_l with K; auto. replace (K * (q ^ 1 / K)) with q by (field; lra). exact Hk.
    - cbn [newton]. pose proof (Hm u Hu) as Hmu. rewrite (rlt_f (Rabs (F' u)) eps) by lra. cbv zeta.
      pose proof (step u Hu) as St. pose proof (Rabs_pos (u - us)) as P.
      unfold rlt. destruct (Rlt_dec (Rabs (F u / F' u)) eps) as [D|D].
      + assert (Sh : Rabs (u - us) <= 10 / 9 * eps) by (apply short; auto; lra).
        apply Rle_trans with (2 * K * eps ^ 2); [|apply Rmax_l].
        refine (Rle_trans _ _ _ St _).
        replace (2 * K * eps ^ 2) with (K * (2 * eps ^ 2)) by ring. apply Rmult_le_compat_l; [lra|].
        apply Rle_trans with ((10 / 9 * eps) ^ 2); [apply pow_incr; lra|].
        replace ((10 / 9 * eps) ^ 2) with (100 / 81 * eps ^ 2) by field. apply Rmult_le_compat_r; [apply pow2_ge_0|lra].
      + assert (Q0 : 0 <= q) by (apply Rle_trans with (K * Rabs (u - us)); auto; apply Rmult_le_pos; lra).
        assert (Qs : K * Rabs (u - F u / F' u - us) <= q ^ 2).
        { apply Rle_trans with (K * (K * Rabs (u - us) ^ 2)); [apply Rmult_le_compat_l; lra|].
          replace (K * (K * Rabs (u - us) ^ 2)) with ((K * Rabs (u - us)) ^ 2) by ring. apply pow_incr. split; auto. apply Rmult_le_pos; lra. }
        replace (q ^ (2 ^ S n)) with ((q ^ 2) ^ (2 ^ n)) by (rewrite <- pow_mult; f_equal).
        apply IH; auto.
        * apply Rle_trans with (Rabs (u - us)); auto.
          refine (Rle_trans _ _ _ St _). replace (K * Rabs (u - us) ^ 2) with (K * Rabs (u - us) * Rabs (u - us)) by ring.
          rewrite <- (Rmult_1_l (Rabs (u - us))) at 3. apply Rmult_le_compat_r; lra.
        * replace (q ^ 2) with (q * q) by ring. apply Rle_trans with (1 / 10 * (1 / 10)); [|lra]. apply Rmult_le_compat; lra.
  Qed.
End Newton.

(** ** Tangents and arctangents *)
Lemma atan_upper x y : x <= y -> atan y - atan x <= y - x.
Proof.
  intros [L| ->]; [|lra].
  destruct (MVT_cor2 atan (fun t => / (1 + t ^ 2)) x y L) as (c & E & _).
  { intros c _. apply derivable_pt_lim_atan. }
  rewrite E. pose proof (pow2_ge_0 c). rewrite <- (Rmult_1_l (y - x)) at 2. apply Rmult_le_compat_r; [lra|].
  rewrite <- Rinv_1 at 2. apply Rinv_le_contravar; lra.
Qed.
Lemma atan_lip x y : Rabs (atan x - atan y) <= Rabs (x - y).
Proof.
  destruct (Rle_or_lt x y) as [H|H].
  - pose proof (atan_upper x y H). assert (atan x <= atan y) by (destruct H as [H| ->]; [left; now apply atan_increasing|lra]).
    unfold Rabs. destruct (Rcase_abs (atan x - atan y)), (Rcase_abs (x - y)); lra.
  - pose proof (atan_upper y x ltac:(lra)). pose proof (atan_increasing _ _ H).
    unfold Rabs. destruct (Rcase_abs (atan x - atan y)), (Rcase_abs (x - y)); lra.
Qed.
Lemma atan_lower x y T : - T <= x -> y <= T -> x <= y -> y - x <= (1 + T ^ 2) * (atan y - atan x).
Proof.
  intros Hx Hy [L| ->]; [|lra].
  destruct (MVT_cor2 atan (fun t => / (1 + t ^ 2)) x y L) as (c & E & Hc).
  { intros c _. apply derivable_pt_lim_atan. }
  rewrite E. pose proof (pow2_ge_0 c) as P. assert (c ^ 2 <= T ^ 2) by (rewrite <- (pow2_abs c); apply pow_incr; split; [apply Rabs_pos|unfold Rabs; destruct (Rcase_abs c); lra]).
  replace ((1 + T ^ 2) * (/ (1 + c ^ 2) * (y - x))) with ((1 + T ^ 2) / (1 + c ^ 2) * (y - x)) by (field; lra).
  rewrite <- (Rmult_1_l (y - x)) at 1. apply Rmult_le_compat_r; [lra|].
  apply Rmult_le_reg_r with (1 + c ^ 2); [lra|]. replace ((1 + T ^ 2) / (1 + c ^ 2) * (1 + c ^ 2)) with (1 + T ^ 2) by (field; lra). lra.
Qed.

Lemma atan_mono x y : x <= y -> atan x <= atan y.
Proof. intros [H| ->]; [left; now apply atan_increasing|lra]. Qed.
(** Angles within 0.02 of one whose tangent is at most 1.02 have tangents at most 1.1. *)
Lemma tan_near v T : Rabs T <= 1.02 -> Rabs (v - atan T) <= 0.02 -> exists s, Rabs s <= 1.1 /\ v = atan s /\ - (PI / 2) < v < PI / 2.
Proof.
  intros HT Hv.
  assert (U : atan 1.1 - atan 1.02 >= 0.02) by (pose proof (atan_lower 1.02 1.1 1.1); lra).
  assert (A1 : atan T <= atan 1.02) by (apply atan_mono; unfold Rabs in HT; destruct (Rcase_abs T); lra).
  assert (A2 : - atan 1.02 <= atan T) by (rewrite <- atan_opp; apply atan_mono; unfold Rabs in HT; destruct (Rcase_abs T); lra).
  assert (Bv : - atan 1.1 <= v <= atan 1.1) by (unfold Rabs in Hv; destruct (Rcase_abs (v - atan T)); lra).
  pose proof (atan_bound 1.1) as Bd. assert (Rg : - (PI / 2) < v < PI / 2) by lra.
  exists (tan v). split; [|split; auto; symmetry; now apply atan_tan].
  assert (Tm : tan v <= 1.1).
  { apply Rnot_lt_le. intros H. apply atan_increasing in H. rewrite atan_tan in H; lra. }
  assert (Tl : Ropp 1.1 <= tan v).
  { apply Rnot_lt_le. intros H. apply atan_increasing in H. rewrite (atan_opp 1.1), atan_tan in H; lra. }
  unfold Rabs. destruct (Rcase_abs (tan v)); lra.
Qed.
Lemma cos_atan_sq s : cos (atan s) * cos (atan s) * (1 + s * s) = 1.
Proof.
  pose proof (cos_atan_pos s) as C. pose proof (sin2_cos2' (atan s)) as Q. assert (T : tan (atan s) = s) by apply tan_atan. unfold tan in T.
  replace s with (sin (atan s) / cos (atan s)) at 3 4 by exact T.
  replace (cos (atan s) * cos (atan s) * (1 + sin (atan s) / cos (atan s) * (sin (atan s) / cos (atan s))))
    with (sin (atan s) * sin (atan s) + cos (atan s) * cos (atan s)) by (field; lra). exact Q.
Qed.
(** The tangent and the square of the secant on such angles. *)
Lemma tan_lip x y : Rabs (x - y) <= Rabs (atan x - atan y) * (1 + 1.1 ^ 2) \/ 1.1 < Rabs x \/ 1.1 < Rabs y.
Proof.
  destruct (Rle_or_lt (Rabs x) 1.1) as [Hx|]; auto. destruct (Rle_or_lt (Rabs y) 1.1) as [Hy|]; auto. left.
  assert (Bx : - 1.1 <= x <= 1.1) by (unfold Rabs in Hx; destruct (Rcase_abs x); lra).
  assert (By : - 1.1 <= y <= 1.1) by (unfold Rabs in Hy; destruct (Rcase_abs y); lra).
  destruct (Rle_or_lt x y) as [H|H].
  - pose proof (atan_lower x y 1.1 ltac:(lra) ltac:(lra) H) as L.
    rewrite (Rabs_minus_sym x y), (Rabs_minus_sym (atan x)), (Rabs_pos_eq (y - x)) by lra.
    assert (0 <= atan y - atan x) by lra. rewrite Rabs_pos_eq by auto. lra.
  - pose proof (atan_lower y x 1.1 ltac:(lra) ltac:(lra) ltac:(lra)) as L.
    rewrite (Rabs_pos_eq (x - y)) by lra. assert (0 <= atan x - atan y) by lra. rewrite Rabs_pos_eq by auto. lra.
Qed.
Lemma sec_lip s t : Rabs s <= 1.1 -> Rabs t <= 1.1 -> Rabs ((1 + s * s) - (1 + t * t)) <= 4.862 * Rabs (atan s - atan t).
Proof.
  intros Hs Ht. replace (1 + s * s - (1 + t * t)) with ((s - t) * (s + t)) by ring. rewrite Rabs_mult.
  destruct (tan_lip s t) as [L|[L|L]]; try lra.
  assert (Rabs (s + t) <= 2.2) by (pose proof (Rabs_triang s t); lra).
  replace (4.862 * Rabs (atan s - atan t)) with (Rabs (atan s - atan t) * (1 + 1.1 ^ 2) * 2.2) by lra.
  apply Rmult_le_compat; auto using Rabs_pos.
Qed.
Lemma sin_lip x y : Rabs (sin x - sin y) <= Rabs (x - y).
Proof.
  destruct (Rtotal_order x y) as [H|[->|H]].
  - destruct (MVT_cor2 sin cos x y H) as (c & E & _); [intros; apply derivable_pt_lim_sin|].
    rewrite Rabs_minus_sym, E, Rabs_mult, (Rabs_minus_sym x). pose proof (COS_bound c). pose proof (Rabs_pos (y - x)).
    rewrite <- (Rmult_1_l (Rabs (y - x))) at 2. apply Rmult_le_compat_r; auto. unfold Rabs. destruct (Rcase_abs (cos c)); lra.
  - unfold Rminus. rewrite !Rplus_opp_r. lra.
  - destruct (MVT_cor2 sin cos y x H) as (c & E & _); [intros; apply derivable_pt_lim_sin|].
    rewrite E, Rabs_mult. pose proof (COS_bound c). pose proof (Rabs_pos (x - y)).
    rewrite <- (Rmult_1_l (Rabs (x - y))) at 2. apply Rmult_le_compat_r; auto. unfold Rabs. destruct (Rcase_abs (cos c)); lra.
Qed.
Lemma cos_lip x y : Rabs (cos x - cos y) <= Rabs (x - y).
Proof.
  replace (cos x) with (sin (PI / 2 - x)) by now rewrite sin_shift. replace (cos y) with (sin (PI / 2 - y)) by now rewrite sin_shift.
  refine (Rle_trans _ _ _ (sin_lip _ _) _). replace (PI / 2 - x - (PI / 2 - y)) with (- (x - y)) by ring. rewrite Rabs_Ropp. lra.
Qed.
(** atan (k tan u) varies at most k times as fast as u *)
Lemma stretch_lip k u v : 1 <= k -> - (PI / 2) < u < PI / 2 -> - (PI / 2) < v < PI / 2 ->
  Rabs (atan (k * tan u) - atan (k * tan v)) <= k * Rabs (u - v).
Proof.
  intros Hk.
  assert (G : forall u v, - (PI / 2) < u < PI / 2 -> - (PI / 2) < v < PI / 2 -> u < v -> 0 <= atan (k * tan v) - atan (k * tan u) <= k * (v - u)).
  { clear u v. intros u v Hu Hv L.
    destruct (MVT_cor2 (fun x => atan (k * tan x)) (fun x => / (1 + (k * tan x) ^ 2) * (k * (1 + tan x ^ 2))) u v L) as (c & E & Hc).
    - intros c Hc. assert (Cc : cos c <> 0) by (apply Rgt_not_eq, cos_gt_0; lra).
      apply (derivable_pt_lim_comp (fun x => k * tan x) atan).
      + apply (derivable_pt_lim_scal tan k c). replace (tan c ^ 2) with (tan c * tan c) by ring.
        replace (1 + tan c * tan c) with ((cos c * cos c - - sin c * sin c) / (Rsqr (cos c))).
        * apply (derivable_pt_lim_div sin cos c); auto using derivable_pt_lim_sin, derivable_pt_lim_cos.
        * unfold tan, Rsqr. field. auto.
      + apply derivable_pt_lim_atan.
    - cbv beta in E. rewrite E. pose proof (pow2_ge_0 (tan c)) as P. pose proof (pow2_ge_0 (k * tan c)) as P2.
      assert (P3 : tan c ^ 2 <= (k * tan c) ^ 2).
      { replace ((k * tan c) ^ 2) with (k * k * tan c ^ 2) by ring. rewrite <- (Rmult_1_l (tan c ^ 2)) at 1. apply Rmult_le_compat_r; auto.
        rewrite <- (Rmult_1_l 1). apply Rmult_le_compat; lra. }
      assert (P4 : 0 < / (1 + (k * tan c) ^ 2)) by (apply Rinv_0_lt_compat; lra).
      assert (B : / (1 + (k * tan c) ^ 2) * (k * (1 + tan c ^ 2)) <= k).
      { apply Rmult_le_reg_l with (1 + (k * tan c) ^ 2); [lra|].
        replace ((1 + (k * tan c) ^ 2) * (/ (1 + (k * tan c) ^ 2) * (k * (1 + tan c ^ 2)))) with (k * (1 + tan c ^ 2)) by (field; lra).
        rewrite (Rmult_comm _ k). apply Rmult_le_compat_l; lra. }
      split; [|apply Rmult_le_compat_r; lra]. apply Rmult_le_pos; [|lra]. apply Rmult_le_pos; [lra|]. apply Rmult_le_pos; lra. }
  intros Hu Hv. destruct (Rtotal_order u v) as [L|[->|L]].
  - pose proof (G u v Hu Hv L). rewrite (Rabs_minus_sym (atan _)), (Rabs_minus_sym u), !Rabs_pos_eq; lra.
  - unfold Rminus. rewrite !Rplus_opp_r, Rabs_R0. lra.
  - pose proof (G v u Hv Hu L). rewrite !Rabs_pos_eq; lra.
Qed.
