(** C24, C25: normal potential and normal gravity (crs.py:475-600). *)
From Coq Require Import Reals Lra Lia String List ZArith.
From Verif Require Import PyBase RBase DatumModel DatumProps GravitySpec.
Import ListNotations.
Open Scope R_scope.

(** ** Arctangent *)
Lemma grows (g g' : R -> R) : (forall x, 0 <= x -> derivable_pt_lim g x (g' x)) -> (forall x, 0 <= x -> 0 <= g' x) ->
  g 0 = 0 -> forall x, 0 <= x -> 0 <= g x.
Proof.
  intros D P Z x Hx. destruct (Rle_lt_or_eq_dec 0 x Hx) as [L|<-]; [|lra].
  destruct (MVT_cor2 g g' 0 x L (fun c Hc => D c (proj1 Hc))) as (c & E & C).
  rewrite Z in E. pose proof (P c ltac:(lra)). nra.
Qed.
Ltac deriv := repeat first [apply derivable_pt_lim_plus | apply derivable_pt_lim_minus | apply derivable_pt_lim_scal | apply derivable_pt_lim_pow
  | apply derivable_pt_lim_atan | apply derivable_pt_lim_id | apply derivable_pt_lim_const].
Lemma deriv_eq f x a b : derivable_pt_lim f x a -> a = b -> derivable_pt_lim f x b.
Proof. now intros D <-. Qed.

Definition P3 (x : R) : R := x - x ^ 3 / 3.
Definition P5 (x : R) : R := x - x ^ 3 / 3 + x ^ 5 / 5.
Definition P7 (x : R) : R := x - x ^ 3 / 3 + x ^ 5 / 5 - x ^ 7 / 7.
Definition P9 (x : R) : R := x - x ^ 3 / 3 + x ^ 5 / 5 - x ^ 7 / 7 + x ^ 9 / 9.
Lemma dpow x n : derivable_pt_lim (fun x => x ^ n) x (INR n * x ^ pred n).
Proof. apply derivable_pt_lim_pow. Qed.
Lemma dpowd x n c : derivable_pt_lim (fun x => x ^ n / c) x (INR n * x ^ pred n / c).
Proof.
  unfold Rdiv. apply (deriv_eq _ _ (/ c * (INR n * x ^ pred n))); [|ring].
  apply (derivable_pt_lim_ext (fun x => / c * x ^ n)); [intros; ring|]. apply (derivable_pt_lim_scal (fun x => x ^ n)), dpow.
Qed.
Lemma dP3 x : derivable_pt_lim P3 x (1 - x ^ 2).
Proof.
  eapply deriv_eq. unfold P3. apply (derivable_pt_lim_minus (fun x => x) (fun x => x ^ 3 / 3)); [apply derivable_pt_lim_id|apply dpowd]. cbn. field.
Qed.
Lemma dP5 x : derivable_pt_lim P5 x (1 - x ^ 2 + x ^ 4).
Proof.
  eapply deriv_eq. apply (derivable_pt_lim_plus P3 (fun x => x ^ 5 / 5)); [apply dP3|apply dpowd]. cbn. field.
Qed.
Lemma dP7 x : derivable_pt_lim P7 x (1 - x ^ 2 + x ^ 4 - x ^ 6).
Proof.
  eapply deriv_eq. apply (derivable_pt_lim_minus P5 (fun x => x ^ 7 / 7)); [apply dP5|apply dpowd]. cbn. field.
Qed.
Lemma dP9 x : derivable_pt_lim P9 x (1 - x ^ 2 + x ^ 4 - x ^ 6 + x ^ 8).
Proof.
  eapply deriv_eq. apply (derivable_pt_lim_plus P7 (fun x => x ^ 9 / 9)); [apply dP7|apply dpowd]. cbn. field.
Qed.
Lemma inv_pos x : 0 < 1 + x ^ 2. Proof. nra. Qed.
Lemma atan_upper5 x : 0 <= x -> atan x <= P5 x.
Proof.
  intros Hx. enough (0 <= (fun x => P5 x - atan x) x) by (cbv beta in *; lra).
  apply (grows (fun x => P5 x - atan x) (fun x => x ^ 6 / (1 + x ^ 2))); auto.
  - intros y _. eapply deriv_eq; [apply (derivable_pt_lim_minus P5 atan); [apply dP5|apply derivable_pt_lim_atan]|].
    unfold Rsqr. field. nra.
  - intros y _. unfold Rdiv. apply Rmult_le_pos; [replace (y ^ 6) with ((y ^ 3) ^ 2) by ring; apply pow2_ge_0|left; apply Rinv_0_lt_compat, inv_pos].
  - unfold P5. rewrite atan_0. field.
Qed.
Lemma atan_lower7 x : 0 <= x -> P7 x <= atan x.
Proof.
  intros Hx. enough (0 <= (fun x => atan x - P7 x) x) by (cbv beta in *; lra).
  apply (grows (fun x => atan x - P7 x) (fun x => x ^ 8 / (1 + x ^ 2))); auto.
  - intros y _. eapply deriv_eq; [apply (derivable_pt_lim_minus atan P7); [apply derivable_pt_lim_atan|apply dP7]|].
    unfold Rsqr. field. nra.
  - intros y _. unfold Rdiv. apply Rmult_le_pos; [replace (y ^ 8) with ((y ^ 4) ^ 2) by ring; apply pow2_ge_0|left; apply Rinv_0_lt_compat, inv_pos].
  - unfold P7. rewrite atan_0. field.
Qed.
Lemma atan_upper9 x : 0 <= x -> atan x <= P9 x.
Proof.
  intros Hx. enough (0 <= (fun x => P9 x - atan x) x) by (cbv beta in *; lra).
  apply (grows (fun x => P9 x - atan x) (fun x => x ^ 10 / (1 + x ^ 2))); auto.
  - intros y _. eapply deriv_eq; [apply (derivable_pt_lim_minus P9 atan); [apply dP9|apply derivable_pt_lim_atan]|].
    unfold Rsqr. field. nra.
  - intros y _. unfold Rdiv. apply Rmult_le_pos; [replace (y ^ 10) with ((y ^ 5) ^ 2) by ring; apply pow2_ge_0|left; apply Rinv_0_lt_compat, inv_pos].
  - unfold P9. rewrite atan_0. field.
Qed.
(** 3 x / (3 + x^2) < arctan x *)
Lemma atan_pade x : 0 < x -> 3 * x < (3 + x ^ 2) * atan x.
Proof.
  intros Hx. set (h := fun x => (3 + x ^ 2) * atan x - 3 * x).
  (* derivative 2 x atan x + (3+x^2)/(1+x^2) - 3 *)
  assert (D : forall y, derivable_pt_lim h y (2 * y * atan y + (3 + y ^ 2) * / (1 + y ^ 2) - 3)).
  { intros y. eapply deriv_eq.
    - apply (derivable_pt_lim_minus (fun x => (3 + x ^ 2) * atan x) (fun x => 3 * x)).
      + apply (derivable_pt_lim_mult (fun x => 3 + x ^ 2) atan); [|apply derivable_pt_lim_atan].
        apply (derivable_pt_lim_plus (fun _ => 3) (fun x => x ^ 2)); [apply derivable_pt_lim_const|apply dpow].
      + apply (derivable_pt_lim_scal (fun x => x)), derivable_pt_lim_id.
    - unfold Rsqr. cbn. field. nra. }
  assert (G : forall y, 0 < y -> 0 < 2 * y * atan y + (3 + y ^ 2) * / (1 + y ^ 2) - 3).
  { intros y Hy.
    assert (K : y <= (1 + y ^ 2) * atan y).
    { enough (0 <= (fun x => (1 + x ^ 2) * atan x - x) y) by (cbv beta in *; lra).
      apply (grows (fun x => (1 + x ^ 2) * atan x - x) (fun x => 2 * x * atan x)); [| |rewrite atan_0; ring|lra].
      - intros z _. eapply deriv_eq.
        + apply (derivable_pt_lim_minus (fun x => (1 + x ^ 2) * atan x) (fun x => x)); [|apply derivable_pt_lim_id].
          apply (derivable_pt_lim_mult (fun x => 1 + x ^ 2) atan); [|apply derivable_pt_lim_atan].
          apply (derivable_pt_lim_plus (fun _ => 1) (fun x => x ^ 2)); [apply derivable_pt_lim_const|apply dpow].
        + unfold Rsqr. cbn. field. nra.
      - intros z Hz. assert (0 <= atan z) by (destruct (Rle_lt_or_eq_dec 0 z Hz) as [L|<-]; [rewrite <- atan_0; left; apply atan_increasing, L|rewrite atan_0; lra]). nra. }
    (* strictness: 2y atan y >= 2y^2/(1+y^2), and (3+y^2)/(1+y^2) - 3 = -2y^2/(1+y^2) *)
    assert (K' : y < (1 + y ^ 2) * atan y).
    { destruct (Rle_lt_or_eq_dec _ _ K) as [|Q]; [assumption|exfalso].
      pose proof (atan_lower7 (y / 2) ltac:(lra)) as _.
      destruct (MVT_cor2 (fun x => (1 + x ^ 2) * atan x - x) (fun x => 2 * x * atan x) 0 y Hy) as (c & Ec & Hc).
      - intros z _. eapply deriv_eq.
        + apply (derivable_pt_lim_minus (fun x => (1 + x ^ 2) * atan x) (fun x => x)); [|apply derivable_pt_lim_id].
          apply (derivable_pt_lim_mult (fun x => 1 + x ^ 2) atan); [|apply derivable_pt_lim_atan].
          apply (derivable_pt_lim_plus (fun _ => 1) (fun x => x ^ 2)); [apply derivable_pt_lim_const|apply dpow].
        + unfold Rsqr. cbn. field. nra.
      - rewrite atan_0 in Ec. assert (0 < atan c) by (rewrite <- atan_0; apply atan_increasing; lra).
        assert (0 < 2 * c * atan c * (y - 0)) by (apply Rmult_lt_0_compat; [nra|lra]). lra. }
    apply Rmult_lt_reg_r with (1 + y ^ 2); [apply inv_pos|]. rewrite Rmult_0_l.
    replace ((2 * y * atan y + (3 + y ^ 2) * / (1 + y ^ 2) - 3) * (1 + y ^ 2)) with (2 * y * ((1 + y ^ 2) * atan y - y)) by (field; nra).
    apply Rmult_lt_0_compat; lra. }
  destruct (MVT_cor2 h _ 0 x Hx (fun c _ => D c)) as (c & Ec & Hc).
  assert (0 < h x - h 0) by (rewrite Ec; apply Rmult_lt_0_compat; [apply G; lra|lra]).
  unfold h in *. rewrite atan_0 in *. lra.
Qed.

Ltac fin := field; repeat match goal with |- _ /\ _ => split end; try lra; try nra.
Lemma small_pow x n k : 0 < x -> x <= 1 -> 0 < x ^ n /\ x ^ (n + k) <= x ^ n.
Proof.
  intros X1 X2. assert (P : 0 < x ^ n) by (apply pow_lt; lra). split; [exact P|]. rewrite pow_add, <- (Rmult_1_r (x ^ n)) at 1.
  rewrite Rmult_1_r. rewrite <- (Rmult_1_r (x ^ n)) at 2. apply Rmult_le_compat_l; [lra|]. rewrite <- (pow1 k). apply pow_incr. lra.
Qed.
(** ** The potential *)
Section Potential.
  Variable E : R.
  Hypothesis HE : 0 < E.
  Definition At (u : R) : R := atan (E / u).
  Definition q (u : R) : R := 1 / 2 * ((1 + 3 * (u ^ 2 / E ^ 2)) * At u - 3 * (u / E)).
  Definition q' (u : R) : R := 1 / 2 * (6 * (u / E ^ 2) * At u - (1 + 3 * (u ^ 2 / E ^ 2)) * (E / (u ^ 2 + E ^ 2)) - 3 / E).

  Lemma dAt u : 0 < u -> derivable_pt_lim At u (- (E / (u ^ 2 + E ^ 2))).
  Proof.
    intros Hu. eapply deriv_eq.
    - apply (derivable_pt_lim_comp (fun u => E / u) atan); [|apply derivable_pt_lim_atan].
      apply (derivable_pt_lim_div (fun _ => E) (fun u => u)); [apply derivable_pt_lim_const|apply derivable_pt_lim_id|lra].
    - unfold Rsqr. fin.
  Qed.
  Lemma dsq u c : derivable_pt_lim (fun u => u ^ 2 / c) u (2 * u / c).
  Proof. eapply deriv_eq; [apply dpowd|]. cbn [INR pred pow]. unfold Rdiv. ring. Qed.
  Lemma dlin u c : derivable_pt_lim (fun u => u / c) u (1 / c).
  Proof.
    eapply deriv_eq; [apply (derivable_pt_lim_ext (fun u => / c * u)); [intros; unfold Rdiv; ring|apply (derivable_pt_lim_scal (fun x => x)), derivable_pt_lim_id]|].
    unfold Rdiv. ring.
  Qed.
  Lemma dq u : 0 < u -> derivable_pt_lim q u (q' u).
  Proof.
    intros Hu. unfold q. eapply deriv_eq.
    - apply (derivable_pt_lim_scal (fun u => (1 + 3 * (u ^ 2 / E ^ 2)) * At u - 3 * (u / E))).
      apply (derivable_pt_lim_minus (fun u => (1 + 3 * (u ^ 2 / E ^ 2)) * At u) (fun u => 3 * (u / E))).
      + apply (derivable_pt_lim_mult (fun u => 1 + 3 * (u ^ 2 / E ^ 2)) At); [|apply dAt, Hu].
        apply (derivable_pt_lim_plus (fun _ => 1) (fun u => 3 * (u ^ 2 / E ^ 2))); [apply derivable_pt_lim_const|].
        apply (derivable_pt_lim_scal (fun u => u ^ 2 / E ^ 2)), dsq.
      + apply (derivable_pt_lim_scal (fun u => u / E)), dlin.
    - unfold q'. fin.
  Qed.
  (** d/du ((u^2+E^2) q') = 6 q *)
  Lemma dq2 u : 0 < u -> derivable_pt_lim (fun u => (u ^ 2 + E ^ 2) * q' u) u (6 * q u).
  Proof.
    intros Hu.
    apply (derivable_pt_lim_locally_ext (fun u => 3 * ((u ^ 2 / E ^ 2 + 1) * u * At u) - (3 * (u ^ 2 / E) + 2 * E)) _ u (u / 2) (2 * u)); [lra| |].
    - intros y Hy. unfold q'. fin.
    - eapply deriv_eq.
      + apply (derivable_pt_lim_minus (fun u => 3 * ((u ^ 2 / E ^ 2 + 1) * u * At u)) (fun u => 3 * (u ^ 2 / E) + 2 * E)).
        * apply (derivable_pt_lim_scal (fun u => (u ^ 2 / E ^ 2 + 1) * u * At u)).
          apply (derivable_pt_lim_mult (fun u => (u ^ 2 / E ^ 2 + 1) * u) At); [|apply dAt, Hu].
          apply (derivable_pt_lim_mult (fun u => u ^ 2 / E ^ 2 + 1) (fun u => u)); [|apply derivable_pt_lim_id].
          apply (derivable_pt_lim_plus (fun u => u ^ 2 / E ^ 2) (fun _ => 1)); [apply dsq|apply derivable_pt_lim_const].
        * apply (derivable_pt_lim_plus (fun u => 3 * (u ^ 2 / E)) (fun _ => 2 * E)); [|apply derivable_pt_lim_const].
          apply (derivable_pt_lim_scal (fun u => u ^ 2 / E)), dsq.
      + unfold q. fin.
  Qed.
  Lemma q_pos u : 0 < u -> 0 < q u.
  Proof.
    intros Hu. assert (X : 0 < E / u) by (apply Rdiv_lt_0_compat; lra).
    pose proof (atan_pade (E / u) X) as P. unfold q, At. set (A := atan (E / u)) in *.
    assert (K : 3 * (u / E) < (1 + 3 * (u ^ 2 / E ^ 2)) * A).
    { apply Rmult_lt_reg_r with (E ^ 2 / u ^ 2); [apply Rdiv_lt_0_compat; apply pow_lt; lra|].
      replace (3 * (u / E) * (E ^ 2 / u ^ 2)) with (3 * (E / u)) by (field; lra).
      replace ((1 + 3 * (u ^ 2 / E ^ 2)) * A * (E ^ 2 / u ^ 2)) with ((3 + (E / u) ^ 2) * A) by (field; lra). exact P. }
    lra.
  Qed.

  Variable GM omega a b : R.
  Hypothesis Hb : 0 < b.
  Hypothesis Hab : a ^ 2 = b ^ 2 + E ^ 2.
  Definition V (u s : R) : R := GM / E * At u + omega ^ 2 * a ^ 2 / (2 * q b) * (q u * (s ^ 2 - 1 / 3)).
  Definition Vu (u s : R) : R := GM / E * (- (E / (u ^ 2 + E ^ 2))) + omega ^ 2 * a ^ 2 / (2 * q b) * (q' u * (s ^ 2 - 1 / 3)).
  Lemma dsc f u c k : derivable_pt_lim f u k -> derivable_pt_lim (fun u => f u * c) u (k * c).
  Proof.
    intros D. eapply deriv_eq; [apply (derivable_pt_lim_ext (fun u => c * f u)); [intros; ring|apply (derivable_pt_lim_scal f); exact D]|ring].
  Qed.
  Lemma V_harmonic : harmonic E V Vu.
  Proof.
    set (K := omega ^ 2 * a ^ 2 / (2 * q b)).
    exists (fun u s => K * (q u * (2 * s))), (fun u s => K * (6 * q u * (s ^ 2 - 1 / 3))).
    intros u s Hu Hs. split; [|split; [|split]].
    - unfold V, Vu. fold K. apply (derivable_pt_lim_plus (fun u => GM / E * At u) (fun u => K * (q u * (s ^ 2 - 1 / 3)))).
      + apply (derivable_pt_lim_scal At), dAt, Hu.
      + apply (derivable_pt_lim_scal (fun u => q u * (s ^ 2 - 1 / 3))), dsc, dq, Hu.
    - unfold V. fold K. eapply deriv_eq.
      + apply (derivable_pt_lim_plus (fun _ => GM / E * At u) (fun s => K * (q u * (s ^ 2 - 1 / 3)))); [apply derivable_pt_lim_const|].
        apply (derivable_pt_lim_scal (fun s => q u * (s ^ 2 - 1 / 3))). apply (derivable_pt_lim_scal (fun s => s ^ 2 - 1 / 3)).
        apply (derivable_pt_lim_minus (fun s => s ^ 2) (fun _ => 1 / 3)); [apply dpow|apply derivable_pt_lim_const].
      + cbn. ring.
    - apply (derivable_pt_lim_locally_ext (fun u => - GM + K * ((u ^ 2 + E ^ 2) * q' u * (s ^ 2 - 1 / 3))) _ u (u / 2) (2 * u)); [lra| |].
      + intros y Hy. unfold Vu. fold K. fin.
      + eapply deriv_eq.
        * apply (derivable_pt_lim_plus (fun _ => - GM) (fun u => K * ((u ^ 2 + E ^ 2) * q' u * (s ^ 2 - 1 / 3)))); [apply derivable_pt_lim_const|].
          apply (derivable_pt_lim_scal (fun u => (u ^ 2 + E ^ 2) * q' u * (s ^ 2 - 1 / 3))).
          apply (dsc (fun u => (u ^ 2 + E ^ 2) * q' u)). apply dq2, Hu.
        * ring.
    - eapply deriv_eq.
      + apply (derivable_pt_lim_mult (fun s => 1 - s ^ 2) (fun s => K * (q u * (2 * s)))).
        * apply (derivable_pt_lim_minus (fun _ => 1) (fun s => s ^ 2)); [apply derivable_pt_lim_const|apply dpow].
        * apply (derivable_pt_lim_scal (fun s => q u * (2 * s))). apply (derivable_pt_lim_scal (fun s => 2 * s)).
          apply (derivable_pt_lim_scal (fun s => s)), derivable_pt_lim_id.
      + cbn. field.
  Qed.
  Lemma V_level s : V b s + centrifugal omega E b s = GM / E * atan (E / b) + 1 / 3 * omega ^ 2 * a ^ 2.
  Proof. unfold V, centrifugal. rewrite <- Hab. pose proof (q_pos b Hb). unfold At. fin. Qed.

  (** Far away *)
  Lemma q_far x u : x = E / u -> 0 < u -> x <= 1 -> Rabs (q u - 2 / 15 * x ^ 3) <= x ^ 5.
  Proof.
    intros Ex Hu Hx. assert (X : 0 < x) by (subst; apply Rdiv_lt_0_compat; lra).
    pose proof (atan_upper5 x ltac:(lra)) as U. pose proof (atan_lower7 x ltac:(lra)) as L. unfold P5, P7 in *.
    set (r := x - x ^ 3 / 3 + x ^ 5 / 5 - atan x) in *.
    assert (R1 : 0 <= r <= x ^ 7 / 7) by (unfold r; lra).
    assert (Q : q u = 1 / 2 * (4 / 15 * x ^ 3 + x ^ 5 / 5 - r * (1 + 3 / x ^ 2))).
    { unfold q, At. rewrite <- Ex. replace (u ^ 2 / E ^ 2) with (/ x ^ 2) by (rewrite Ex; field; lra).
      replace (u / E) with (/ x) by (rewrite Ex; field; lra). unfold r. field. lra. }
    assert (X5 : 0 < x ^ 5) by (apply pow_lt; lra).
    assert (R2 : 0 <= r * (1 + 3 / x ^ 2) <= 4 / 7 * x ^ 5).
    { assert (0 < 1 + 3 / x ^ 2) by (assert (0 < 3 / x ^ 2) by (apply Rdiv_lt_0_compat; [lra|apply pow_lt; lra]); lra).
      split; [apply Rmult_le_pos; lra|].
      apply Rle_trans with (x ^ 7 / 7 * (1 + 3 / x ^ 2)); [apply Rmult_le_compat_r; lra|].
      replace (x ^ 7 / 7 * (1 + 3 / x ^ 2)) with (x ^ 5 * ((x ^ 2 + 3) / 7)) by (field; lra).
      rewrite (Rmult_comm (4 / 7)). apply Rmult_le_compat_l; [lra|]. assert (x ^ 2 <= 1) by (cbn [pow]; rewrite Rmult_1_r; apply Rle_trans with (1 * 1); [apply Rmult_le_compat; lra|lra]). lra. }
    rewrite Q. apply Rabs_le. lra.
  Qed.
  Lemma at_far x : 0 < x -> x <= 1 -> Rabs (atan x - x + x ^ 3 / 3) <= x ^ 5.
  Proof.
    intros X Hx. pose proof (atan_upper5 x ltac:(lra)) as U. pose proof (atan_lower7 x ltac:(lra)) as L. unfold P5, P7 in *.
    assert (X5 : 0 < x ^ 5) by (apply pow_lt; lra). assert (x ^ 7 <= x ^ 5) by (apply (small_pow x 5 2); lra).
    assert (0 < x ^ 7) by (apply pow_lt; lra). apply Rabs_le. lra.
  Qed.
  Lemma vanish c (f : R -> R) l n : (0 < n)%nat -> 0 <= c -> (forall z, E < z -> Rabs (f z - l) <= c / z ^ n) -> tends f l.
  Proof.
    intros Hn Hc H eps He. exists (Rmax (E + 1) (c / eps + 1)). intros z Hz.
    assert (E + 1 < z) by (eapply Rle_lt_trans; [apply Rmax_l|exact Hz]).
    assert (c / eps + 1 < z) by (eapply Rle_lt_trans; [apply Rmax_r|exact Hz]).
    eapply Rle_lt_trans; [apply H; lra|].
    assert (Z : z <= z ^ n).
    { destruct n as [|n]; [lia|]. cbn [pow]. assert (1 <= z ^ n) by (apply pow_R1_Rle; lra). nra. }
    assert (0 <= c / eps) by (unfold Rdiv; apply Rmult_le_pos; [lra|left; apply Rinv_0_lt_compat; lra]).
    apply Rmult_lt_reg_r with (z ^ n); [lra|]. unfold Rdiv. rewrite Rmult_assoc, Rinv_l, Rmult_1_r by lra.
    apply Rlt_le_trans with (eps * z); [|apply Rmult_le_compat_l; lra].
    apply Rmult_lt_reg_r with (/ eps); [apply Rinv_0_lt_compat; lra|]. replace (eps * z * / eps) with z by (field; lra). unfold Rdiv in *. lra.
  Qed.
  Lemma V_mass s : -1 <= s <= 1 -> tends (fun u => u * V u s) GM.
  Proof.
    intros Hs. set (K := omega ^ 2 * a ^ 2 / (2 * q b)).
    assert (HK : 0 <= K) by (unfold K; pose proof (q_pos b Hb); apply Rmult_le_pos; [apply Rmult_le_pos; apply pow2_ge_0|left; apply Rinv_0_lt_compat; lra]).
    apply (vanish (Rabs GM * E ^ 2 * 2 + K * E ^ 3 * 2) _ _ 2); [lia| |].
    { assert (0 < E ^ 2) by (apply pow_lt; lra). assert (0 < E ^ 3) by (apply pow_lt; lra). pose proof (Rabs_pos GM). nra. }
    intros z Hz. set (x := E / z). assert (X : 0 < x) by (apply Rdiv_lt_0_compat; lra).
    assert (X1 : x <= 1) by (unfold x; apply Rmult_le_reg_r with z; [lra|]; unfold Rdiv; rewrite Rmult_assoc, Rinv_l by lra; lra).
    pose proof (at_far x X X1) as H1. pose proof (q_far x z eq_refl ltac:(lra) X1) as H2.
    assert (Zx : z = E / x) by (unfold x; field; lra).
    replace (z * V z s - GM) with (GM / x * (atan x - x + x ^ 3 / 3) - GM * x ^ 2 / 3 + z * K * (s ^ 2 - 1 / 3) * (q z - 2 / 15 * x ^ 3) + z * K * (s ^ 2 - 1 / 3) * (2 / 15 * x ^ 3)).
    2:{ unfold V. fold K. unfold At. fold x. generalize (q z) (atan x). intros qz ax. rewrite Zx. clearbody x. field. lra. }
    assert (0 < x ^ 2) by (apply pow_lt; lra). assert (0 < x ^ 3) by (apply pow_lt; lra). assert (x ^ 2 <= 1) by (cbn [pow]; rewrite Rmult_1_r; apply Rle_trans with (1 * 1); [apply Rmult_le_compat; lra|lra]).
    assert (x3 : x ^ 3 <= x ^ 2) by (replace (x ^ 3) with (x ^ 2 * x) by ring; rewrite <- (Rmult_1_r (x ^ 2)) at 2; apply Rmult_le_compat_l; lra). assert (x5 : x ^ 5 <= x ^ 3) by (replace (x ^ 5) with (x ^ 3 * x ^ 2) by ring; rewrite <- (Rmult_1_r (x ^ 3)) at 2; apply Rmult_le_compat_l; lra).
    assert (x4 : x ^ 4 <= x ^ 2) by (replace (x ^ 4) with (x ^ 2 * x ^ 2) by ring; rewrite <- (Rmult_1_r (x ^ 2)) at 3; apply Rmult_le_compat_l; lra).
    assert (S2 : Rabs (s ^ 2 - 1 / 3) <= 1) by (apply Rabs_le; nra).
    assert (B1 : Rabs (GM / x * (atan x - x + x ^ 3 / 3)) <= Rabs GM * x ^ 2).
    { rewrite Rabs_mult. unfold Rdiv at 1. rewrite Rabs_mult, (Rabs_right (/ x)) by (left; apply Rinv_0_lt_compat; lra).
      apply Rle_trans with (Rabs GM * / x * x ^ 5); [apply Rmult_le_compat_l; [apply Rmult_le_pos; [apply Rabs_pos|left; apply Rinv_0_lt_compat; lra]|exact H1]|].
      replace (Rabs GM * / x * x ^ 5) with (Rabs GM * x ^ 4) by (field; lra). apply Rmult_le_compat_l; [apply Rabs_pos|exact x4]. }
    assert (B2 : Rabs (GM * x ^ 2 / 3) <= Rabs GM * x ^ 2).
    { unfold Rdiv. rewrite !Rabs_mult, (Rabs_right (x ^ 2)), (Rabs_right (/ 3)) by lra. pose proof (Rabs_pos GM). nra. }
    assert (ZK : 0 <= z * K) by nra.
    assert (B3 : Rabs (z * K * (s ^ 2 - 1 / 3) * (q z - 2 / 15 * x ^ 3)) <= z * K * x ^ 3).
    { rewrite !Rabs_mult, (Rabs_right z), (Rabs_right K) by lra. pose proof (Rabs_pos (s ^ 2 - 1 / 3)). pose proof (Rabs_pos (q z - 2 / 15 * x ^ 3)).
      apply Rle_trans with (z * K * 1 * x ^ 5); [|nra]. apply Rmult_le_compat; nra. }
    assert (B4 : Rabs (z * K * (s ^ 2 - 1 / 3) * (2 / 15 * x ^ 3)) <= z * K * x ^ 3).
    { rewrite !Rabs_mult, (Rabs_right z), (Rabs_right K), (Rabs_right (x ^ 3)), (Rabs_right (2 / 15)) by lra. pose proof (Rabs_pos (s ^ 2 - 1 / 3)).
      apply Rle_trans with (z * K * 1 * (2 / 15 * x ^ 3)); [|nra]. apply Rmult_le_compat_r; [nra|]. apply Rmult_le_compat_l; nra. }
    apply Rle_trans with (Rabs GM * x ^ 2 + Rabs GM * x ^ 2 + z * K * x ^ 3 + z * K * x ^ 3).
    - eapply Rle_trans; [apply Rabs_triang|]. apply Rplus_le_compat; [|exact B4]. eapply Rle_trans; [apply Rabs_triang|]. apply Rplus_le_compat; [|exact B3].
      unfold Rminus. eapply Rle_trans; [apply Rabs_triang|]. rewrite Rabs_Ropp. apply Rplus_le_compat; assumption.
    - right. unfold x. field. lra.
  Qed.

  Lemma V_oblate : tends (fun z => z ^ 3 * (V z 1 - GM / z)) (- GM * E ^ 2 / 3 + omega ^ 2 * a ^ 2 / (2 * q b) * (4 / 45 * E ^ 3)).
  Proof.
    set (K := omega ^ 2 * a ^ 2 / (2 * q b)).
    assert (HK : 0 <= K) by (unfold K; pose proof (q_pos b Hb); apply Rmult_le_pos; [apply Rmult_le_pos; apply pow2_ge_0|left; apply Rinv_0_lt_compat; lra]).
    pose proof (Rabs_pos GM) as G0. assert (E4 : 0 < E ^ 4) by (apply pow_lt; lra). assert (E5 : 0 < E ^ 5) by (apply pow_lt; lra).
    apply (vanish (Rabs GM * E ^ 4 + K * E ^ 5) _ _ 2); [lia|nra|].
    intros z Hz. set (x := E / z). assert (X : 0 < x) by (apply Rdiv_lt_0_compat; lra).
    assert (X1 : x <= 1) by (unfold x; apply Rmult_le_reg_r with z; [lra|]; unfold Rdiv; rewrite Rmult_assoc, Rinv_l by lra; lra).
    pose proof (at_far x X X1) as H1. pose proof (q_far x z eq_refl ltac:(lra) X1) as H2.
    assert (Zx : z = E / x) by (unfold x; field; lra).
    match goal with |- Rabs ?d <= _ => replace d with (z ^ 3 / E * (GM * (atan x - x + x ^ 3 / 3)) + z ^ 3 * (K * (2 / 3) * (q z - 2 / 15 * x ^ 3))) end.
    2:{ unfold V. fold K. unfold At. fold x. generalize (q z) (atan x). intros qz ax. rewrite Zx. clearbody x. field. lra. }
    assert (Z3 : 0 < z ^ 3) by (apply pow_lt; lra). assert (X5 : 0 < x ^ 5) by (apply pow_lt; lra).
    assert (B1 : Rabs (z ^ 3 / E * (GM * (atan x - x + x ^ 3 / 3))) <= z ^ 3 / E * (Rabs GM * x ^ 5)).
    { rewrite !Rabs_mult, (Rabs_right (z ^ 3 / E)) by (left; apply Rdiv_lt_0_compat; lra).
      apply Rmult_le_compat_l; [left; apply Rdiv_lt_0_compat; lra|]. apply Rmult_le_compat_l; assumption. }
    assert (B2 : Rabs (z ^ 3 * (K * (2 / 3) * (q z - 2 / 15 * x ^ 3))) <= z ^ 3 * (K * x ^ 5)).
    { rewrite !Rabs_mult, (Rabs_right (z ^ 3)), (Rabs_right K), (Rabs_right (2 / 3)) by lra.
      apply Rmult_le_compat_l; [lra|]. rewrite Rmult_assoc. apply Rmult_le_compat_l; [lra|]. lra. }
    eapply Rle_trans; [apply Rabs_triang|]. eapply Rle_trans; [apply Rplus_le_compat; [exact B1|exact B2]|].
    right. unfold x. field. lra.
  Qed.
End Potential.

(** The ratio of Heiskanen and Moritz, e' q0' / q0 = 3 (1 + 3/7 e'^2 + ...) *)
Lemma q_ratio x : 0 < x -> x <= 1 / 2 ->
  let qq := 1 / 2 * ((1 + 3 / x ^ 2) * atan x - 3 / x) in
  let qp := 3 * (1 + 1 / x ^ 2) * (1 - 1 / x * atan x) - 1 in
  0.1 * x ^ 3 <= qq /\ Rabs (x * qp / qq - 3 - 9 / 7 * x ^ 2) <= 11 * x ^ 4.
Proof.
  intros X X1 qq qp. pose proof (atan_lower7 x ltac:(lra)) as L. pose proof (atan_upper9 x ltac:(lra)) as U. unfold P7, P9 in *.
  set (r := atan x - (x - x ^ 3 / 3 + x ^ 5 / 5 - x ^ 7 / 7)) in *.
  assert (R1 : 0 <= r <= x ^ 9 / 9) by (unfold r; lra).
  assert (Q : qq = 2 / 15 * x ^ 3 - 4 / 35 * x ^ 5 - 1 / 14 * x ^ 7 + r * (1 / 2 + 3 / 2 / x ^ 2)) by (unfold qq, r; field; lra).
  assert (D : x * qp - (3 + 9 / 7 * x ^ 2) * qq = 387 / 490 * x ^ 7 + 9 / 98 * x ^ 9 - r * (45 / 7 + 15 / 2 / x ^ 2 + 9 / 14 * x ^ 2)) by (unfold qp, qq, r; field; lra).
  assert (X2 : 0 < x ^ 2 <= 1 / 4) by (cbn; split; nra). assert (X3 : 0 < x ^ 3) by (apply pow_lt; lra).
  assert (X5 : x ^ 5 = x ^ 3 * x ^ 2) by ring. assert (X7 : x ^ 7 = x ^ 3 * (x ^ 2 * x ^ 2)) by ring. assert (X9 : x ^ 9 = x ^ 7 * x ^ 2) by ring.
  assert (P7 : 0 < x ^ 7) by (apply pow_lt; lra). assert (I : 0 < / x ^ 2) by (apply Rinv_0_lt_compat; lra).
  assert (B5 : x ^ 5 <= x ^ 3 / 4) by (rewrite X5; nra). assert (X4 : x ^ 2 * x ^ 2 <= 1 / 16) by nra. assert (B7 : x ^ 7 <= x ^ 3 / 16) by (rewrite X7; nra).
  assert (B9 : 0 < x ^ 9 <= x ^ 7 / 4) by (rewrite X9; split; nra).
  assert (Q0 : 0.1 * x ^ 3 <= qq).
  { rewrite Q. assert (0 <= r * (1 / 2 + 3 / 2 / x ^ 2)) by (apply Rmult_le_pos; [lra|unfold Rdiv; lra]). lra. }
  split; [exact Q0|].
  assert (Rr : 0 <= r * (45 / 7 + 15 / 2 / x ^ 2 + 9 / 14 * x ^ 2) <= 1.05 * x ^ 7).
  { split; [apply Rmult_le_pos; [lra|unfold Rdiv; lra]|].
    apply Rle_trans with (x ^ 9 / 9 * (45 / 7 + 15 / 2 / x ^ 2 + 9 / 14 * x ^ 2)); [apply Rmult_le_compat_r; [unfold Rdiv; lra|lra]|].
    replace (x ^ 9 / 9 * (45 / 7 + 15 / 2 / x ^ 2 + 9 / 14 * x ^ 2)) with (x ^ 7 * (5 / 6 + 5 / 7 * x ^ 2 + 1 / 14 * (x ^ 2 * x ^ 2))) by (field; lra).
    rewrite (Rmult_comm 1.05). apply Rmult_le_compat_l; lra. }
  assert (DD : Rabs (x * qp - (3 + 9 / 7 * x ^ 2) * qq) <= 1.1 * x ^ 7) by (rewrite D; apply Rabs_le; lra).
  assert (Qp : 0 < qq) by lra.
  replace (x * qp / qq - 3 - 9 / 7 * x ^ 2) with ((x * qp - (3 + 9 / 7 * x ^ 2) * qq) / qq) by (field; lra).
  unfold Rdiv. rewrite Rabs_mult, (Rabs_right (/ qq)) by (left; apply Rinv_0_lt_compat; lra).
  apply Rmult_le_reg_r with qq; [lra|]. rewrite Rmult_assoc, Rinv_l, Rmult_1_r by lra.
  apply Rle_trans with (11 * x ^ 4 * (0.1 * x ^ 3)).
  - replace (11 * x ^ 4 * (0.1 * x ^ 3)) with (11 * 0.1 * x ^ 7) by ring. lra.
  - apply Rmult_le_compat_l; [|exact Q0]. assert (0 < x ^ 4) by (apply pow_lt; lra). lra.
Qed.

(** The gravity field of the level ellipsoid: there is a potential V, harmonic in
    space, which with the centrifugal potential is constant on the ellipsoid, equal to
    U0, has mass GM and oblateness J2 (and the derivative of [V] across the
    ellipsoid gives gravity at the equator and at the pole, up to the fourth power
    of the eccentricity). *)
Theorem C24_normal_field d : sound d -> 0 < d_flat d -> ecc2 d <= 1 / 2 -> 0 < d_GM d ->
  exists V Vu, harmonic (ecc d) V Vu /\
    (forall s, -1 <= s <= 1 -> V (b_ax d) s + centrifugal (d_omega d) (ecc d) (b_ax d) s = U0 d) /\
    (forall s, -1 <= s <= 1 -> tends (fun u => u * V u s) (d_GM d)) /\
    tends (fun z => z ^ 3 * (V z 1 - d_GM d / z)) (- d_GM d * J2 d * d_a d ^ 2) /\
    C20 d = - J2 d / sqrt 5 /\
    (* across the ellipsoid, at the pole and at the equator *)
    let g_pole := - Vu (b_ax d) 1 in
    let g_equator := d_a d / b_ax d * - (Vu (b_ax d) 0 + d_omega d ^ 2 * b_ax d) in
    let m := d_omega d ^ 2 * d_a d ^ 2 * b_ax d / d_GM d in
    g_pole = d_GM d / d_a d ^ 2 * (1 + m * ecc2 d * q0_par d / (3 * q_par d)) /\
    g_equator = d_GM d / (d_a d * b_ax d) * (1 - m - m * ecc2 d * q0_par d / (6 * q_par d)) /\
    Rabs (gamma_b d - g_pole) <= d_GM d / d_a d ^ 2 * (4 * m * ecc2 d ^ 4) /\
    Rabs (gamma_a d - g_equator) <= d_GM d / (d_a d * b_ax d) * (2 * m * ecc2 d ^ 4).
Proof.
  intros H Hf Hx HG. pose proof (b_ax_pos d H) as Hb. pose proof (ecc_sq d H) as E2. pose proof (ecc_nonneg d) as E0.
  pose proof (C24_identities d H) as (_ & _ & Hab & _). destruct H as [Ha [F1 F2]].
  assert (HE : 0 < ecc d).
  { destruct (Rle_lt_or_eq_dec _ _ E0) as [|Z]; [assumption|]. exfalso. rewrite <- Z in E2. assert (0 < d_a d ^ 2) by (apply pow_lt; lra).
    assert (0 < 2 * d_flat d - d_flat d ^ 2) by nra. assert (0 < (2 * d_flat d - d_flat d ^ 2) * d_a d ^ 2) by (apply Rmult_lt_0_compat; lra). lra. }
  assert (Hab' : d_a d ^ 2 = b_ax d ^ 2 + ecc d ^ 2) by lra.
  set (E := ecc d) in *. set (b := b_ax d) in *. set (a := d_a d) in *. set (GM := d_GM d) in *. set (om := d_omega d).
  assert (Ex : ecc2 d = E / b) by reflexivity. set (x := E / b) in *. assert (X : 0 < x) by (apply Rdiv_lt_0_compat; lra).
  rewrite Ex in *.
  exists (V E GM om a b), (Vu E GM om a b). split; [now apply V_harmonic|].
  pose proof (q_pos E HE b Hb) as Qp.
  assert (Qb : q E b = 1 / 2 * ((1 + 3 / x ^ 2) * atan x - 3 / x)) by (unfold q, At, x; field; lra).
  assert (Mp : m_par d = om ^ 2 * a ^ 2 * b / GM) by (unfold m_par, b, b_ax; fold om a GM; field; lra).
  split; [|split; [|split; [|split]]].
  - intros s _. rewrite (V_level E HE GM om a b Hb Hab'). unfold U0. rewrite Ex. fold E GM om a. reflexivity.
  - intros s Hs. apply V_mass; assumption.
  - replace (- GM * J2 d * a ^ 2) with (- GM * E ^ 2 / 3 + om ^ 2 * a ^ 2 / (2 * q E b) * (4 / 45 * E ^ 3)); [now apply V_oblate|].
    unfold J2, q_par, ecc1. rewrite Ex. fold E a. rewrite Mp. replace (0.5 * ((1 + 3 / x ^ 2) * atan x - 3 / x)) with (q E b) by (rewrite Qb; lra).
    unfold x. field. repeat split; lra.
  - reflexivity.
  - cbv zeta. destruct (q_ratio x X Hx) as [_ B].
    set (qq := 1 / 2 * ((1 + 3 / x ^ 2) * atan x - 3 / x)) in *. set (qp := 3 * (1 + 1 / x ^ 2) * (1 - 1 / x * atan x) - 1) in *.
    assert (Qd : q' E b = - (E / a ^ 2) * qp) by (unfold qp, q', At; fold x; generalize (atan x); intros A; rewrite Hab'; unfold x; field; repeat split; nra).
    set (m := om ^ 2 * a ^ 2 * b / GM) in *. assert (Hm : 0 <= m) by (unfold m; apply Rmult_le_pos; [apply Rmult_le_pos; [apply Rmult_le_pos; apply pow2_ge_0|lra]|left; apply Rinv_0_lt_compat; lra]).
    unfold Vu. rewrite <- Hab', Qd, Qb. set (w := x * qp / qq) in *.
    assert (Eq : q_par d = qq) by (unfold q_par, qq; rewrite Ex; lra). assert (Ep : q0_par d = qp) by (unfold q0_par; rewrite Ex; reflexivity).
    rewrite Eq, Ep. rewrite Qb in Qp. fold qq in Qp. clearbody qq qp.
    split; [unfold m, x; field; repeat split; lra|]. split; [unfold m, x; field; repeat split; lra|].
    split.
    + unfold gamma_b. rewrite Mp, Ex. fold a GM m.
      match goal with |- Rabs ?e <= _ => replace e with (GM / a ^ 2 * (- (m / 3) * (w - 3 - 9 / 7 * x ^ 2))) end.
      2:{ unfold w, m. replace x with (E / b) at 1 by reflexivity. field. repeat split; lra. }
      rewrite Rabs_mult, (Rabs_right (GM / a ^ 2)) by (left; apply Rdiv_lt_0_compat; [lra|apply pow_lt; lra]).
      apply Rmult_le_compat_l; [left; apply Rdiv_lt_0_compat; [lra|apply pow_lt; lra]|].
      rewrite Rabs_mult, Rabs_Ropp, (Rabs_right (m / 3)) by lra. assert (0 < x ^ 4) by (apply pow_lt; lra). nra.
    + unfold gamma_a. rewrite Mp, Ex. fold a b GM m.
      match goal with |- Rabs ?e <= _ => replace e with (GM / (a * b) * (m / 6 * (w - 3 - 9 / 7 * x ^ 2))) end.
      2:{ unfold w, m. replace x with (E / b) at 1 by reflexivity. field. repeat split; lra. }
      assert (0 < GM / (a * b)) by (apply Rdiv_lt_0_compat; [lra|apply Rmult_lt_0_compat; lra]).
      rewrite Rabs_mult, (Rabs_right (GM / (a * b))) by lra.
      apply Rmult_le_compat_l; [lra|].
      rewrite Rabs_mult, (Rabs_right (m / 6)) by lra. assert (0 < x ^ 4) by (apply pow_lt; lra). nra.
Qed.
Print Assumptions C24_normal_field.
