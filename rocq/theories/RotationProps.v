(** C16: rotation matrices. *)
From Coq Require Import String List Reals ZArith Lra Lia Psatz.
From Verif Require Import PyBase RBase StrBase MathModel AstroModel.
Import ListNotations.
Open Scope R_scope.

(** ** Specification *)
Definition mI : mat := Mat 1 0 0 0 1 0 0 0 1.
Definition mtrans (A : mat) : mat :=
  Mat (m00 A) (m10 A) (m20 A) (m01 A) (m11 A) (m21 A) (m02 A) (m12 A) (m22 A).
Definition det (A : mat) : R :=
  m00 A * (m11 A * m22 A - m12 A * m21 A) - m01 A * (m10 A * m22 A - m12 A * m20 A)
  + m02 A * (m10 A * m21 A - m11 A * m20 A).
Definition dot (a b : vec) : R := vx a * vx b + vy a * vy b + vz a * vz b.
Definition orthogonal (A : mat) : Prop := mmul (mtrans A) A = mI /\ mmul A (mtrans A) = mI.
Definition rotation (A : mat) : Prop := orthogonal A /\ det A = 1.
Definition preserves_lengths (A : mat) : Prop :=
  forall v, dot (mapply A v) (mapply A v) = dot v v.

(** ** Lemmas *)
Lemma mat_ext : forall a b c d e f g h i a' b' c' d' e' f' g' h' i',
  a = a' -> b = b' -> c = c' -> d = d' -> e = e' -> f = f' -> g = g' -> h = h' -> i = i' ->
  Mat a b c d e f g h i = Mat a' b' c' d' e' f' g' h' i'.
Proof. intros; subst; reflexivity. Qed.

Lemma vec_ext : forall a b c a' b' c', a = a' -> b = b' -> c = c' -> Vec a b c = Vec a' b' c'.
Proof. intros; subst; reflexivity. Qed.

Ltac mat_unf := cbv [mmul mapply mtrans mI row dot det m00 m01 m02 m10 m11 m12 m20 m21 m22 vx vy vz].

Lemma mmul_assoc : forall A B C, mmul (mmul A B) C = mmul A (mmul B C).
Proof. intros [] [] []; mat_unf; apply mat_ext; ring. Qed.
Lemma mmul_I_l : forall A, mmul mI A = A.
Proof. intros []; mat_unf; apply mat_ext; ring. Qed.
Lemma mmul_I_r : forall A, mmul A mI = A.
Proof. intros []; mat_unf; apply mat_ext; ring. Qed.
Lemma mtrans_mul : forall A B, mtrans (mmul A B) = mmul (mtrans B) (mtrans A).
Proof. intros [] []; mat_unf; apply mat_ext; ring. Qed.
Lemma mtrans_inv : forall A, mtrans (mtrans A) = A.
Proof. intros []; reflexivity. Qed.
Lemma mapply_mul : forall A B v, mapply (mmul A B) v = mapply A (mapply B v).
Proof. intros [] [] []; mat_unf; apply vec_ext; ring. Qed.
Lemma mapply_I : forall v, mapply mI v = v.
Proof. intros []; mat_unf; apply vec_ext; ring. Qed.
Lemma det_mul : forall A B, det (mmul A B) = det A * det B.
Proof. intros [] []; mat_unf; ring. Qed.
Lemma dot_trans : forall A v w, dot (mapply A v) w = dot v (mapply (mtrans A) w).
Proof. intros [] [] []; mat_unf; ring. Qed.

Lemma rotation_mul : forall A B, rotation A -> rotation B -> rotation (mmul A B).
Proof.
  intros A B [[A1 A2] A3] [[B1 B2] B3]; split; [split|].
  - rewrite mtrans_mul, mmul_assoc, <- (mmul_assoc (mtrans A)), A1, mmul_I_l; exact B1.
  - rewrite mtrans_mul, mmul_assoc, <- (mmul_assoc B), B2, mmul_I_l; exact A2.
  - rewrite det_mul, A3, B3; ring.
Qed.

Lemma rotation_lengths : forall A, rotation A -> preserves_lengths A.
Proof.
  intros A [[A1 _] _] v; rewrite dot_trans, <- mapply_mul, A1, mapply_I; reflexivity.
Qed.

Lemma sc : forall t, cos t * cos t = 1 - sin t * sin t.
Proof. intros t; pose proof (sin2_cos2' t); lra. Qed.

Lemma rot_x_rotation : forall t, rotation (rot_x t).
Proof. intros t; pose proof (sc t) as E; split; [split|]; unfold rot_x; mat_unf;
  try apply mat_ext; try ring; ring_simplify; nra. Qed.
Lemma rot_y_rotation : forall t, rotation (rot_y t).
Proof. intros t; pose proof (sc t) as E; split; [split|]; unfold rot_y; mat_unf;
  try apply mat_ext; try ring; ring_simplify; nra. Qed.
Lemma rot_z_rotation : forall t, rotation (rot_z t).
Proof. intros t; pose proof (sc t) as E; split; [split|]; unfold rot_z; mat_unf;
  try apply mat_ext; try ring; ring_simplify; nra. Qed.

(** What rotate returns. *)
Lemma rotate_cases : forall t axis A, rotate t axis = Ok A ->
  (lower axis = "x"%string /\ A = rot_x t) \/ (lower axis = "y"%string /\ A = rot_y t) \/
  (lower axis = "z"%string /\ A = rot_z t).
Proof.
  intros t axis A; unfold rotate.
  destruct (String.eqb_spec (lower axis) "x") as [E|_]; [intros <-%Ok_inj; auto|].
  destruct (String.eqb_spec (lower axis) "y") as [E|_]; [intros <-%Ok_inj; auto|].
  destruct (String.eqb_spec (lower axis) "z") as [E|_]; [intros <-%Ok_inj; auto|discriminate].
Qed.

(** ** Theorems *)
Theorem C16_rotate_is_rotation : forall t axis A, rotate t axis = Ok A ->
  rotation A /\ preserves_lengths A.
Proof.
  intros t axis A H.
  assert (K : rotation A).
  { apply rotate_cases in H as [[_ ->]|[[_ ->]|[_ ->]]];
      [apply rot_x_rotation|apply rot_y_rotation|apply rot_z_rotation]. }
  split; [exact K|apply rotation_lengths; exact K].
Qed.
Print Assumptions C16_rotate_is_rotation.

(** The axis named is the fixed axis, and the rotation takes the next axis
    (cyclically) towards the one after it by [-t]: the matrix rotates the frame. *)
Definition axis_vec (n : nat) : vec :=
  match Nat.modulo n 3 with O => Vec 1 0 0 | S O => Vec 0 1 0 | _ => Vec 0 0 1 end.
Definition axis_name (n : nat) : string := nth n ["x"; "y"; "z"]%string ""%string.

Theorem C16_axes : forall n t, (n < 3)%nat ->
  exists A, rotate t (axis_name n) = Ok A /\
    mapply A (axis_vec n) = axis_vec n /\
    (forall p, dot (mapply A (axis_vec (n + 1))) p
       = cos t * dot (axis_vec (n + 1)) p - sin t * dot (axis_vec (n + 2)) p) /\
    (forall p, dot (mapply A (axis_vec (n + 2))) p
       = sin t * dot (axis_vec (n + 1)) p + cos t * dot (axis_vec (n + 2)) p).
Proof.
  intros n t Hn; destruct n as [|[|[|n]]]; [| | |lia];
    [exists (rot_x t)|exists (rot_y t)|exists (rot_z t)]; (split; [reflexivity|]);
    cbv [axis_vec Nat.modulo Nat.divmod Nat.add Nat.sub fst snd rot_x rot_y rot_z]; mat_unf;
    (split; [apply vec_ext; ring|split; intros []; ring]).
Qed.
Print Assumptions C16_axes.

(** Composition, inverse, zero angle. *)
Theorem C16_additive : forall axis s t A B, rotate s axis = Ok A -> rotate t axis = Ok B ->
  rotate (s + t) axis = Ok (mmul A B) /\ rotate (- s) axis = Ok (mtrans A) /\
  rotate 0 axis = Ok mI.
Proof.
  intros axis s t A B; unfold rotate.
  destruct (String.eqb (lower axis) "x"); [|destruct (String.eqb (lower axis) "y");
    [|destruct (String.eqb (lower axis) "z"); [|discriminate]]];
  intros <-%Ok_inj <-%Ok_inj; (split; [|split]); f_equal; unfold rot_x, rot_y, rot_z; mat_unf;
  apply mat_ext; rewrite ?cos_plus, ?sin_plus, ?cos_neg, ?sin_neg, ?cos_0, ?sin_0; ring.
Qed.
Print Assumptions C16_additive.

(** Exactly the six axis names are accepted. *)
Theorem C16_axis_names : forall axis t,
  (exists A, rotate t axis = Ok A) <-> In axis ["x"; "y"; "z"; "X"; "Y"; "Z"]%string.
Proof.
  intros axis t; split.
  - intros [A H]; apply rotate_cases in H.
    assert (L : lower axis = "x"%string \/ lower axis = "y"%string \/ lower axis = "z"%string) by tauto.
    clear H A; destruct axis as [|c [|c' s]]; cbn [lower smap] in L;
      [destruct L as [L|[L|L]]; discriminate| |destruct L as [L|[L|L]]; discriminate].
    destruct c as [[] [] [] [] [] [] [] []]; vm_compute in L;
      first [exfalso; destruct L as [L|[L|L]]; discriminate|vm_compute; tauto].
  - cbn [In]; intros [<-|[<-|[<-|[<-|[<-|[<-|[]]]]]]]; vm_compute lower; eexists; reflexivity.
Qed.
Print Assumptions C16_axis_names.

Theorem C16_other_axis_rejected : forall axis t,
  ~ In axis ["x"; "y"; "z"; "X"; "Y"; "Z"]%string -> rotate t axis = Err ValueError.
Proof.
  intros axis t H; rewrite <- (C16_axis_names axis t) in H; unfold rotate in *.
  destruct (String.eqb _ _); [destruct H; eauto|].
  destruct (String.eqb _ _); [destruct H; eauto|].
  destruct (String.eqb _ _); [destruct H; eauto|reflexivity].
Qed.
Print Assumptions C16_other_axis_rejected.
Example C16_case_upper : rotate (PI / 2) "Z" = Ok (Mat 0 1 0 (- (1)) 0 0 0 0 1).
Proof. unfold rotate; cbn; unfold rot_z; rewrite cos_PI2, sin_PI2; reflexivity. Qed.

(** Precession, nutation and polar motion are the documented products of
    elementary rotations. *)
Theorem C16_precession : forall T,
  precession_matrix T =
    mmul (mmul (mmul (rot_z (prec_CHI T)) (rot_x (- prec_OMEGA T))) (rot_z (- prec_PSI T)))
         (rot_x prec_EPS)
  /\ rotation (precession_matrix T) /\ preserves_lengths (precession_matrix T).
Proof.
  intros T.
  assert (E : precession_matrix T =
    mmul (mmul (mmul (rot_z (prec_CHI T)) (rot_x (- prec_OMEGA T))) (rot_z (- prec_PSI T)))
         (rot_x prec_EPS)).
  { unfold precession_matrix, precession_entries.
    generalize (prec_CHI T), (- prec_OMEGA T), (- prec_PSI T), prec_EPS; intros a b c d.
    unfold rot_x, rot_z; mat_unf; apply mat_ext; ring. }
  assert (K : rotation (precession_matrix T)).
  { rewrite E; repeat apply rotation_mul; auto using rot_x_rotation, rot_z_rotation. }
  split; [exact E|split; [exact K|apply rotation_lengths; exact K]].
Qed.
Print Assumptions C16_precession.

Theorem C16_nutation : forall mean true psi,
  nutation_matrix mean true psi = mmul (mmul (rot_x (- true)) (rot_z (- psi))) (rot_x mean)
  /\ rotation (nutation_matrix mean true psi) /\ preserves_lengths (nutation_matrix mean true psi).
Proof.
  intros mean true psi.
  assert (E : nutation_matrix mean true psi
    = mmul (mmul (rot_x (- true)) (rot_z (- psi))) (rot_x mean)).
  { unfold nutation_matrix, rot_x, rot_z; rewrite !cos_neg, !sin_neg; mat_unf; apply mat_ext; ring. }
  assert (K : rotation (nutation_matrix mean true psi)).
  { rewrite E; repeat apply rotation_mul; auto using rot_x_rotation, rot_z_rotation. }
  split; [exact E|split; [exact K|apply rotation_lengths; exact K]].
Qed.
Print Assumptions C16_nutation.

Theorem C16_polar_motion : forall T px py,
  rotation (polar_motion_matrix T px py) /\ preserves_lengths (polar_motion_matrix T px py) /\
  polar_motion_matrix 0 0 0 = mI.
Proof.
  intros T px py.
  assert (K : rotation (polar_motion_matrix T px py)).
  { unfold polar_motion_matrix; repeat apply rotation_mul;
      auto using rot_x_rotation, rot_y_rotation, rot_z_rotation. }
  split; [exact K|split; [apply rotation_lengths; exact K|]].
  unfold polar_motion_matrix.
  replace (- (-4.7e-5 * 0) * atr) with 0 by ring; replace (0 * atr) with 0 by ring.
  unfold rot_x, rot_y, rot_z; rewrite cos_0, sin_0; mat_unf; apply mat_ext; ring.
Qed.
Print Assumptions C16_polar_motion.

(** The frame bias matrix is a truncated rotation: lengths are not exactly
    preserved ... *)
Lemma atr_small : 0 < atr <= 1 / 100000.
Proof.
  unfold atr; pose proof PI_RGT_0; pose proof PI_4; split; [lra|].
  apply Rmult_le_reg_r with 648000; [lra|].
  unfold Rdiv; rewrite Rmult_assoc, Rinv_l by lra; lra.
Qed.

Lemma frame_bias_norm2 : forall v,
  let B := frame_bias_matrix in
  dot (mapply B v) (mapply B v) - dot v v =
    1/4 * ((da0^2 + xi0^2)^2 * vx v ^2 + (da0^2 + eta0^2)^2 * vy v ^2 + (eta0^2 + xi0^2)^2 * vz v ^2)
    + 2 * (vx v * vy v * (xi0 * eta0 + da0 / 2 * (eta0^2 - xi0^2))
         + vx v * vz v * (da0 * eta0 + xi0 / 2 * (da0^2 - eta0^2))
         + vy v * vz v * (- da0 * xi0 + eta0 / 2 * (da0^2 - xi0^2))).
Proof.
  intros [x y z]; unfold frame_bias_matrix; replace 0.5 with (1 / 2) by lra.
  generalize da0 xi0 eta0; intros; mat_unf; field.
Qed.

Theorem C16_frame_bias_refuted : ~ preserves_lengths frame_bias_matrix.
Proof.
  intros H; specialize (H (Vec 1 0 0)).
  pose proof (frame_bias_norm2 (Vec 1 0 0)) as E; cbv zeta in E; rewrite H in E; clear H.
  cbn [vx vy vz] in E.
  assert (K : 0 < da0 ^ 2).
  { assert (D : da0 <> 0) by (unfold da0; pose proof atr_small; lra).
    pose proof (Rsqr_pos_lt _ D) as P; unfold Rsqr in P; nra. }
  assert (K' : 0 <= xi0 ^ 2) by apply pow2_ge_0.
  assert (0 < (da0 ^ 2 + xi0 ^ 2) ^ 2) by (apply pow_lt; lra); lra.
Qed.
Print Assumptions C16_frame_bias_refuted.

(** ... but they are to 3 parts in 10^13. *)
Lemma form_bound : forall A B C P Q S x y z a p,
  0 <= A <= a -> 0 <= B <= a -> 0 <= C <= a ->
  Rabs P <= p -> Rabs Q <= p -> Rabs S <= p ->
  Rabs (1 / 4 * (A * x ^ 2 + B * y ^ 2 + C * z ^ 2) + 2 * (x * y * P + x * z * Q + y * z * S))
  <= (a + 2 * p) * (x * x + y * y + z * z).
Proof.
  intros A B C P Q S x y z a p HA HB HC HP HQ HS.
  assert (K : forall u v c, Rabs c <= p -> Rabs (u * v * c) <= p * ((u * u + v * v) / 2)).
  { intros u v c Hc; rewrite Rabs_mult, Rmult_comm.
    apply Rmult_le_compat; try apply Rabs_pos; [exact Hc|].
    unfold Rabs; destruct (Rcase_abs _);
      [pose proof (Rle_0_sqr (u + v))|pose proof (Rle_0_sqr (u - v))]; unfold Rsqr in *; lra. }
  pose proof (K x y P HP) as K1; pose proof (K x z Q HQ) as K2; pose proof (K y z S HS) as K3.
  assert (A' : 0 <= A * x ^ 2 <= a * (x * x)) by nra.
  assert (B' : 0 <= B * y ^ 2 <= a * (y * y)) by nra.
  assert (C' : 0 <= C * z ^ 2 <= a * (z * z)) by nra.
  apply Rabs_le; revert K1 K2 K3; unfold Rabs.
  destruct (Rcase_abs _), (Rcase_abs _), (Rcase_abs _); intros; lra.
Qed.

Lemma small_sq : forall a k, Rabs a <= k -> 0 <= a ^ 2 <= k ^ 2.
Proof.
  intros a k H; split; [apply pow2_ge_0|].
  rewrite <- (pow2_abs a); apply pow_incr; split; [apply Rabs_pos|exact H].
Qed.

Lemma coef_bound : forall a b c k, 0 <= k <= 1 ->
  Rabs a <= k -> Rabs b <= k -> Rabs c <= k ->
  Rabs (a * b + c / 2 * (b ^ 2 - a ^ 2)) <= 2 * k ^ 2 /\
  Rabs (- a * b + c / 2 * (b ^ 2 - a ^ 2)) <= 2 * k ^ 2.
Proof.
  intros a b c k Hk Ha Hb Hc.
  assert (AB : Rabs (a * b) <= k ^ 2).
  { rewrite Rabs_mult; replace (k ^ 2) with (k * k) by ring.
    apply Rmult_le_compat; auto using Rabs_pos. }
  assert (D : Rabs (c / 2 * (b ^ 2 - a ^ 2)) <= k ^ 2).
  { rewrite Rabs_mult; replace (k ^ 2) with (1 * k ^ 2) by ring.
    apply Rmult_le_compat; auto using Rabs_pos.
    - unfold Rdiv; rewrite Rabs_mult, (Rabs_right (/ 2)) by lra.
      pose proof (Rabs_pos c); lra.
    - pose proof (small_sq a k Ha); pose proof (small_sq b k Hb).
      apply Rabs_le; lra. }
  split; (eapply Rle_trans; [apply Rabs_triang|]); rewrite ?Ropp_mult_distr_l_reverse, ?Rabs_Ropp; lra.
Qed.

Theorem C16_frame_bias_partial : forall v,
  Rabs (dot (mapply frame_bias_matrix v) (mapply frame_bias_matrix v) - dot v v)
    <= 3e-13 * dot v v.
(* Missing: exact length preservation, see C16_frame_bias_refuted. *)
Proof.
  intros v; pose proof (frame_bias_norm2 v) as E; cbv zeta in E; rewrite E; clear E.
  destruct v as [x y z]; unfold dot; cbn [vx vy vz].
  pose (k := 2e-7).
  assert (Hd : Rabs da0 <= k /\ Rabs xi0 <= k /\ Rabs eta0 <= k).
  { unfold k, da0, xi0, eta0; pose proof atr_small; repeat split; apply Rabs_le; lra. }
  destruct Hd as (Hd & Hx & He).
  assert (Hk : 0 <= k <= 1) by (unfold k; lra).
  assert (D : forall a b, Rabs a <= k -> Rabs b <= k -> 0 <= (a ^ 2 + b ^ 2) ^ 2 <= k ^ 2).
  { intros a b Ha Hb; pose proof (small_sq a k Ha); pose proof (small_sq b k Hb).
    split; [apply pow2_ge_0|]; apply pow_incr; split; [lra|].
    assert (k ^ 2 <= k / 2) by (unfold k; lra); lra. }
  eapply Rle_trans; [apply (form_bound _ _ _ _ _ _ x y z (k ^ 2) (2 * k ^ 2)); auto|].
  - apply (coef_bound xi0 eta0 da0 k); auto.
  - replace (da0 * eta0 + xi0 / 2 * (da0 ^ 2 - eta0 ^ 2))
      with (eta0 * da0 + xi0 / 2 * (da0 ^ 2 - eta0 ^ 2)) by ring.
    apply (coef_bound eta0 da0 xi0 k); auto.
  - replace (- da0 * xi0 + eta0 / 2 * (da0 ^ 2 - xi0 ^ 2))
      with (- xi0 * da0 + eta0 / 2 * (da0 ^ 2 - xi0 ^ 2)) by ring.
    apply (coef_bound xi0 da0 eta0 k); auto.
  - apply Rmult_le_compat_r; [nra|]; unfold k; lra.
Qed.
Print Assumptions C16_frame_bias_partial.

(** The combined terrestrial rotation: exactly length preserving except for the
    frame bias factor, and orthogonal up to it. *)
Theorem C16_itrs_partial : forall T gast epsilon dpsi deps px py v,
  let A := itrs T gast epsilon dpsi deps px py in
  Rabs (dot (mapply A v) (mapply A v) - dot v v) <= 3e-13 * dot v v.
(* Missing: exact length preservation (frame bias). *)
Proof.
  intros T gast epsilon dpsi deps px py v A; unfold A, itrs.
  rewrite !mapply_mul.
  rewrite (rotation_lengths _ (rot_z_rotation _)).
  rewrite (proj2 (proj2 (C16_precession T))).
  rewrite (proj2 (proj2 (C16_nutation epsilon (epsilon + deps) dpsi))).
  set (w := mapply (polar_motion_matrix T px py) v).
  assert (E : dot v v = dot w w).
  { unfold w; rewrite (proj1 (proj2 (C16_polar_motion T px py))); reflexivity. }
  rewrite E; apply C16_frame_bias_partial.
Qed.
Print Assumptions C16_itrs_partial.
(** As sidereal time increases by [d] turns, a fixed celestial direction moves
    westward through 2 pi d in the terrestrial frame. *)
Theorem C16_itrs_westward : forall T gast d epsilon dpsi deps px py v,
  let w := mapply (itrs T gast epsilon dpsi deps px py) v in
  let w' := mapply (itrs T (gast + d) epsilon dpsi deps px py) v in
  vx w' = cos (2 * PI * d) * vx w + sin (2 * PI * d) * vy w
  /\ vy w' = cos (2 * PI * d) * vy w - sin (2 * PI * d) * vx w /\ vz w' = vz w.
Proof.
  intros T gast d epsilon dpsi deps px py v. cbv zeta. unfold itrs. rewrite !mapply_mul.
  set (u := mapply (precession_matrix T) _). replace (2 * PI * (gast + d)) with (2 * PI * gast + 2 * PI * d) by ring.
  clearbody u. unfold mapply, rot_z, row. cbn [m00 m01 m02 m10 m11 m12 m20 m21 m22 vx vy vz]. rewrite cos_plus, sin_plus. repeat split; ring.
Qed.
Print Assumptions C16_itrs_westward.
Example C16_case_lengths : dot (mapply (rot_y 1) (Vec 3 4 12)) (mapply (rot_y 1) (Vec 3 4 12)) = 169.
Proof. rewrite (rotation_lengths _ (rot_y_rotation 1)); unfold dot; cbn; ring. Qed.
