(** Proofs about elastic fields and the tide code (C49-C51). *)
From Coq Require Import Reals Lra Lia String List Bool ZArith.
From Verif Require Import PyBase RBase StrBase MathModel AstroModel EarthModel EarthSpec.
Import ListNotations.
Open Scope R_scope.

(** ** Derivatives along tangents *)

(** [G] is a gradient of [W] at [x] up to a multiple of [x] *)
Definition tang (W : vec -> R) (x G : vec) : Prop :=
  forall d, dotv d x = 0 -> derivable_pt_lim (fun s => W (shift_by x d s)) 0 (dotv G d).

Lemma d_ext0 f g l : (forall s, f s = g s) -> derivable_pt_lim f 0 l -> derivable_pt_lim g 0 l.
Proof.
  intros E H eps He. destruct (H eps He) as [del Hd]. exists del. intros h Hn Hh. rewrite <- !E. apply Hd; assumption.
Qed.

Lemma poly_lim c0 c1 c2 c3 : derivable_pt_lim (fun s => c0 + c1 * s + c2 * s ^ 2 + c3 * s ^ 3) 0 c1.
Proof.
  pose proof (derivable_pt_lim_plus _ _ 0 _ _
    (derivable_pt_lim_plus _ _ 0 _ _
      (derivable_pt_lim_plus _ _ 0 _ _ (derivable_pt_lim_const c0 0)
         (derivable_pt_lim_scal _ c1 0 _ (derivable_pt_lim_id 0)))
      (derivable_pt_lim_scal _ c2 0 _ (derivable_pt_lim_pow 0 2)))
    (derivable_pt_lim_scal _ c3 0 _ (derivable_pt_lim_pow 0 3))) as H.
  unfold plus_fct, mult_real_fct, fct_cte, id in H.
  match type of H with derivable_pt_lim _ _ ?v => assert (E : v = c1) by (cbn [Nat.pred]; ring); rewrite E in H end.
  exact H.
Qed.

Lemma dot_shift x d s : dotv d x = 0 -> dotv (shift_by x d s) (shift_by x d s) = dotv x x + s ^ 2 * dotv d d.
Proof.
  intros T. unfold shift_by, dotv in *; cbn [vx vy vz].
  replace ((vx x + s * vx d) * (vx x + s * vx d) + (vy x + s * vy d) * (vy x + s * vy d) + (vz x + s * vz d) * (vz x + s * vz d))
    with (vx x * vx x + vy x * vy x + vz x * vz x + 2 * s * (vx d * vx x + vy d * vy x + vz d * vz x)
          + s ^ 2 * (vx d * vx d + vy d * vy d + vz d * vz d)) by ring.
  rewrite T. ring.
Qed.

Lemma dot_pos x : 0 <= dotv x x.
Proof. unfold dotv. nra. Qed.

Lemma off_axis_pos x : off_axis x -> 0 < vx x ^ 2 + vy x ^ 2.
Proof. intros [H|H]; pose proof (pow2_ge_0 (vx x)); pose proof (pow2_ge_0 (vy x)); pose proof (Rsqr_pos_lt _ H) as K; unfold Rsqr in K; nra. Qed.

Lemma off_axis_dot x : off_axis x -> 0 < dotv x x.
Proof. intros H. apply off_axis_pos in H. unfold dotv. pose proof (pow2_ge_0 (vz x)). nra. Qed.

(** polynomial over the squared radius *)
Lemma quot_lim (Q : vec -> R) x d l :
  0 < dotv x x -> dotv d x = 0 -> derivable_pt_lim (fun s => Q (shift_by x d s)) 0 l ->
  derivable_pt_lim (fun s => Q (shift_by x d s) / dotv (shift_by x d s) (shift_by x d s)) 0 (l / dotv x x).
Proof.
  intros P T H.
  pose proof (poly_lim (dotv x x) 0 (dotv d d) 0) as N.
  assert (N' : derivable_pt_lim (fun s => dotv (shift_by x d s) (shift_by x d s)) 0 0).
  { apply d_ext0 with (2 := N). intros s. rewrite dot_shift by exact T. ring. }
  assert (Z : dotv (shift_by x d 0) (shift_by x d 0) = dotv x x) by (rewrite dot_shift by exact T; ring).
  pose proof (derivable_pt_lim_div _ _ 0 _ _ H N') as Dv. cbv beta in Dv. rewrite Z in Dv.
  specialize (Dv (Rgt_not_eq _ _ P)). unfold div_fct in Dv.
  replace (l / dotv x x) with ((l * dotv x x - 0 * Q (shift_by x d 0)) / (dotv x x)²) by (unfold Rsqr; field; lra).
  exact Dv.
Qed.

Lemma norm_lim x d : 0 < dotv x x -> dotv d x = 0 -> derivable_pt_lim (fun s => norm (shift_by x d s)) 0 0.
Proof.
  intros P T.
  pose proof (poly_lim (dotv x x) 0 (dotv d d) 0) as N.
  assert (N' : derivable_pt_lim (fun s => dotv (shift_by x d s) (shift_by x d s)) 0 0).
  { apply d_ext0 with (2 := N). intros s. rewrite dot_shift by exact T. ring. }
  assert (Z : dotv (shift_by x d 0) (shift_by x d 0) = dotv x x) by (rewrite dot_shift by exact T; ring).
  assert (P0 : 0 < dotv (shift_by x d 0) (shift_by x d 0)) by (rewrite Z; exact P).
  pose proof (derivable_pt_lim_comp _ sqrt 0 _ _ N' (derivable_pt_lim_sqrt _ P0)) as C.
  rewrite Rmult_0_r in C. exact C.
Qed.

Lemma norm_pos x : 0 < dotv x x -> 0 < norm x.
Proof. intros H. apply sqrt_lt_R0, H. Qed.
Lemma norm_sq x : norm x * norm x = dotv x x.
Proof. apply sqrt_sqrt, dot_pos. Qed.
Lemma shift_0 x d : shift_by x d 0 = x.
Proof. destruct x as [a b c], d as [e f g]. unfold shift_by; cbn. f_equal; ring. Qed.

(** cosine of the angle to a fixed vector *)
Lemma cosang_lim x d b : 0 < dotv x x -> 0 < dotv b b -> dotv d x = 0 ->
  derivable_pt_lim (fun s => cosang (shift_by x d s) b) 0 (dotv d b / (norm x * norm b)).
Proof.
  intros P B T.
  assert (H : derivable_pt_lim (fun s => dotv (shift_by x d s) b) 0 (dotv d b)).
  { apply d_ext0 with (2 := poly_lim (dotv x b) (dotv d b) 0 0). intros s. unfold shift_by, dotv; cbn [vx vy vz]. ring. }
  pose proof (derivable_pt_lim_scal _ (norm b) 0 _ (norm_lim x d P T)) as N.
  pose proof (derivable_pt_lim_div _ _ 0 _ _ H N) as Dv. unfold mult_real_fct in Dv. cbv beta in Dv. rewrite shift_0 in Dv.
  pose proof (norm_pos x P). pose proof (norm_pos b B).
  assert (Nz : norm b * norm x <> 0) by (apply Rgt_not_eq, Rmult_lt_0_compat; assumption).
  specialize (Dv Nz). unfold div_fct in Dv.
  assert (E : dotv d b / (norm x * norm b) = (dotv d b * (norm b * norm x) - norm b * 0 * dotv x b) / (norm b * norm x)²)
    by (unfold Rsqr; field; lra).
  rewrite E. apply d_ext0 with (2 := Dv). intros s. unfold cosang. now rewrite (Rmult_comm (norm b)).
Qed.

Lemma P2_lim c l : derivable_pt_lim c 0 l -> derivable_pt_lim (fun s => P2 (c s)) 0 (3 * c 0 * l).
Proof.
  intros H. pose proof (derivable_pt_lim_scal _ (3 / 2) 0 _ (derivable_pt_lim_mult _ _ 0 _ _ H H)) as M.
  pose proof (derivable_pt_lim_plus _ _ 0 _ _ M (derivable_pt_lim_const (-1 / 2) 0)) as Q.
  unfold plus_fct, mult_real_fct, mult_fct, fct_cte in Q.
  replace (3 * c 0 * l) with (3 / 2 * (l * c 0 + c 0 * l) + 0) by field.
  apply d_ext0 with (2 := Q). intros s. unfold P2. field.
Qed.
Lemma P3_lim c l : derivable_pt_lim c 0 l -> derivable_pt_lim (fun s => P3 (c s)) 0 ((15 * c 0 ^ 2 - 3) / 2 * l).
Proof.
  intros H. pose proof (derivable_pt_lim_mult _ _ 0 _ _ H (derivable_pt_lim_mult _ _ 0 _ _ H H)) as M.
  pose proof (derivable_pt_lim_plus _ _ 0 _ _ (derivable_pt_lim_scal _ (5 / 2) 0 _ M) (derivable_pt_lim_scal _ (-3 / 2) 0 _ H)) as Q.
  unfold plus_fct, mult_real_fct, mult_fct, fct_cte in Q.
  match type of Q with derivable_pt_lim _ _ ?v => replace ((15 * c 0 ^ 2 - 3) / 2 * l) with v by field end.
  apply d_ext0 with (2 := Q). intros s. unfold P3. field.
Qed.
Lemma sq_lim c l : derivable_pt_lim c 0 l -> derivable_pt_lim (fun s => c s ^ 2) 0 (2 * c 0 * l).
Proof.
  intros H. pose proof (derivable_pt_lim_mult _ _ 0 _ _ H H) as M. unfold mult_fct in M.
  replace (2 * c 0 * l) with (l * c 0 + c 0 * l) by ring. apply d_ext0 with (2 := M). intros s. ring.
Qed.
Lemma scal_lim k c l : derivable_pt_lim c 0 l -> derivable_pt_lim (fun s => k * c s) 0 (k * l).
Proof. intros H. exact (derivable_pt_lim_scal _ k 0 _ H). Qed.
Lemma add_lim f g a b : derivable_pt_lim f 0 a -> derivable_pt_lim g 0 b -> derivable_pt_lim (fun s => f s + g s) 0 (a + b).
Proof. intros H K. exact (derivable_pt_lim_plus _ _ 0 _ _ H K). Qed.

Lemma sinlat_lim x d : 0 < dotv x x -> dotv d x = 0 -> derivable_pt_lim (fun s => sinlat (shift_by x d s)) 0 (vz d / norm x).
Proof.
  intros P T. pose proof (cosang_lim x d (Vec 0 0 1) P ltac:(unfold dotv; cbn; lra) T) as H.
  assert (N1 : norm (Vec 0 0 1) = 1) by (unfold norm, dotv; cbn; replace (0 * 0 + 0 * 0 + 1 * 1) with 1 by ring; apply sqrt_1).
  rewrite N1 in H. replace (vz d / norm x) with (dotv d (Vec 0 0 1) / (norm x * 1)).
  - apply d_ext0 with (2 := H). intros s. unfold cosang, sinlat, dotv; cbn [vx vy vz]. rewrite N1.
    rewrite !Rmult_1_r. unfold Rdiv. f_equal. ring.
  - rewrite !Rmult_1_r. unfold dotv; cbn [vx vy vz]. unfold Rdiv. f_equal. ring.
Qed.

(** ** Fields *)
Lemma field_plus U1 W1 u1 U2 W2 u2 x : 0 < dotv x x ->
  field U1 W1 x u1 -> field U2 W2 x u2 -> field (U1 + U2) (fun y => W1 y + W2 y) x (vadd u1 u2).
Proof.
  intros P [R1 T1] [R2 T2]. split.
  - replace (dotv (vadd u1 u2) x) with (dotv u1 x + dotv u2 x) by (unfold vadd, dotv; cbn; ring). rewrite R1, R2. ring.
  - intros d Hd. replace (dotv (vadd u1 u2) d / norm x) with (dotv u1 d / norm x + dotv u2 d / norm x).
    + apply add_lim; auto.
    + unfold vadd, dotv; cbn [vx vy vz]. field. apply Rgt_not_eq, norm_pos, P.
Qed.

Lemma field_ext U U' W W' x u : field U W x u -> U = U' -> (forall y, W y = W' y) -> field U' W' x u.
Proof.
  intros [A B] <- E. split; [exact A|]. intros d Hd. apply d_ext0 with (2 := B d Hd). intros s. apply E.
Qed.

Lemma field_unique U W x u u' : 0 < dotv x x -> field U W x u -> field U W x u' -> u = u'.
Proof.
  intros P [R1 T1] [R2 T2]. pose proof (norm_pos x P) as N.
  set (d := Vec (vx u - vx u') (vy u - vy u') (vz u - vz u')).
  assert (Hd : dotv d x = 0).
  { replace (dotv d x) with (dotv u x - dotv u' x) by (unfold d, dotv; cbn; ring). rewrite R1, R2. ring. }
  pose proof (uniqueness_limite _ _ _ _ (T1 d Hd) (T2 d Hd)) as E.
  assert (E' : dotv u d = dotv u' d).
  { apply (f_equal (fun z => z * norm x)) in E. replace (dotv u d / norm x * norm x) with (dotv u d) in E by (field; lra).
    replace (dotv u' d / norm x * norm x) with (dotv u' d) in E by (field; lra). exact E. }
  assert (Q : (vx u - vx u') ^ 2 + (vy u - vy u') ^ 2 + (vz u - vz u') ^ 2 = 0).
  { replace ((vx u - vx u') ^ 2 + (vy u - vy u') ^ 2 + (vz u - vz u') ^ 2) with (dotv u d - dotv u' d) by (unfold d, dotv; cbn; ring). lra. }
  pose proof (pow2_ge_0 (vx u - vx u')). pose proof (pow2_ge_0 (vy u - vy u')). pose proof (pow2_ge_0 (vz u - vz u')).
  assert (X : vx u - vx u' = 0) by (apply Rsqr_0_uniq; unfold Rsqr; nra).
  assert (Y : vy u - vy u' = 0) by (apply Rsqr_0_uniq; unfold Rsqr; nra).
  assert (Z : vz u - vz u' = 0) by (apply Rsqr_0_uniq; unfold Rsqr; nra).
  destruct u as [a b c], u' as [a' b' c']; cbn in *. f_equal; lra.
Qed.

Lemma field_of_grad U W x u G al : 0 < dotv x x -> tang W x G ->
  u = vadd (vscale al x) (vscale (norm x) G) -> dotv u x = norm x * U -> field U W x u.
Proof.
  intros P T -> R0. split; [exact R0|]. intros d Hd. pose proof (norm_pos x P).
  replace (dotv (vadd (vscale al x) (vscale (norm x) G)) d / norm x) with (dotv G d); [apply T, Hd|].
  replace (dotv (vadd (vscale al x) (vscale (norm x) G)) d) with (al * dotv d x + norm x * dotv G d)
    by (unfold vadd, vscale, dotv; cbn; ring).
  rewrite Hd. field. lra.
Qed.

(** ** Local components of the code *)
Definition rho (p : vec) : R := sqrt (vx p ^ 2 + vy p ^ 2).
Lemma rho_pos p : off_axis p -> 0 < rho p.
Proof. intros H. apply sqrt_lt_R0, off_axis_pos, H. Qed.
Lemma rho_sq p : rho p ^ 2 = vx p ^ 2 + vy p ^ 2.
Proof. unfold rho. rewrite <- Rsqr_pow2, Rsqr_sqrt; [reflexivity|]. pose proof (pow2_ge_0 (vx p)). pose proof (pow2_ge_0 (vy p)). lra. Qed.
Lemma radius_norm p : xyz_radius p = norm p.
Proof. unfold xyz_radius, norm, dotv. f_equal. ring. Qed.
Lemma norm_rho p : norm p ^ 2 = rho p ^ 2 + vz p ^ 2.
Proof. rewrite rho_sq. replace (norm p ^ 2) with (norm p * norm p) by ring. rewrite norm_sq. unfold dotv. ring. Qed.

Section Local.
  Variable p : vec.
  Hypothesis O : off_axis p.
  Let r := norm p.
  Let q := rho p.
  Lemma r_pos : 0 < r. Proof. apply norm_pos, off_axis_dot, O. Qed.
  Lemma q_pos : 0 < q. Proof. apply rho_pos, O. Qed.
  Lemma l_sinphi : sinphi p = vz p / r. Proof. unfold sinphi. now rewrite radius_norm. Qed.
  Lemma l_cosphi : cosphi p = q / r. Proof. unfold cosphi. now rewrite radius_norm. Qed.
  Lemma l_sinla : sinla p = vy p / q.
  Proof. pose proof r_pos. pose proof q_pos. unfold sinla. rewrite l_cosphi, radius_norm. fold r. field. lra. Qed.
  Lemma l_cosla : cosla p = vx p / q.
  Proof. pose proof r_pos. pose proof q_pos. unfold cosla. rewrite l_cosphi, radius_norm. fold r. field. lra. Qed.
  Lemma q2 : q ^ 2 = vx p ^ 2 + vy p ^ 2. Proof. apply rho_sq. Qed.
  Lemma r2 : r ^ 2 = vx p ^ 2 + vy p ^ 2 + vz p ^ 2. Proof. unfold r. rewrite norm_rho, rho_sq. ring. Qed.

  Lemma l_to_xyz DR DN DE : to_xyz p DR DN DE =
    Vec (DR * vx p / r - DE * vy p / q - DN * vx p * vz p / (q * r))
      (DR * vy p / r + DE * vx p / q - DN * vy p * vz p / (q * r)) (DR * vz p / r + DN * q / r).
  Proof.
    pose proof r_pos. pose proof q_pos. unfold to_xyz. rewrite l_sinphi, l_cosphi, l_sinla, l_cosla.
    f_equal; field; lra.
  Qed.

  Lemma to_xyz_radial DR DN DE : dotv (to_xyz p DR DN DE) p = r * DR.
  Proof.
    pose proof r_pos. pose proof q_pos. rewrite l_to_xyz. unfold dotv; cbn [vx vy vz].
    assert (E : forall A, A * (q * r) = 0 -> A = 0).
    { intros A HA. apply Rmult_integral in HA. destruct HA; [assumption|]. assert (0 < q * r) by (apply Rmult_lt_0_compat; lra). lra. }
    apply Rminus_diag_uniq, E.
    match goal with |- ?L = 0 => replace L with (DR * q * ((vx p ^ 2 + vy p ^ 2 + vz p ^ 2) - r ^ 2) + DN * vz p * (q ^ 2 - (vx p ^ 2 + vy p ^ 2)))
      by (field; lra) end.
    rewrite r2, q2. ring.
  Qed.

  (** tangent directions are spanned by the north and east vectors *)
  Lemma to_xyz_tangent DR DN DE d : dotv d p = 0 ->
    dotv (to_xyz p DR DN DE) d = DN * (r * vz d / q) + DE * ((vx p * vy d - vy p * vx d) / q).
  Proof.
    intros T. pose proof r_pos. pose proof q_pos. rewrite l_to_xyz.
    assert (T' : vx d * vx p + vy d * vy p = - (vz d * vz p)) by (unfold dotv in T; lra).
    unfold dotv; cbn [vx vy vz].
    replace ((DR * vx p / r - DE * vy p / q - DN * vx p * vz p / (q * r)) * vx d +
       (DR * vy p / r + DE * vx p / q - DN * vy p * vz p / (q * r)) * vy d + (DR * vz p / r + DN * q / r) * vz d)
      with (DR / r * (vx d * vx p + vy d * vy p + vz d * vz p) + DE * ((vx p * vy d - vy p * vx d) / q)
        - DN * vz p / (q * r) * (vx d * vx p + vy d * vy p) + DN * q / r * vz d) by (field; lra).
    rewrite T'.
    replace (- (vz d * vz p) + vz d * vz p) with 0 by ring.
    assert (R2 : r ^ 2 = q ^ 2 + vz p ^ 2) by (rewrite r2, q2; ring).
    replace (DN * (r * vz d / q)) with (DN * (r ^ 2 * vz d / (q * r))) by (field; lra).
    rewrite R2. field. lra.
  Qed.

  (** the field condition in components *)
  Lemma field_local W G DR DN DE : tang W p G ->
    DN * q = r * vz G * r - vz p * dotv G p * (r / r) -> DE * q = r * (vx p * vy G - vy p * vx G) ->
    field DR W p (to_xyz p DR DN DE).
  Proof.
    intros T HN HE. pose proof r_pos. pose proof q_pos. split; [apply to_xyz_radial|].
    intros d Hd. rewrite to_xyz_tangent by exact Hd. fold r.
    replace ((DN * (r * vz d / q) + DE * ((vx p * vy d - vy p * vx d) / q)) / r) with (dotv G d); [apply T, Hd|].
    assert (Hd' : vx d * vx p + vy d * vy p = - (vz d * vz p)) by (unfold dotv in Hd; lra).
    replace ((DN * (r * vz d / q) + DE * ((vx p * vy d - vy p * vx d) / q)) / r)
      with ((DN * q * (r * vz d) + DE * q * (vx p * vy d - vy p * vx d)) / (q ^ 2 * r)) by (field; lra).
    rewrite HN, HE.
    replace (r * vz G * r - vz p * dotv G p * (r / r)) with (r ^ 2 * vz G - vz p * dotv G p) by (field; lra).
    assert (R2 : r ^ 2 = q ^ 2 + vz p ^ 2) by (rewrite r2, q2; ring). rewrite R2.
    assert (K : (q ^ 2 + vz p ^ 2) * vz G - vz p * dotv G p = q ^ 2 * vz G - vz p * (vx G * vx p + vy G * vy p)) by (unfold dotv; ring).
    rewrite K.
    apply Rmult_eq_reg_r with (q ^ 2 * r); [|apply Rgt_not_eq, Rmult_lt_0_compat; [apply pow_lt|]; assumption].
    replace (((q ^ 2 * vz G - vz p * (vx G * vx p + vy G * vy p)) * (r * vz d) + r * (vx p * vy G - vy p * vx G) * (vx p * vy d - vy p * vx d)) /
      (q ^ 2 * r) * (q ^ 2 * r)) with
      (r * (q ^ 2 * vz G * vz d + (vx G * vx p + vy G * vy p) * (- (vz d * vz p)) + (vx p * vy G - vy p * vx G) * (vx p * vy d - vy p * vx d)))
      by (field; lra).
    rewrite <- Hd'. rewrite q2. unfold dotv. ring.
  Qed.
End Local.
