(** C18 and C19: the closed-form conversion of Zhu (spatial.py:1918-1981). *)
From Coq Require Import Reals String List Bool ZArith Lra Lia.
From Verif Require Import PyBase RBase StrBase MathModel AstroModel GeoModel GeoSpec GeoProofs LocalProps GeodeticProps MoritzProps.
Import ListNotations.
Open Scope R_scope.

(** ** Cube roots *)
Lemma cbrt_cube x : 0 < x -> cbrt x * cbrt x * cbrt x = x.
Proof.
  intros H. unfold cbrt. destruct (Rlt_dec 0 x); [|lra]. rewrite <- !Rpower_plus.
  replace (1 / 3 + 1 / 3 + 1 / 3) with 1 by field. now apply Rpower_1.
Qed.
Lemma cbrt_pos x : 0 < x -> 0 < cbrt x.
Proof. intros H. unfold cbrt. destruct (Rlt_dec 0 x); [|lra]. unfold Rpower. apply exp_pos. Qed.
Lemma cube_inj x y : 0 < x -> 0 < y -> x * x * x = y * y * y -> x = y.
Proof.
  intros Hx Hy E. assert (F : (x - y) * (x * x + x * y + y * y) = 0) by lra.
  apply Rmult_integral in F. destruct F as [F|F]; [lra|].
  pose proof (Rmult_lt_0_compat x x Hx Hx). pose proof (Rmult_lt_0_compat x y Hx Hy). pose proof (Rmult_lt_0_compat y y Hy Hy). lra.
Qed.

Lemma sign_sq x : x <> 0 -> sign x * sign x = 1.
Proof. intros H. unfold sign. destruct (Rlt_dec x 0); [lra|]. destruct (Rlt_dec 0 x); lra. Qed.
Lemma sign_abs x : sign x * Rabs x = x.
Proof. unfold sign, Rabs. destruct (Rlt_dec x 0), (Rcase_abs x); try lra. destruct (Rlt_dec 0 x); lra. Qed.
Lemma sign_bound x : -1 <= sign x <= 1.
Proof. unfold sign. destruct (Rlt_dec x 0); [lra|]. destruct (Rlt_dec 0 x); lra. Qed.

(** ** The quartic [m/(t+l)^2 + n/(t-l)^2 = 1] *)
Section Quartic.
  Variables (l m n : R).
  Hypothesis (Hl : 0 <= l) (Hm : 0 < m) (Hn : 0 <= n) (Hfar : 4 * l ^ 2 < m + n).
  Let i := - (2 * l ^ 2 + m + n) / 2.
  Let k := (l ^ 2 - m - n) * l ^ 2.
  Let q := 1 / 216 * (m + n - 4 * l ^ 2) ^ 3 + m * n * l ^ 2.
  Let D := sqrt ((2 * q - m * n * l ^ 2) * m * n * l ^ 2).
  Let B := i / 3 - cbrt (q + D) - cbrt (q - D).
  Let t := sqrt (sqrt (B ^ 2 - k) - (B + i) / 2) - sign (m - n) * sqrt ((B - i) / 2).
  Let c := (m + n - 4 * l ^ 2) / 6.
  Let LL := l ^ 2.
  Let g := m * n * l ^ 2.
  Let Sm := cbrt (q + D) + cbrt (q - D).

  Lemma c_pos : 0 < c. Proof. unfold c. lra. Qed.
  Lemma LL_nonneg : 0 <= LL. Proof. apply pow2_ge_0. Qed.
  Lemma g_nonneg : 0 <= g.
  Proof. unfold g. apply Rmult_le_pos; [apply Rmult_le_pos; lra | apply pow2_ge_0]. Qed.
  Lemma q_eq : q = c * c * c + g. Proof. unfold q, c, g. field. Qed.
  Lemma c3_pos : 0 < c * c * c.
  Proof. pose proof c_pos. apply Rmult_lt_0_compat; [apply Rmult_lt_0_compat|]; auto. Qed.
  Lemma D_sq : D * D = (2 * (c * c * c) + g) * g.
  Proof.
    unfold D. replace ((2 * q - m * n * l ^ 2) * m * n * l ^ 2) with ((2 * (c * c * c) + g) * g) by (rewrite q_eq; unfold g; ring).
    apply sqrt_sqrt. pose proof c3_pos. pose proof g_nonneg. apply Rmult_le_pos; lra.
  Qed.
  Lemma D_nonneg : 0 <= D. Proof. apply sqrt_pos. Qed.
  Lemma qD : (q + D) * (q - D) = c * c * c * (c * c * c).
  Proof. replace ((q + D) * (q - D)) with (q * q - D * D) by ring. rewrite D_sq, q_eq. ring. Qed.
  Lemma qp_pos : 0 < q + D.
  Proof. rewrite q_eq. pose proof c3_pos. pose proof g_nonneg. pose proof D_nonneg. lra. Qed.
  Lemma qm_pos : 0 < q - D.
  Proof.
    pose proof qp_pos as P. pose proof qD as E. pose proof c3_pos as C.
    destruct (Rlt_dec 0 (q - D)) as [|X]; auto. exfalso.
    assert ((q + D) * (q - D) <= (q + D) * 0) by (apply Rmult_le_compat_l; lra).
    pose proof (Rmult_lt_0_compat _ _ C C). lra.
  Qed.
  Lemma ab_prod : cbrt (q + D) * cbrt (q - D) = c * c.
  Proof.
    pose proof (cbrt_pos _ qp_pos) as P1. pose proof (cbrt_pos _ qm_pos) as P2. pose proof c_pos as C.
    apply cube_inj.
    - now apply Rmult_lt_0_compat.
    - now apply Rmult_lt_0_compat.
    - replace (cbrt (q + D) * cbrt (q - D) * (cbrt (q + D) * cbrt (q - D)) * (cbrt (q + D) * cbrt (q - D)))
        with (cbrt (q + D) * cbrt (q + D) * cbrt (q + D) * (cbrt (q - D) * cbrt (q - D) * cbrt (q - D))) by ring.
      rewrite (cbrt_cube _ qp_pos), (cbrt_cube _ qm_pos), qD. ring.
  Qed.
  Lemma Sm_pos : 0 < Sm.
  Proof. unfold Sm. pose proof (cbrt_pos _ qp_pos). pose proof (cbrt_pos _ qm_pos). lra. Qed.
  Lemma Sm_cube : Sm * Sm * Sm = 2 * (c * c * c) + 2 * g + 3 * (c * c) * Sm.
  Proof.
    unfold Sm. pose proof ab_prod as P. pose proof (cbrt_cube _ qp_pos) as C1. pose proof (cbrt_cube _ qm_pos) as C2.
    set (a := cbrt (q + D)) in *. set (b := cbrt (q - D)) in *.
    replace ((a + b) * (a + b) * (a + b)) with (a * a * a + b * b * b + 3 * (a * b) * (a + b)) by ring.
    rewrite C1, C2, P. rewrite q_eq. ring.
  Qed.
  Lemma Sm_lower : 2 * c <= Sm.
  Proof.
    pose proof ab_prod as P. unfold Sm. pose proof (cbrt_pos _ qp_pos). pose proof (cbrt_pos _ qm_pos). pose proof c_pos.
    set (a := cbrt (q + D)) in *. set (b := cbrt (q - D)) in *.
    apply Rsqr_incr_0_var; [|lra]. unfold Rsqr.
    pose proof (Rle_0_sqr (a - b)) as X. unfold Rsqr in X.
    replace (2 * c * (2 * c)) with (4 * (a * b)) by (rewrite P; ring). lra.
  Qed.
  Lemma Sm_upper : Sm <= 2 * c + 2 * LL.
  Proof.
    destruct (Rle_dec Sm (2 * c + 2 * LL)) as [|X]; auto. exfalso. apply Rnot_le_lt in X.
    pose proof c_pos as C. pose proof LL_nonneg as L0. pose proof Sm_cube as E.
    set (y := 2 * c + 2 * LL) in *. assert (Hy : 2 * c <= y) by (unfold y; lra).
    (* y^3 - 3 c^2 y >= 2 c^3 + 2 g *)
    assert (G : 2 * (c * c * c) + 2 * g <= y * y * y - 3 * (c * c) * y).
    { assert (A : m * n <= (3 * c + 2 * LL) * (3 * c + 2 * LL)).
      { replace (3 * c + 2 * LL) with ((m + n) / 2) by (unfold c, LL; field).
        pose proof (Rle_0_sqr (m - n)) as Q. unfold Rsqr in Q. lra. }
      assert (A2 : m * n * LL <= (3 * c + 2 * LL) * (3 * c + 2 * LL) * LL) by (apply Rmult_le_compat_r; auto).
      replace (y * y * y - 3 * (c * c) * y) with (2 * (c * c * c) + 2 * ((3 * c + 2 * LL) * (3 * c + 2 * LL) * LL)) by (unfold y; ring).
      unfold g. fold LL. lra. }
    assert (F : Sm * Sm * Sm - 3 * (c * c) * Sm - (y * y * y - 3 * (c * c) * y) = (Sm - y) * (Sm * Sm + Sm * y + y * y - 3 * (c * c))) by ring.
    assert (P : 0 < (Sm - y) * (Sm * Sm + Sm * y + y * y - 3 * (c * c))).
    { apply Rmult_lt_0_compat; [lra|].
      assert (2 * c * (2 * c) <= Sm * Sm) by (apply Rmult_le_compat; lra).
      assert (2 * c * (2 * c) <= Sm * y) by (apply Rmult_le_compat; lra).
      assert (2 * c * (2 * c) <= y * y) by (apply Rmult_le_compat; lra).
      pose proof (Rmult_lt_0_compat c c C C). lra. }
    lra.
  Qed.
  Lemma i_eq : i = - 3 * LL - 3 * c. Proof. unfold i, LL, c. field. Qed.
  Lemma k_eq : k = - (3 * LL * LL + 6 * c * LL). Proof. unfold k, LL, c. field. Qed.
  Lemma B_eq : B = - (LL + c + Sm). Proof. unfold B, Sm. rewrite i_eq. field. Qed.

  Let Y := sqrt ((B - i) / 2).
  Let Vv := sqrt (B ^ 2 - k).
  Lemma Y_sq : Y * Y = (2 * LL + 2 * c - Sm) / 2.
  Proof.
    unfold Y. rewrite B_eq, i_eq. replace ((- (LL + c + Sm) - (-3 * LL - 3 * c)) / 2) with ((2 * LL + 2 * c - Sm) / 2) by field.
    apply sqrt_sqrt. pose proof Sm_upper. lra.
  Qed.
  Lemma Y_nonneg : 0 <= Y. Proof. apply sqrt_pos. Qed.
  Lemma V_sq : Vv * Vv = (LL + c + Sm) * (LL + c + Sm) + 3 * LL * LL + 6 * c * LL.
  Proof.
    unfold Vv. rewrite B_eq, k_eq.
    replace ((- (LL + c + Sm)) ^ 2 - - (3 * LL * LL + 6 * c * LL)) with ((LL + c + Sm) * (LL + c + Sm) + 3 * LL * LL + 6 * c * LL) by ring.
    apply sqrt_sqrt. pose proof c_pos. pose proof LL_nonneg. pose proof (Rle_0_sqr (LL + c + Sm)) as Q. unfold Rsqr in Q.
    assert (0 <= 3 * LL * LL) by (apply Rmult_le_pos; lra). assert (0 <= 6 * c * LL) by (apply Rmult_le_pos; lra). lra.
  Qed.
  Lemma V_nonneg : 0 <= Vv. Proof. apply sqrt_pos. Qed.

  Lemma resolvent : 4 * (Y * Y) * (Vv * Vv) = LL * ((m - n) * (m - n)).
  Proof.
    rewrite Y_sq, V_sq. pose proof Sm_cube as E.
    assert (MN : LL * ((m - n) * (m - n)) = LL * ((6 * c + 4 * LL) * (6 * c + 4 * LL)) - 4 * g).
    { unfold g, c, LL. field. }
    rewrite MN. replace (4 * g) with (2 * (Sm * Sm * Sm) - 4 * (c * c * c) - 6 * (c * c) * Sm) by lra. field.
  Qed.
  Lemma twoYV : sign (m - n) * (2 * Y * Vv) = l * (m - n).
  Proof.
    assert (E : 2 * Y * Vv = l * Rabs (m - n)).
    { apply Rsqr_inj.
      - apply Rmult_le_pos; [apply Rmult_le_pos; [lra | apply Y_nonneg] | apply V_nonneg].
      - apply Rmult_le_pos; auto. apply Rabs_pos.
      - unfold Rsqr. replace (2 * Y * Vv * (2 * Y * Vv)) with (4 * (Y * Y) * (Vv * Vv)) by ring. rewrite resolvent.
        replace (l * Rabs (m - n) * (l * Rabs (m - n))) with (LL * (Rabs (m - n) * Rabs (m - n))) by (unfold LL; ring).
        rewrite <- Rabs_mult, Rabs_pos_eq; auto. apply Rle_0_sqr. }
    rewrite E. replace (sign (m - n) * (l * Rabs (m - n))) with (l * (sign (m - n) * Rabs (m - n))) by ring. now rewrite sign_abs.
  Qed.
  Lemma V_big : 2 * LL < Vv /\ 0 < Vv.
  Proof.
    pose proof V_sq as E. pose proof V_nonneg as V0. pose proof c_pos as C. pose proof LL_nonneg as L0. pose proof Sm_pos as S0.
    assert (X : 2 * LL * (2 * LL) < Vv * Vv).
    { rewrite E. assert (LL * LL < (LL + c + Sm) * (LL + c + Sm)).
      { apply Rle_lt_trans with (LL * (LL + c + Sm)); [apply Rmult_le_compat_l; lra | apply Rmult_lt_compat_r; lra]. }
      assert (0 <= c * LL) by (apply Rmult_le_pos; lra). lra. }
    assert (2 * LL < Vv).
    { apply Rsqr_incrst_0; [unfold Rsqr; lra | lra | auto]. }
    split; lra.
  Qed.

  Lemma sgnY : sign (m - n) * sign (m - n) * (Y * Y) = Y * Y.
  Proof.
    destruct (Req_dec (m - n) 0) as [Z|Z].
    - pose proof resolvent as E. rewrite Z in E. pose proof V_big as [_ V0].
      assert (Y * Y = 0).
      { apply Rmult_eq_reg_r with (4 * (Vv * Vv)); [|pose proof (Rmult_lt_0_compat _ _ V0 V0); lra]. lra. }
      rewrite H. ring.
    - rewrite sign_sq; auto. ring.
  Qed.
  Lemma t_quad : t * t + 2 * sign (m - n) * Y * t + B - Vv = 0.
  Proof.
    unfold t. fold Vv Y. pose proof sgnY as G. pose proof Y_sq as Ys.
    assert (X : 0 <= Vv - (B + i) / 2).
    { rewrite B_eq, i_eq. pose proof V_nonneg. pose proof c_pos. pose proof LL_nonneg. pose proof Sm_pos. lra. }
    pose proof (sqrt_sqrt _ X) as R1. set (r := sqrt (Vv - (B + i) / 2)) in *.
    set (s := sign (m - n)) in *.
    replace ((r - s * Y) * (r - s * Y) + 2 * s * Y * (r - s * Y) + B - Vv) with (r * r - s * s * (Y * Y) + B - Vv) by ring.
    rewrite G, R1, Ys, B_eq, i_eq. field.
  Qed.
  Lemma t_root : m * ((t - l) * (t - l)) + n * ((t + l) * (t + l)) = (t * t - LL) * (t * t - LL).
  Proof.
    pose proof t_quad as Qd. pose proof twoYV as TV. pose proof sgnY as G. pose proof V_sq as Vs. pose proof Y_sq as Ys.
    set (s := sign (m - n)) in *.
    assert (E : t * t + B = Vv - 2 * s * Y * t) by lra.
    assert (E2 : (t * t + B) * (t * t + B) = Vv * Vv - 2 * (s * (2 * Y * Vv)) * t + 4 * (s * s * (Y * Y)) * (t * t)).
    { rewrite E. ring. }
    rewrite TV, G, Vs, Ys, B_eq in E2.
    assert (Hs : m + n = 6 * c + 4 * LL) by (unfold c, LL; field).
    assert (Hl2 : l * l = LL) by (unfold LL; ring).
    replace (m * ((t - l) * (t - l)) + n * ((t + l) * (t + l))) with ((m + n) * (t * t + l * l) - 2 * (l * (m - n)) * t) by ring.
    rewrite Hs, Hl2. lra.
  Qed.
  Lemma t_above : l < t.
  Proof.
    pose proof t_quad as Qd. pose proof V_big as [V2 V0]. pose proof c_pos as C. pose proof LL_nonneg as L0. pose proof Sm_pos as S0.
    pose proof (sign_bound (m - n)) as Sb. pose proof Y_nonneg as Y0.
    assert (Yl : Y <= l).
    { apply Rsqr_incr_0_var; auto. unfold Rsqr. rewrite Y_sq. replace (l * l) with LL by (unfold LL; ring).
      pose proof Sm_lower. lra. }
    assert (Tp : 0 < t).
    { unfold t. fold Vv Y.
      assert (X : Y * Y < Vv - (B + i) / 2).
      { rewrite B_eq, i_eq, Y_sq. lra. }
      assert (Y < sqrt (Vv - (B + i) / 2)).
      { rewrite <- (sqrt_square Y) by auto. apply sqrt_lt_1_alt. split; [apply Rle_0_sqr | auto]. }
      assert (sign (m - n) * Y <= 1 * Y) by (apply Rmult_le_compat_r; lra). lra. }
    destruct (Rlt_dec l t) as [|X]; auto. exfalso. apply Rnot_lt_le in X.
    assert (t * t <= l * l) by (apply Rmult_le_compat; lra).
    assert (sign (m - n) * Y * t <= 1 * Y * t).
    { apply Rmult_le_compat_r; [lra|]. apply Rmult_le_compat_r; lra. }
    assert (Y * t <= l * l) by (apply Rmult_le_compat; lra).
    assert (l * l = LL) by (unfold LL; ring).
    pose proof B_eq. lra.
  Qed.
End Quartic.

(** ** The closed form is exact.  Points away from the axis and outside a small
    neighbourhood of the centre (about 43 km for the Earth). *)
Lemma sphere_foot e phi wi zi : valid e -> - (PI / 2) < phi < PI / 2 -> 0 < wi ->
  (wi / ax e) ^ 2 + (zi / b_axis e) ^ 2 = 1 ->
  atan2 zi ((1 - esq e) * wi) = phi ->
  wi = prime_vertical e phi * cos phi /\ zi = prime_vertical e phi * (1 - esq e) * sin phi.
Proof.
  intros V Hphi Hw He Hp. pose proof (esq_range e V) as E1. assert (Ha : 0 < ax e) by (destruct V; lra). pose proof (b_pos e V) as Hb.
  pose proof (atan2_cos zi ((1 - esq e) * wi)) as C. pose proof (atan2_sin zi ((1 - esq e) * wi)) as D. rewrite Hp in C, D.
  set (r := sqrt ((1 - esq e) * wi * ((1 - esq e) * wi) + zi * zi)) in *.
  assert (Hr : 0 <= r) by apply sqrt_pos.
  assert (Wi : wi = r * cos phi / (1 - esq e)) by (rewrite C; field; lra).
  pose proof (pw_pos e phi V) as W. pose proof (pw_sq e phi V) as W2. rewrite (pv_eq e phi V).
  assert (R1 : r * pw e phi = (1 - esq e) * ax e).
  { apply Rsqr_inj.
    - apply Rmult_le_pos; lra.
    - apply Rmult_le_pos; lra.
    - unfold Rsqr. replace (r * pw e phi * (r * pw e phi)) with (r * r * (pw e phi * pw e phi)) by ring. rewrite W2.
      replace (1 - esq e * (sin phi * sin phi)) with (cos phi * cos phi + (1 - esq e) * (sin phi * sin phi)) by (rewrite sq_cos; ring).
      replace (r * r * (cos phi * cos phi + (1 - esq e) * (sin phi * sin phi)))
        with (r * cos phi * (r * cos phi) + (1 - esq e) * (r * sin phi * (r * sin phi))) by ring.
      rewrite C, D. transitivity ((1 - esq e) * ax e * ((1 - esq e) * ax e) * ((wi / ax e) ^ 2 + (zi / b_axis e) ^ 2)); [|rewrite He; ring].
      replace ((zi / b_axis e) ^ 2) with (zi * zi / (b_axis e * b_axis e)) by (field; lra). rewrite b_sq. field. lra. }
  assert (Rr : r = (1 - esq e) * ax e / pw e phi) by (rewrite <- R1; field; lra).
  split.
  - rewrite Wi, Rr. field. lra.
  - rewrite <- D, Rr. field. lra.
Qed.

Lemma atan2_pos_range y x : 0 < x -> - (PI / 2) < atan2 y x < PI / 2.
Proof. intros H. unfold atan2. destruct (Rlt_dec 0 x); [|lra]. pose proof (atan_bound (y / x)). lra. Qed.

Lemma zhu_general_spec e w z : valid e -> 0 < w ->
  esq e ^ 2 < (w / ax e) ^ 2 + (1 - esq e) * (z / ax e) ^ 2 ->
  let '(lat, h) := zhu_general e w z in
  -90 < lat < 90 /\ (prime_vertical e (rad lat) + h) * cos (rad lat) = w
  /\ (prime_vertical e (rad lat) * (1 - esq e) + h) * sin (rad lat) = z
  /\ 0 < prime_vertical e (rad lat) * (1 - esq e) + h.
Proof.
  intros V Hw Hfar. unfold zhu_general. rewrite (e12_eq e V).
  pose proof (esq_range e V) as E1. assert (Ha : 0 < ax e) by (destruct V; lra). pose proof (b_pos e V) as Hb.
  set (l := esq e / 2). set (m := (w / ax e) ^ 2). set (n := ((1 - esq e) * z / b_axis e) ^ 2).
  assert (Nn : n = (1 - esq e) * (z / ax e) ^ 2).
  { unfold n. replace (((1 - esq e) * z / b_axis e) ^ 2) with ((1 - esq e) * (1 - esq e) * (z * z) / (b_axis e * b_axis e)) by (field; lra).
    rewrite b_sq. field. lra. }
  assert (Hl : 0 <= l) by (unfold l; lra).
  assert (Hm : 0 < m) by (unfold m; apply pow_lt; now apply Rdiv_lt_0_compat).
  assert (Hn : 0 <= n) by apply pow2_ge_0.
  assert (Hf : 4 * l ^ 2 < m + n) by (rewrite Nn; unfold m, l; replace (4 * (esq e / 2) ^ 2) with (esq e ^ 2) by field; auto).
  assert (Tt : zhu_t e w z = sqrt (sqrt ((- (2 * l ^ 2 + m + n) / 2 / 3
       - cbrt (1 / 216 * (m + n - 4 * l ^ 2) ^ 3 + m * n * l ^ 2 + sqrt ((2 * (1 / 216 * (m + n - 4 * l ^ 2) ^ 3 + m * n * l ^ 2) - m * n * l ^ 2) * m * n * l ^ 2))
       - cbrt (1 / 216 * (m + n - 4 * l ^ 2) ^ 3 + m * n * l ^ 2 - sqrt ((2 * (1 / 216 * (m + n - 4 * l ^ 2) ^ 3 + m * n * l ^ 2) - m * n * l ^ 2) * m * n * l ^ 2))) ^ 2
       - (l ^ 2 - m - n) * l ^ 2)
     - (- (2 * l ^ 2 + m + n) / 2 / 3
       - cbrt (1 / 216 * (m + n - 4 * l ^ 2) ^ 3 + m * n * l ^ 2 + sqrt ((2 * (1 / 216 * (m + n - 4 * l ^ 2) ^ 3 + m * n * l ^ 2) - m * n * l ^ 2) * m * n * l ^ 2))
       - cbrt (1 / 216 * (m + n - 4 * l ^ 2) ^ 3 + m * n * l ^ 2 - sqrt ((2 * (1 / 216 * (m + n - 4 * l ^ 2) ^ 3 + m * n * l ^ 2) - m * n * l ^ 2) * m * n * l ^ 2)) + - (2 * l ^ 2 + m + n) / 2) / 2)
     - sign (m - n) * sqrt ((- (2 * l ^ 2 + m + n) / 2 / 3
       - cbrt (1 / 216 * (m + n - 4 * l ^ 2) ^ 3 + m * n * l ^ 2 + sqrt ((2 * (1 / 216 * (m + n - 4 * l ^ 2) ^ 3 + m * n * l ^ 2) - m * n * l ^ 2) * m * n * l ^ 2))
       - cbrt (1 / 216 * (m + n - 4 * l ^ 2) ^ 3 + m * n * l ^ 2 - sqrt ((2 * (1 / 216 * (m + n - 4 * l ^ 2) ^ 3 + m * n * l ^ 2) - m * n * l ^ 2) * m * n * l ^ 2)) - - (2 * l ^ 2 + m + n) / 2) / 2)).
  { unfold zhu_t. rewrite (e12_eq e V). reflexivity. }
  pose proof (t_root l m n Hl Hm Hn Hf) as Rt. pose proof (t_above l m n Hl Hm Hn Hf) as Ab. cbv zeta in Rt, Ab.
  rewrite <- Tt in Rt, Ab. clear Tt. set (t := zhu_t e w z) in *.
  assert (Htl : 0 < t - l) by lra. assert (Htp : 0 < t + l) by lra.
  set (wi := w / (t + l)). set (zi := (1 - esq e) * z / (t - l)).
  assert (Hwi : 0 < wi) by (unfold wi; now apply Rdiv_lt_0_compat).
  assert (On : (wi / ax e) ^ 2 + (zi / b_axis e) ^ 2 = 1).
  { apply Rmult_eq_reg_r with ((t - l) * (t - l) * ((t + l) * (t + l))).
    - replace (((wi / ax e) ^ 2 + (zi / b_axis e) ^ 2) * ((t - l) * (t - l) * ((t + l) * (t + l))))
        with (m * ((t - l) * (t - l)) + n * ((t + l) * (t + l))) by (unfold wi, zi, m, n; field; lra).
      rewrite Rt. ring.
    - apply Rgt_not_eq. repeat apply Rmult_lt_0_compat; auto. }
  set (phi := atan2 zi ((1 - esq e) * wi)).
  assert (Hphi : - (PI / 2) < phi < PI / 2) by (apply atan2_pos_range, Rmult_lt_0_compat; lra).
  destruct (sphere_foot e phi wi zi V Hphi Hwi On eq_refl) as [Fw Fz].
  assert (Rd : rad (phi / dtr) = phi) by (unfold rad, dtr; field; apply PI_neq0').
  rewrite Rd. set (N := prime_vertical e phi) in *. pose proof (pv_pos e phi V) as HN. fold N in HN.
  set (h := sign (t - 1 + l) * sqrt ((w - wi) ^ 2 + (z - zi) ^ 2)).
  assert (Hc : 0 < cos phi) by (apply cos_gt_0; lra).
  assert (Dw : w - wi = N * (t + l - 1) * cos phi).
  { replace w with (wi * (t + l)) by (unfold wi; field; lra). rewrite Fw. ring. }
  assert (Dz : z - zi = N * (t + l - 1) * sin phi).
  { replace z with (zi * (t - l) / (1 - esq e)) by (unfold zi; field; lra). rewrite Fz. unfold l. field. lra. }
  assert (Hh : h = N * (t + l - 1)).
  { unfold h. rewrite Dw, Dz.
    replace ((N * (t + l - 1) * cos phi) ^ 2 + (N * (t + l - 1) * sin phi) ^ 2) with ((N * (t + l - 1)) * (N * (t + l - 1)) * (sin phi * sin phi + cos phi * cos phi)) by ring.
    rewrite sin2_cos2', Rmult_1_r.
    replace (sqrt (N * (t + l - 1) * (N * (t + l - 1)))) with (Rabs (N * (t + l - 1))).
    - rewrite Rabs_mult, (Rabs_pos_eq N) by lra. replace (t - 1 + l) with (t + l - 1) by ring.
      replace (sign (t + l - 1) * (N * Rabs (t + l - 1))) with (N * (sign (t + l - 1) * Rabs (t + l - 1))) by ring.
      now rewrite sign_abs.
    - symmetry. apply sqrt_Rsqr_abs. }
  repeat split.
  - assert (-90 < phi / dtr).
    { apply Rmult_lt_reg_r with dtr; [apply dtr_pos|]. unfold Rdiv. rewrite Rmult_assoc, Rinv_l by (pose proof dtr_pos; lra). unfold dtr. lra. }
    lra.
  - apply Rmult_lt_reg_r with dtr; [apply dtr_pos|]. unfold Rdiv. rewrite Rmult_assoc, Rinv_l by (pose proof dtr_pos; lra). unfold dtr. lra.
  - rewrite Hh. rewrite <- (Rplus_0_r w). replace w with (wi + (w - wi)) by ring. rewrite Dw, Fw. ring.
  - rewrite Hh. replace z with (zi + (z - zi)) by ring. rewrite Dz, Fz. ring.
  - rewrite Hh. replace (N * (1 - esq e) + N * (t + l - 1)) with (N * (t - l)) by (unfold l; field). now apply Rmult_lt_0_compat.
Qed.

Lemma not_polar v : (exists x, x = v) -> 0 < radius v -> req (radius v) 0 = false.
Proof. intros _ H. unfold req. destruct (Req_EM_T (radius v) 0); [lra | reflexivity]. Qed.

(** ** C19 *)
(** On arrays without a point on the axis every point is converted exactly,
    independently of the others. *)
Theorem C19_closed_form_exact_partial e vs : valid e ->
  (forall v, In v vs -> 0 < sqrt (vx v ^ 2 + vy v ^ 2)
     /\ (2 * fl e - fl e ^ 2) ^ 2 < (sqrt (vx v ^ 2 + vy v ^ 2) / ax e) ^ 2 + (1 - (2 * fl e - fl e ^ 2)) * (vz v / ax e) ^ 2) ->
  map (fun q => let '(lon, lat, h) := q in to_cartesian e lon lat h) (zhu e vs) = vs
  /\ zhu e vs = concat (map (fun v => zhu e [v]) vs).
Proof.
  intros V H.
  assert (NP : forall v, In v vs -> req (radius v) 0 = false).
  { intros v Hv. apply not_polar; [eexists; eauto|]. apply H; auto. }
  assert (Any : existsb (fun v => req (radius v) 0) vs = false).
  { destruct (existsb (fun v => req (radius v) 0) vs) eqn:B; auto. apply existsb_exists in B. destruct B as (v & Hv & B).
    rewrite (NP v Hv) in B. discriminate. }
  split.
  - unfold zhu. rewrite Any. rewrite map_map. rewrite <- (map_id vs) at 2. apply map_ext_in. intros v Hv.
    destruct (H v Hv) as [Hw Hf]. pose proof (zhu_general_spec e (radius v) (vz v) V Hw Hf) as S1.
    destruct (zhu_general e (radius v) (vz v)) as [lat h]. destruct S1 as (_ & Ew & Ez & _).
    assert (R2 : rad (longitude v) = atan2 (vy v) (vx v)) by (unfold longitude, rad, dtr; field; apply PI_neq0').
    assert (Q : radius v = sqrt (vx v * vx v + vy v * vy v)) by (unfold radius; f_equal; ring).
    apply vec_ext.
    + rewrite (cart_x _ _ _ _ V), R2, Ew, Q. apply atan2_cos.
    + rewrite (cart_y _ _ _ _ V), R2, Ew, Q. apply atan2_sin.
    + rewrite (cart_z _ _ _ _ V). exact Ez.
  - unfold zhu at 1. rewrite Any. clear Any H.
    induction vs as [|v vs IH]; cbn [map concat]; auto.
    rewrite <- IH by (intros; apply NP; now right).
    unfold zhu. cbn [existsb map app]. rewrite (NP v (or_introl eq_refl)). cbn [orb]. reflexivity.
Qed.
Print Assumptions C19_closed_form_exact_partial.

(** On arrays of points all on the axis (and not at the centre) likewise. *)
Theorem C19_polar_partial e vs : valid e ->
  (forall v, In v vs -> sqrt (vx v ^ 2 + vy v ^ 2) = 0 /\ vz v <> 0) ->
  map (fun q => let '(lon, lat, h) := q in to_cartesian e lon lat h) (zhu e vs) = vs
  /\ zhu e vs = concat (map (fun v => zhu e [v]) vs).
Proof.
  intros V H.
  assert (NP : forall v, In v vs -> req (radius v) 0 = true).
  { intros v Hv. unfold req. destruct (Req_EM_T (radius v) 0); auto. exfalso. apply n. apply H; auto. }
  assert (E : zhu e vs = map (fun v => (longitude v, 90 * sign (vz v), sign (vz v) * vz v - b_axis e)) vs).
  { destruct vs as [|v0 vs0]; [reflexivity|]. unfold zhu.
    assert (Any : existsb (fun v => req (radius v) 0) (v0 :: vs0) = true) by (cbn; rewrite (NP v0 (or_introl eq_refl)); reflexivity).
    rewrite Any. apply map_ext_in. intros v Hv. rewrite (NP v Hv). reflexivity. }
  split.
  - rewrite E, map_map. rewrite <- (map_id vs) at 2. apply map_ext_in. intros v Hv. destruct (H v Hv) as [Hw Hz].
    assert (Xy : vx v = 0 /\ vy v = 0).
    { pose proof (pow2_ge_0 (vx v)). pose proof (pow2_ge_0 (vy v)).
      apply sqrt_eq_0 in Hw; [|lra]. split.
      - destruct (Req_dec (vx v) 0) as [|n]; auto. pose proof (pow2_pos _ n). lra.
      - destruct (Req_dec (vy v) 0) as [|n]; auto. pose proof (pow2_pos _ n). lra. }
    assert (C0 : cos (rad (90 * sign (vz v))) = 0 /\ sin (rad (90 * sign (vz v))) = sign (vz v)).
    { unfold sign. destruct (Rlt_dec (vz v) 0).
      - replace (rad (90 * -1)) with (- (PI / 2)) by (unfold rad; field). now rewrite cos_neg, sin_neg, cos_PI2, sin_PI2.
      - destruct (Rlt_dec 0 (vz v)); [|lra].
        replace (rad (90 * 1)) with (PI / 2) by (unfold rad; field). now rewrite cos_PI2, sin_PI2. }
    destruct C0 as [C0 S0].
    apply vec_ext.
    + rewrite (cart_x _ _ _ _ V), C0. destruct Xy as [-> _]. ring.
    + rewrite (cart_y _ _ _ _ V), C0. destruct Xy as [_ ->]. ring.
    + rewrite (cart_z _ _ _ _ V). rewrite (pv_eq e _ V). unfold pw. rewrite S0.
      rewrite (sign_sq _ Hz), Rmult_1_r, one_esq, sqrt_square by (destruct V; lra).
      unfold b_axis. replace ((ax e / (1 - fl e) * ((1 - fl e) * (1 - fl e)) + (sign (vz v) * vz v - (1 - fl e) * ax e)) * sign (vz v))
        with (sign (vz v) * sign (vz v) * vz v) by (field; destruct V; lra).
      rewrite sign_sq; auto. ring.
  - rewrite E. clear E. induction vs as [|v vs IH]; cbn [map concat]; auto.
    rewrite IH; [|intros; apply H; now right | intros; apply NP; now right].
    unfold zhu at 2. cbn [existsb map app]. rewrite (NP v (or_introl eq_refl)). reflexivity.
Qed.
Print Assumptions C19_polar_partial.

(** But one point on the axis spoils every other point of the array: a point of the
    equator at height h comes back with height 0 when a pole is in the same array. *)
Theorem C19_batch_refuted e : valid e ->
  exists pole point, let alone := nth 0 (zhu e [point]) (0, 0, 0) in let together := nth 0 (zhu e [point; pole]) (0, 0, 0) in
  alone <> together
  /\ (let '(lon, lat, h) := alone in to_cartesian e lon lat h = point)
  /\ (let '(lon, lat, h) := together in to_cartesian e lon lat h <> point).
Proof.
  intros V. exists (Vec 0 0 1), (Vec (2 * ax e) 0 0).
  assert (Ha : 0 < ax e) by (destruct V; lra).
  assert (Rp : sqrt (vx (Vec (2 * ax e) 0 0) ^ 2 + vy (Vec (2 * ax e) 0 0) ^ 2) = 2 * ax e).
  { cbn [vx vy]. replace ((2 * ax e) ^ 2 + 0 ^ 2) with ((2 * ax e) * (2 * ax e)) by ring. apply sqrt_square. lra. }
  pose proof (C19_closed_form_exact_partial e [Vec (2 * ax e) 0 0] V) as [E1 _].
  { intros v [<-|[]]. rewrite Rp. split; [lra|]. cbn [vz].
    pose proof (esq_range e V) as He. unfold esq in He.
    replace ((2 * ax e / ax e) ^ 2 + (1 - (2 * fl e - fl e ^ 2)) * (0 / ax e) ^ 2) with 4 by (field; lra).
    replace ((2 * fl e - fl e ^ 2) ^ 2) with ((2 * fl e - fl e ^ 2) * (2 * fl e - fl e ^ 2)) by ring.
    assert ((2 * fl e - fl e ^ 2) * (2 * fl e - fl e ^ 2) <= 1 * 1) by (apply Rmult_le_compat; lra). lra. }
  assert (Tg : nth 0 (zhu e [Vec (2 * ax e) 0 0; Vec 0 0 1]) (0, 0, 0) = (longitude (Vec (2 * ax e) 0 0), 0, 0)).
  { unfold zhu. cbn [existsb map nth].
    assert (R0 : radius (Vec 0 0 1) = 0) by (unfold radius; cbn [vx vy]; replace (0 ^ 2 + 0 ^ 2) with 0 by ring; apply sqrt_0).
    assert (R1 : radius (Vec (2 * ax e) 0 0) = 2 * ax e) by exact Rp. rewrite R1, R0.
    unfold req. destruct (Req_EM_T (2 * ax e) 0); [lra|]. destruct (Req_EM_T 0 0); [|lra]. reflexivity. }
  assert (Bad : to_cartesian e (longitude (Vec (2 * ax e) 0 0)) 0 0 <> Vec (2 * ax e) 0 0).
  { intros X. apply (f_equal vx) in X. rewrite (cart_x _ _ _ _ V) in X. cbn [vx] in X.
    rewrite (pv_eq _ _ V) in X. unfold pw, rad in X. rewrite !Rmult_0_l, sin_0, cos_0, Rmult_0_r, Rmult_0_r, Rminus_0_r, sqrt_1 in X.
    pose proof (COS_bound (longitude (Vec (2 * ax e) 0 0) * (PI / 180))) as [_ C].
    assert (ax e * cos (longitude (Vec (2 * ax e) 0 0) * (PI / 180)) <= ax e * 1) by (apply Rmult_le_compat_l; lra). lra. }
  cbv zeta. rewrite Tg.
  destruct (zhu e [Vec (2 * ax e) 0 0]) as [|[[lon lat] h] tl] eqn:Z; [discriminate E1|].
  apply (f_equal (fun l => nth 0 l zero3)) in E1. cbn [map nth] in E1. cbn [nth]. repeat split; auto.
  intros X. apply Bad. inversion X; subst. exact E1.
Qed.
Print Assumptions C19_batch_refuted.

(** ** Geodetic coordinates are unique *)
Lemma lat_unique e lat1 h1 lat2 h2 : valid e -> -90 < lat1 < 90 -> -90 < lat2 < 90 ->
  let N1 := prime_vertical e (rad lat1) in let N2 := prime_vertical e (rad lat2) in
  0 < N1 * (1 - esq e) + h1 -> 0 < N2 * (1 - esq e) + h2 ->
  (N1 + h1) * cos (rad lat1) = (N2 + h2) * cos (rad lat2) ->
  (N1 * (1 - esq e) + h1) * sin (rad lat1) = (N2 * (1 - esq e) + h2) * sin (rad lat2) ->
  lat1 = lat2 /\ h1 = h2.
Proof.
  intros V L1 L2 N1 N2 H1 H2 Ep Ez.
  pose proof (cos_lat_pos _ L1) as C1. pose proof (cos_lat_pos _ L2) as C2. pose proof (esq_range e V) as He.
  pose proof (above_centre e (rad lat1) h1 V H1) as P1. pose proof (above_centre e (rad lat2) h2 V H2) as P2. fold N1 in P1. fold N2 in P2.
  set (p := (N1 + h1) * cos (rad lat1)) in *. set (z := (N1 * (1 - esq e) + h1) * sin (rad lat1)) in *.
  assert (Hp : 0 < p) by (unfold p; now apply Rmult_lt_0_compat).
  (* each scaled tangent k satisfies 1/k = 1 - e^2 a / sqrt(p^2 + (1-e^2) z^2 k^2) *)
  assert (K : forall lat h, -90 < lat < 90 -> 0 < prime_vertical e (rad lat) * (1 - esq e) + h ->
     (prime_vertical e (rad lat) + h) * cos (rad lat) = p -> (prime_vertical e (rad lat) * (1 - esq e) + h) * sin (rad lat) = z ->
     exists k, 0 < k /\ tan (rad lat) = k * z / p /\ / k = 1 - esq e * ax e / sqrt (p * p + (1 - esq e) * (z * z) * (k * k))).
  { intros lat h Hl Hh Xp Xz. pose proof (above_centre e (rad lat) h V Hh) as Pc. pose proof (cos_lat_pos _ Hl) as C.
    set (N := prime_vertical e (rad lat)) in *. exists ((N + h) / (N * (1 - esq e) + h)). split; [now apply Rdiv_lt_0_compat|]. split.
    - rewrite <- Xz, <- Xp. unfold tan. field. repeat split; lra.
    - pose proof (pw_pos e (rad lat) V) as W. pose proof (pw_sq e (rad lat) V) as W2.
      assert (S1 : sqrt (p * p + (1 - esq e) * (z * z) * ((N + h) / (N * (1 - esq e) + h) * ((N + h) / (N * (1 - esq e) + h)))) = (N + h) * pw e (rad lat)).
      { apply sqrt_lem_1.
        - pose proof (Rle_0_sqr p). pose proof (Rle_0_sqr z). unfold Rsqr in *.
          assert (0 <= (1 - esq e) * (z * z) * ((N + h) / (N * (1 - esq e) + h) * ((N + h) / (N * (1 - esq e) + h)))).
          { apply Rmult_le_pos; [apply Rmult_le_pos; lra | apply Rle_0_sqr]. }
          lra.
        - apply Rmult_le_pos; lra.
        - replace ((N + h) * pw e (rad lat) * ((N + h) * pw e (rad lat))) with ((N + h) * (N + h) * (pw e (rad lat) * pw e (rad lat))) by ring.
          rewrite W2, <- Xp, <- Xz.
          replace (1 - esq e * (sin (rad lat) * sin (rad lat))) with (cos (rad lat) * cos (rad lat) + (1 - esq e) * (sin (rad lat) * sin (rad lat))) by (rewrite sq_cos; ring).
          field. lra. }
      rewrite S1. assert (Na : ax e = N * pw e (rad lat)) by (unfold N; rewrite (pv_eq e _ V); field; lra).
      rewrite Na. field. repeat split; lra. }
  destruct (K lat1 h1 L1 H1 eq_refl eq_refl) as (k1 & K1 & T1 & F1).
  destruct (K lat2 h2 L2 H2 (eq_sym Ep) (eq_sym Ez)) as (k2 & K2 & T2 & F2).
  assert (Mono : forall k k', 0 < k -> 0 < k' -> / k = 1 - esq e * ax e / sqrt (p * p + (1 - esq e) * (z * z) * (k * k)) ->
     / k' = 1 - esq e * ax e / sqrt (p * p + (1 - esq e) * (z * z) * (k' * k')) -> ~ k < k').
  { intros k k' Hk Hk' F F' Lt. pose proof (Rinv_lt_contravar _ _ (Rmult_lt_0_compat _ _ Hk Hk') Lt) as I.
    assert (sqrt (p * p + (1 - esq e) * (z * z) * (k * k)) <= sqrt (p * p + (1 - esq e) * (z * z) * (k' * k'))).
    { apply sqrt_le_1_alt. assert (k * k <= k' * k') by (apply Rmult_le_compat; lra).
      assert (0 <= (1 - esq e) * (z * z)) by (apply Rmult_le_pos; [lra | apply Rle_0_sqr]).
      pose proof (Rmult_le_compat_l _ _ _ H0 H). lra. }
    assert (0 < sqrt (p * p + (1 - esq e) * (z * z) * (k * k))).
    { apply sqrt_lt_R0. assert (0 <= (1 - esq e) * (z * z) * (k * k)) by (apply Rmult_le_pos; [apply Rmult_le_pos; [lra | apply Rle_0_sqr] | apply Rle_0_sqr]).
      pose proof (Rmult_lt_0_compat _ _ Hp Hp). lra. }
    assert (0 <= esq e * ax e) by (destruct V; apply Rmult_le_pos; lra).
    assert (esq e * ax e / sqrt (p * p + (1 - esq e) * (z * z) * (k' * k')) <= esq e * ax e / sqrt (p * p + (1 - esq e) * (z * z) * (k * k))).
    { apply Rmult_le_compat_l; auto. apply Rinv_le_contravar; auto. }
    lra. }
  assert (Ek : k1 = k2).
  { pose proof (Mono k1 k2 K1 K2 F1 F2). pose proof (Mono k2 k1 K2 K1 F2 F1). lra. }
  assert (EL : lat1 = lat2).
  { subst k2. rewrite <- T2 in T1.
    assert (X : rad lat1 = rad lat2).
    { rewrite <- (atan_tan (rad lat1)) by now apply rad_sbound. rewrite T1. apply atan_tan. now apply rad_sbound. }
    rewrite <- (dtr_div lat1), X. apply dtr_div. }
  split; auto. subst lat2. unfold N1, N2, p in *. apply (Rmult_eq_reg_r (cos (rad lat1))) in Ep; [|lra]. unfold N1 in Ep. lra.
Qed.

(** Two sets of coordinates above the evolute for the same point are equal. *)
Theorem C18_unique e lon1 lat1 h1 lon2 lat2 h2 : valid e ->
  -90 < lat1 < 90 -> -90 < lat2 < 90 -> -180 < lon1 <= 180 -> -180 < lon2 <= 180 ->
  - (b_axis e ^ 2 / ax e) < h1 -> - (b_axis e ^ 2 / ax e) < h2 ->
  to_cartesian e lon1 lat1 h1 = to_cartesian e lon2 lat2 h2 -> lon1 = lon2 /\ lat1 = lat2 /\ h1 = h2.
Proof.
  intros V L1 L2 O1 O2 H1 H2 E.
  pose proof (longitude_cart e lon1 lat1 h1 V L1 (above_evolute' _ _ _ V H1) O1) as X1.
  pose proof (longitude_cart e lon2 lat2 h2 V L2 (above_evolute' _ _ _ V H2) O2) as X2.
  split; [congruence|].
  apply (lat_unique e); auto.
  - now apply above_evolute.
  - now apply above_evolute.
  - rewrite <- (radius_cart e lon1 lat1 h1 V L1 (above_evolute' _ _ _ V H1)), <- (radius_cart e lon2 lat2 h2 V L2 (above_evolute' _ _ _ V H2)).
    now rewrite E.
  - rewrite <- (cart_z e lon1 lat1 h1 V), <- (cart_z e lon2 lat2 h2 V). now rewrite E.
Qed.
Print Assumptions C18_unique.

(** The closed form inverts to_cartesian. *)
Theorem C18_closed_form_inverts e coords : valid e ->
  (forall lon lat h, In (lon, lat, h) coords -> -180 < lon <= 180 /\ -90 < lat < 90 /\ - (b_axis e ^ 2 / ax e) < h
     /\ (2 * fl e - fl e ^ 2) * ax e < (1 - fl e) * norm3 (to_cartesian e lon lat h)) ->
  zhu e (map (fun q => let '(lon, lat, h) := q in to_cartesian e lon lat h) coords) = coords.
Proof.
  intros V H.
  set (vs := map (fun q => let '(lon, lat, h) := q in to_cartesian e lon lat h) coords).
  assert (Rd : forall lon lat h, In (lon, lat, h) coords ->
     0 < radius (to_cartesian e lon lat h)
     /\ esq e ^ 2 < (radius (to_cartesian e lon lat h) / ax e) ^ 2 + (1 - esq e) * (vz (to_cartesian e lon lat h) / ax e) ^ 2).
  { intros lon lat h Hin. destruct (H _ _ _ Hin) as (O & L & Hh & Far).
    assert (Rp : 0 < radius (to_cartesian e lon lat h)).
    { unfold radius. rewrite (radius_cart e lon lat h V L (above_evolute' _ _ _ V Hh)).
      apply Rmult_lt_0_compat; [now apply above_evolute' | now apply cos_lat_pos]. }
    split; auto. set (v := to_cartesian e lon lat h) in *.
    assert (Ha : 0 < ax e) by (destruct V; lra). fold (esq e) in Far. pose proof (esq_range e V) as He.
    assert (Rs : radius v * radius v = vx v * vx v + vy v * vy v).
    { unfold radius. rewrite sqrt_sqrt; [ring|]. pose proof (pow2_ge_0 (vx v)). pose proof (pow2_ge_0 (vy v)). lra. }
    assert (Ns : norm3 v * norm3 v = vx v * vx v + vy v * vy v + vz v * vz v).
    { unfold norm3, dot3. apply sqrt_sqrt. pose proof (Rle_0_sqr (vx v)). pose proof (Rle_0_sqr (vy v)). pose proof (Rle_0_sqr (vz v)). unfold Rsqr in *. lra. }
    assert (N0 : 0 <= norm3 v) by apply sqrt_pos.
    assert (F2 : esq e * ax e * (esq e * ax e) < (1 - fl e) * norm3 v * ((1 - fl e) * norm3 v)).
    { assert (0 <= esq e * ax e) by (apply Rmult_le_pos; lra). apply Rmult_le_0_lt_compat; auto. }
    replace ((1 - fl e) * norm3 v * ((1 - fl e) * norm3 v)) with ((1 - esq e) * (norm3 v * norm3 v)) in F2 by (rewrite one_esq; ring).
    rewrite Ns in F2.
    apply Rmult_lt_reg_r with (ax e * ax e); [now apply Rmult_lt_0_compat|].
    replace (((radius v / ax e) ^ 2 + (1 - esq e) * (vz v / ax e) ^ 2) * (ax e * ax e)) with (radius v * radius v + (1 - esq e) * (vz v * vz v)) by (field; lra).
    rewrite Rs. pose proof (Rle_0_sqr (vx v)). pose proof (Rle_0_sqr (vy v)). unfold Rsqr in *.
    assert (0 <= esq e * (vx v * vx v + vy v * vy v)) by (apply Rmult_le_pos; lra).
    replace (esq e ^ 2 * (ax e * ax e)) with (esq e * ax e * (esq e * ax e)) by ring. lra. }
  assert (Any : existsb (fun v => req (radius v) 0) vs = false).
  { destruct (existsb (fun v => req (radius v) 0) vs) eqn:B; auto. apply existsb_exists in B. destruct B as (v & Hv & B).
    unfold vs in Hv. apply in_map_iff in Hv. destruct Hv as ([[lon lat] h] & <- & Hin). destruct (Rd _ _ _ Hin) as [R1 _].
    unfold req in B. destruct (Req_EM_T (radius (to_cartesian e lon lat h)) 0); [lra | discriminate]. }
  unfold zhu. rewrite Any. unfold vs. rewrite map_map. rewrite <- (map_id coords) at 2. apply map_ext_in.
  intros [[lon lat] h] Hin. destruct (H _ _ _ Hin) as (O & L & Hh & _). destruct (Rd _ _ _ Hin) as [R1 R2].
  pose proof (zhu_general_spec e _ _ V R1 R2) as Z. destruct (zhu_general e (radius (to_cartesian e lon lat h)) (vz (to_cartesian e lon lat h))) as [lat' h'].
  destruct Z as (L' & Zp & Zz & Zh).
  rewrite (longitude_cart e lon lat h V L (above_evolute' _ _ _ V Hh) O).
  destruct (lat_unique e lat' h' lat h V L' L Zh (above_evolute _ _ _ V Hh)) as [-> ->]; auto.
  - rewrite Zp. unfold radius. now apply radius_cart; auto; apply above_evolute'.
  - rewrite Zz. now apply cart_z.
Qed.
Print Assumptions C18_closed_form_inverts.

(** A WGS84 point at 45 degrees meets the hypotheses. *)
Lemma pv_ge e t : valid e -> ax e <= prime_vertical e t.
Proof.
  intros V. rewrite (pv_eq e t V). pose proof (pw_pos e t V) as P. pose proof (pw_sq e t V) as Q.
  assert (pw e t <= 1).
  { pose proof (esq_range e V). pose proof (Rle_0_sqr (sin t)) as Y. unfold Rsqr in Y.
    apply Rsqr_incr_0; try lra. unfold Rsqr. 
    assert (0 <= esq e * (sin t * sin t)) by (apply Rmult_le_pos; lra). lra. }
  apply Rmult_le_reg_r with (pw e t); auto. unfold Rdiv. rewrite Rmult_assoc, Rinv_l by lra.
  rewrite <- (Rmult_1_r (ax e)) at 2. rewrite (Rmult_comm (ax e) 1), Rmult_1_l, Rmult_1_r. destruct V. 
  rewrite <- (Rmult_1_r (ax e)) at 2. apply Rmult_le_compat_l; lra.
Qed.
Example C18_closed_form_case :
  let e := Ell 6378137 (1 / 298.257223563) in
  zhu e [to_cartesian e 0 45 100] = [(0, 45, 100)].
Proof.
  intros e. assert (V : valid e) by (unfold valid, e; cbn [ax fl]; lra).
  apply (C18_closed_form_inverts e [(0, 45, 100)] V).
  intros lon lat h [[= <- <- <-]|[]]. repeat split; try lra.
  - unfold b_axis, e; cbn [ax fl]. lra.
  - assert (L : 0.7 * 6378137 <= norm3 (to_cartesian e 0 45 100)).
    { unfold norm3. rewrite <- (sqrt_square (0.7 * 6378137)) by lra. apply sqrt_le_1_alt. unfold dot3.
      set (v := to_cartesian e 0 45 100). assert (X : 0.7 * 6378137 <= vx v).
      { unfold v. rewrite (cart_x _ _ _ _ V). replace (rad 0) with 0 by (unfold rad; ring). replace (rad 45) with (PI / 4) by (unfold rad; field).
        rewrite cos_0, cos_PI4. pose proof (pv_ge e (PI / 4) V) as P. change (ax e) with 6378137 in P.
        assert (S2 : sqrt 2 <= 10 / 7) by (rewrite <- (sqrt_square (10/7)) by lra; apply sqrt_le_1_alt; lra).
        assert (0 < sqrt 2) by (apply sqrt_lt_R0; lra).
        assert (0.7 <= 1 / sqrt 2).
        { apply Rmult_le_reg_r with (sqrt 2); auto. unfold Rdiv. rewrite Rmult_1_l, Rinv_l by lra. lra. }
        assert (0.7 * 6378137 <= 1 / sqrt 2 * (prime_vertical e (PI / 4) + 100)) by (apply Rmult_le_compat; lra). lra. }
      pose proof (Rle_0_sqr (vy v)) as Y. pose proof (Rle_0_sqr (vz v)) as Z. unfold Rsqr in Y, Z.
      assert (0.7 * 6378137 * (0.7 * 6378137) <= vx v * vx v) by (apply Rmult_le_compat; lra). lra. }
    unfold e in *; cbn [ax fl]. lra.
Qed.
Example C19_batch_case : valid (Ell 6378137 (1 / 298.257223563)).
Proof. unfold valid; cbn [ax fl]; lra. Qed.
