(** C25: normal gravity at a latitude, against Somigliana's formula (crs.py:551-560). *)
From Coq Require Import Reals Lra Lia String List ZArith QArith Qreals Qabs Qpower.
From Verif Require Import PyBase RBase DatumModel DatumProps GravitySpec GravityProps.
Import ListNotations.
Open Scope nat_scope.
Open Scope R_scope.

(** ** Polynomials in f, m and s that vanish to third order in f and m *)
Definition term : Type := (Q * (nat * nat * nat))%type.
Definition ev (f m s : R) (t : term) : R := let '(c, (i, j, k)) := t in Q2R c * (f ^ i * m ^ j * s ^ k).
Definition eval (f m s : R) (p : list term) : R := fold_right (fun t acc => ev f m s t + acc) 0 p.
Definition bound1 (t : term) : Q := let '(c, (i, j, k)) := t in (Qabs c * Qpower (1 # 100) (Z.of_nat (i + j - 3)))%Q.
Definition bound (p : list term) : Q := fold_right (fun t acc => (bound1 t + acc)%Q) 0%Q p.
Definition cubic (t : term) : bool := let '(_, (i, j, _)) := t in (3 <=? i + j)%nat.

Lemma Q2R_abs c : Q2R (Qabs c) = Rabs (Q2R c).
Proof.
  destruct c as [n d]. unfold Qabs, Q2R. cbn [Qnum Qden]. unfold Rdiv. rewrite Rabs_mult, (Rabs_right (/ IZR (Zpos d))), Rabs_Zabs; [reflexivity|].
  left. apply Rinv_0_lt_compat. now apply IZR_lt.
Qed.
Lemma Q2R_pow c n : Q2R (Qpower c (Z.of_nat n)) = Q2R c ^ n.
Proof.
  induction n as [|n IH]; [cbn; unfold Q2R; cbn; lra|].
  rewrite Nat2Z.inj_succ, <- Z.add_1_r. rewrite (Qeq_eqR _ (Qpower c (Z.of_nat n) * c)).
  - rewrite Q2R_mult, IH. cbn [pow]. ring.
  - destruct n; [cbn; ring|]. rewrite Qpower_plus'; [reflexivity|lia].
Qed.
Lemma ev_bound f m s t : 0 <= f -> 0 <= m -> f + m <= 1 / 100 -> 0 <= s <= 1 -> cubic t = true ->
  Rabs (ev f m s t) <= Q2R (bound1 t) * (f + m) ^ 3.
Proof.
  intros Hf Hm Ht Hs. destruct t as [c [[i j] k]]. cbn [cubic ev bound1]. intros C%Nat.leb_le.
  rewrite Q2R_mult, Q2R_abs, Q2R_pow, Rabs_mult, (Rmult_assoc (Rabs (Q2R c))). apply Rmult_le_compat_l; [apply Rabs_pos|].
  assert (F : 0 <= f ^ i <= (f + m) ^ i) by (split; [apply pow_le; lra|apply pow_incr; lra]).
  assert (G : 0 <= m ^ j <= (f + m) ^ j) by (split; [apply pow_le; lra|apply pow_incr; lra]).
  assert (K : 0 <= s ^ k <= 1) by (split; [apply pow_le; lra|rewrite <- (pow1 k); apply pow_incr; lra]).
  assert (FG : 0 <= f ^ i * m ^ j <= (f + m) ^ (i + j)) by (rewrite pow_add; split; [apply Rmult_le_pos; lra|apply Rmult_le_compat; lra]).
  rewrite Rabs_right by (apply Rle_ge; apply Rmult_le_pos; lra).
  apply Rle_trans with ((f + m) ^ (i + j)).
  - rewrite <- (Rmult_1_r ((f + m) ^ (i + j))). apply Rmult_le_compat; lra.
  - replace (i + j)%nat with ((i + j - 3) + 3)%nat at 1 by lia. rewrite pow_add. apply Rmult_le_compat_r; [apply pow_le; lra|].
    apply pow_incr. split; [lra|]. unfold Q2R. cbn [Qnum Qden]. lra.
Qed.
Lemma eval_bound f m s p : 0 <= f -> 0 <= m -> f + m <= 1 / 100 -> 0 <= s <= 1 -> forallb cubic p = true ->
  Rabs (eval f m s p) <= Q2R (bound p) * (f + m) ^ 3.
Proof.
  intros Hf Hm Ht Hs. induction p as [|t p IH]; cbn [forallb eval bound fold_right].
  - intros _. rewrite Rabs_R0. unfold Q2R. cbn. lra.
  - intros [C1 C2]%andb_prop. rewrite Q2R_plus, Rmult_plus_distr_r. eapply Rle_trans; [apply Rabs_triang|].
    apply Rplus_le_compat; [now apply ev_bound|now apply IH].
Qed.

Definition remainder : list term :=
  [((- 45 # 4), (0, 3, 1)%nat); ((135 # 8), (0, 4, 1)%nat); ((- 225 # 8), (0, 4, 2)%nat); ((2025 # 64), (0, 6, 2)%nat); ((9 # 1), (1, 2, 1)%nat); ((- 15 # 2), (1, 2, 2)%nat);
   ((198 # 7), (1, 3, 1)%nat); ((135 # 2), (1, 3, 2)%nat); ((- 75 # 4), (1, 3, 3)%nat); ((- 405 # 7), (1, 4, 1)%nat); ((765 # 8), (1, 4, 2)%nat); ((225 # 8), (1, 4, 3)%nat);
   ((- 405 # 8), (1, 5, 2)%nat); ((675 # 16), (1, 5, 3)%nat); ((- 6075 # 56), (1, 6, 2)%nat); ((- 2025 # 32), (1, 6, 3)%nat); ((- 26 # 7), (2, 1, 1)%nat); ((139 # 14), (2, 1, 2)%nat);
   ((- 15 # 2), (2, 1, 3)%nat); ((- 2985 # 98), (2, 2, 1)%nat); ((- 653 # 28), (2, 2, 2)%nat); ((410 # 7), (2, 2, 3)%nat); ((- 75 # 4), (2, 2, 4)%nat); ((- 909 # 98), (2, 3, 1)%nat);
   ((- 103413 # 392), (2, 3, 2)%nat); ((195 # 8), (2, 3, 3)%nat); ((75 # 4), (2, 3, 4)%nat); ((7695 # 98), (2, 4, 1)%nat); ((- 66429 # 784), (2, 4, 2)%nat); ((- 25155 # 112), (2, 4, 3)%nat);
   ((1125 # 16), (2, 4, 4)%nat); ((147555 # 784), (2, 5, 2)%nat); ((- 1215 # 28), (2, 5, 3)%nat); ((- 675 # 8), (2, 5, 4)%nat); ((115425 # 784), (2, 6, 2)%nat); ((111375 # 448), (2, 6, 3)%nat);
   ((- 1 # 1), (3, 0, 2)%nat); ((1 # 1), (3, 0, 3)%nat); ((104 # 7), (3, 1, 1)%nat); ((- 33 # 1), (3, 1, 2)%nat); ((187 # 14), (3, 1, 3)%nat); ((25 # 2), (3, 1, 4)%nat);
   ((1662 # 49), (3, 2, 1)%nat); ((35355 # 196), (3, 2, 2)%nat); ((- 48185 # 196), (3, 2, 3)%nat); ((1325 # 14), (3, 2, 4)%nat); ((- 25 # 2), (3, 2, 5)%nat); ((- 11556 # 343), (3, 3, 1)%nat);
   ((269571 # 686), (3, 3, 2)%nat); ((1395 # 8), (3, 3, 3)%nat); ((- 10275 # 56), (3, 3, 4)%nat); ((75 # 2), (3, 3, 5)%nat); ((- 2430 # 49), (3, 4, 1)%nat); ((- 16893 # 196), (3, 4, 2)%nat);
   ((27918 # 49), (3, 4, 3)%nat); ((- 5625 # 28), (3, 4, 4)%nat); ((- 225 # 8), (3, 4, 5)%nat); ((- 185895 # 686), (3, 5, 2)%nat); ((- 45225 # 196), (3, 5, 3)%nat); ((37125 # 112), (3, 5, 4)%nat);
   ((- 18225 # 196), (3, 6, 2)%nat); ((- 78975 # 196), (3, 6, 3)%nat); ((17 # 4), (4, 0, 2)%nat); ((- 5 # 2), (4, 0, 3)%nat); ((- 7 # 4), (4, 0, 4)%nat); ((- 156 # 7), (4, 1, 1)%nat);
   ((815 # 28), (4, 1, 2)%nat); ((235 # 7), (4, 1, 3)%nat); ((- 1811 # 28), (4, 1, 4)%nat); ((5 # 1), (4, 1, 5)%nat); ((- 753 # 98), (4, 2, 1)%nat); ((- 274943 # 784), (4, 2, 2)%nat);
   ((3113 # 8), (4, 2, 3)%nat); ((- 18845 # 112), (4, 2, 4)%nat); ((165 # 4), (4, 2, 5)%nat); ((13068 # 343), (4, 3, 1)%nat); ((- 165723 # 686), (4, 3, 2)%nat); ((- 1666071 # 2744), (4, 3, 3)%nat);
   ((219423 # 392), (4, 3, 4)%nat); ((- 2055 # 14), (4, 3, 5)%nat); ((1215 # 98), (4, 4, 1)%nat); ((8583633 # 38416), (4, 4, 2)%nat); ((- 3283065 # 5488), (4, 4, 3)%nat); ((91125 # 784), (4, 4, 4)%nat);
   ((12375 # 112), (4, 4, 5)%nat); ((491265 # 2744), (4, 5, 2)%nat); ((3326805 # 5488), (4, 5, 3)%nat); ((- 26325 # 49), (4, 5, 4)%nat); ((18225 # 784), (4, 6, 2)%nat); ((261225 # 784), (4, 6, 3)%nat);
   ((- 7 # 1), (5, 0, 2)%nat); ((- 3 # 2), (5, 0, 3)%nat); ((9 # 1), (5, 0, 4)%nat); ((- 1 # 2), (5, 0, 5)%nat); ((104 # 7), (5, 1, 1)%nat); ((225 # 14), (5, 1, 2)%nat);
   ((- 1675 # 14), (5, 1, 3)%nat); ((948 # 7), (5, 1, 4)%nat); ((- 21 # 1), (5, 1, 5)%nat); ((- 468 # 49), (5, 2, 1)%nat); ((15147 # 49), (5, 2, 2)%nat); ((- 94935 # 392), (5, 2, 3)%nat);
   ((4225 # 49), (5, 2, 4)%nat); ((- 2123 # 56), (5, 2, 5)%nat); ((- 4212 # 343), (5, 3, 1)%nat); ((1794 # 343), (5, 3, 2)%nat); ((1121145 # 1372), (5, 3, 3)%nat); ((- 308355 # 392), (5, 3, 4)%nat);
   ((12525 # 56), (5, 3, 5)%nat); ((- 777303 # 4802), (5, 4, 2)%nat); ((3021093 # 19208), (5, 4, 3)%nat); ((290025 # 1372), (5, 4, 4)%nat); ((- 8775 # 49), (5, 4, 5)%nat); ((- 15795 # 343), (5, 5, 2)%nat);
   ((- 410265 # 686), (5, 5, 3)%nat); ((87075 # 196), (5, 5, 4)%nat); ((- 54675 # 392), (5, 6, 3)%nat); ((11 # 2), (6, 0, 2)%nat); ((45 # 4), (6, 0, 3)%nat); ((- 19 # 1), (6, 0, 4)%nat);
   ((9 # 4), (6, 0, 5)%nat); ((- 26 # 7), (6, 1, 1)%nat); ((- 1161 # 28), (6, 1, 2)%nat); ((3783 # 28), (6, 1, 3)%nat); ((- 4001 # 28), (6, 1, 4)%nat); ((943 # 28), (6, 1, 5)%nat);
   ((234 # 49), (6, 2, 1)%nat); ((- 249 # 2), (6, 2, 2)%nat); ((- 487 # 16), (6, 2, 3)%nat); ((38299 # 392), (6, 2, 4)%nat); ((- 1705 # 112), (6, 2, 5)%nat); ((20070 # 343), (6, 3, 2)%nat);
   ((- 180423 # 343), (6, 3, 3)%nat); ((738399 # 1372), (6, 3, 4)%nat); ((- 30585 # 196), (6, 3, 5)%nat); ((397629 # 9604), (6, 4, 2)%nat); ((7060941 # 38416), (6, 4, 3)%nat); ((- 242325 # 686), (6, 4, 4)%nat);
   ((29025 # 196), (6, 4, 5)%nat); ((743985 # 2744), (6, 5, 3)%nat); ((- 18225 # 98), (6, 5, 4)%nat); ((18225 # 784), (6, 6, 3)%nat); ((- 2 # 1), (7, 0, 2)%nat); ((- 15 # 1), (7, 0, 3)%nat);
   ((21 # 1), (7, 0, 4)%nat); ((- 4 # 1), (7, 0, 5)%nat); ((166 # 7), (7, 1, 2)%nat); ((- 923 # 14), (7, 1, 3)%nat); ((1039 # 14), (7, 1, 4)%nat); ((- 170 # 7), (7, 1, 5)%nat);
   ((722 # 49), (7, 2, 2)%nat); ((5648 # 49), (7, 2, 3)%nat); ((- 14981 # 98), (7, 2, 4)%nat); ((2274 # 49), (7, 2, 5)%nat); ((- 6318 # 343), (7, 3, 2)%nat); ((13101 # 98), (7, 3, 3)%nat);
   ((- 192471 # 1372), (7, 3, 4)%nat); ((3645 # 98), (7, 3, 5)%nat); ((- 349326 # 2401), (7, 4, 3)%nat); ((132975 # 686), (7, 4, 4)%nat); ((- 6075 # 98), (7, 4, 5)%nat); ((- 15795 # 343), (7, 5, 3)%nat);
   ((6075 # 196), (7, 5, 4)%nat); ((1 # 4), (8, 0, 2)%nat); ((9 # 1), (8, 0, 3)%nat); ((- 51 # 4), (8, 0, 4)%nat); ((7 # 2), (8, 0, 5)%nat); ((- 61 # 14), (8, 1, 2)%nat);
   ((251 # 28), (8, 1, 3)%nat); ((- 165 # 14), (8, 1, 4)%nat); ((165 # 28), (8, 1, 5)%nat); ((341 # 196), (8, 2, 2)%nat); ((- 4927 # 98), (8, 2, 3)%nat); ((3503 # 49), (8, 2, 4)%nat);
   ((- 2587 # 98), (8, 2, 5)%nat); ((2790 # 343), (8, 3, 3)%nat); ((- 5706 # 343), (8, 3, 4)%nat); ((855 # 98), (8, 3, 5)%nat); ((278559 # 9604), (8, 4, 3)%nat); ((- 50625 # 1372), (8, 4, 4)%nat);
   ((2025 # 196), (8, 4, 5)%nat); ((- 5 # 2), (9, 0, 3)%nat); ((4 # 1), (9, 0, 4)%nat); ((- 3 # 2), (9, 0, 5)%nat); ((19 # 7), (9, 1, 3)%nat); ((- 57 # 14), (9, 1, 4)%nat);
   ((19 # 14), (9, 1, 5)%nat); ((531 # 98), (9, 2, 3)%nat); ((- 459 # 49), (9, 2, 4)%nat); ((387 # 98), (9, 2, 5)%nat); ((- 2106 # 343), (9, 3, 3)%nat); ((7047 # 686), (9, 3, 4)%nat);
   ((- 405 # 98), (9, 3, 5)%nat); ((1 # 4), (10, 0, 3)%nat); ((- 1 # 2), (10, 0, 4)%nat); ((1 # 4), (10, 0, 5)%nat); ((- 9 # 14), (10, 1, 3)%nat); ((9 # 7), (10, 1, 4)%nat);
   ((- 9 # 14), (10, 1, 5)%nat); ((81 # 196), (10, 2, 3)%nat); ((- 81 # 98), (10, 2, 4)%nat); ((81 # 196), (10, 2, 5)%nat)].
Section Second.
  Variable f m s : R.
  Definition sf2 : R := - f + 5 / 2 * m + 1 / 2 * f ^ 2 - 26 / 7 * f * m + 15 / 4 * m ^ 2.
  Definition sf4 : R := - (1 / 2) * f ^ 2 + 5 / 2 * f * m.
  Definition sG : R := 1 + sf2 * s + sf4 * s ^ 2.
  Definition se : R := 2 * f - f ^ 2.
  Definition sW : R := (1 - f) ^ 2.
  Definition sD : R := sW * (1 - 3 / 2 * m) - 3 / 14 * se * m.
  Definition sN : R := sW * (1 + m) + 3 / 7 * se * m.
  Definition sT : R := (1 - s) * sD + sW * sN * s.
  Lemma remainder_eq : sG ^ 2 * (1 - se * s) * sD ^ 2 - sT ^ 2 = eval f m s remainder.
  Proof.
    unfold eval, remainder, ev. cbn [fold_right]. unfold Q2R. cbn [Qnum Qden].
    unfold sG, sT, sN, sD, sW, se, sf2, sf4. field.
  Qed.
End Second.
Lemma remainder_bound f m s : 0 <= f -> 0 <= m -> f + m <= 1 / 100 -> 0 <= s <= 1 ->
  Rabs (sG f m s ^ 2 * (1 - se f * s) * sD f m ^ 2 - sT f m s ^ 2) <= 55 * (f + m) ^ 3.
Proof.
  intros. rewrite remainder_eq. eapply Rle_trans; [apply eval_bound; auto; vm_compute; reflexivity|].
  apply Rmult_le_compat_r; [apply pow_le; lra|].
  replace 55 with (Q2R 55) by (unfold Q2R; cbn; lra). apply Qle_Rle. vm_compute. discriminate.
Qed.

Lemma range_f2 f m : 0 <= f -> 0 <= m -> f + m <= 1 / 100 -> - 0.03 <= sf2 f m <= 0.03 /\ - 0.001 <= sf4 f m <= 0.001.
Proof.
  intros. assert (0 <= f * f <= 1 / 10000) by nra. assert (0 <= m * m <= 1 / 10000) by nra. assert (0 <= f * m <= 1 / 10000) by nra.
  unfold sf2, sf4. cbn [pow]. split; split; lra.
Qed.
Lemma range_D f m : 0 <= f -> 0 <= m -> f + m <= 1 / 100 -> 0.96 <= sD f m <= 1 /\ 0 <= sN f m /\ 0 <= se f <= 0.02 /\ 0.98 <= sW f <= 1.
Proof.
  intros. assert (0 <= f * f <= 1 / 10000) by nra.
  assert (We : 0.98 <= sW f <= 1) by (unfold sW; cbn [pow]; split; nra). assert (Se : 0 <= se f <= 0.02) by (unfold se; cbn [pow]; split; nra).
  split; [unfold sD; split; nra|]. split; [unfold sN; nra|]. split; assumption.
Qed.

(** Gravity at a latitude is Somigliana's formula to third order in the flattening
    and in the ratio [m] of the centrifugal force to gravity. *)
Theorem C25_somigliana d phi : sound d -> 0 < d_GM d ->
  let m := d_omega d ^ 2 * d_a d ^ 2 * b_ax d / d_GM d in
  d_flat d + m <= 1 / 100 ->
  Rabs (gamma_0 d (PI / 2 - phi) - somigliana (d_a d) (d_flat d) (gamma_a d) (gamma_b d) phi)
  <= gamma_a d * (34 * (d_flat d + m) ^ 3).
Proof.
  intros H HG m Ht. pose proof (b_ax_pos d H) as Hb. pose proof (ecc2_sq' d H) as E2. destruct H as [Ha [F1 F2]].
  assert (Hm : 0 <= m).
  { unfold m. apply Rmult_le_pos; [|left; apply Rinv_0_lt_compat; lra]. apply Rmult_le_pos; [|lra]. apply Rmult_le_pos; apply pow2_ge_0. }
  assert (Mp : m_par d = m) by (unfold m_par, m, b_ax; field; lra).
  set (f := d_flat d) in *. set (a := d_a d) in *.
  destruct (range_D f m F1 Hm Ht) as (RD & RN & Re & RW). destruct (range_f2 f m F1 Hm Ht) as [R2 R4].
  set (s := sin phi ^ 2).
  assert (Hs : 0 <= s <= 1) by (unfold s; pose proof (SIN_bound phi); cbn [pow]; split; nra).
  assert (Hc : cos phi ^ 2 = 1 - s) by (unfold s; pose proof (sin2_cos2 phi) as Q; unfold Rsqr in Q; cbn [pow]; lra).
  assert (Ga : gamma_a d = d_GM d / (a * b_ax d) * (sD f m / sW f)).
  { unfold gamma_a. rewrite Mp, E2. fold a f. unfold sD, se, sW. field. repeat split; lra. }
  assert (Gb : gamma_b d = gamma_a d * ((1 - f) * sN f m / sD f m)).
  { rewrite Ga. unfold gamma_b. rewrite Mp, E2. fold a f. unfold b_ax. fold a f. unfold sN, se, sW in *. field. repeat split; lra. }
  assert (Gp : 0 < gamma_a d).
  { rewrite Ga. apply Rmult_lt_0_compat; apply Rdiv_lt_0_compat; try lra. apply Rmult_lt_0_compat; lra. }
  assert (W0 : 0.97 <= 1 - se f * s <= 1) by nra.
  set (w := sqrt (1 - se f * s)). assert (Hw : 0 < w) by (apply sqrt_lt_R0; lra). assert (Hw2 : w * w = 1 - se f * s) by (apply sqrt_sqrt; lra).
  set (T := sT f m s). assert (HT : 0 <= T).
  { unfold T, sT. apply Rplus_le_le_0_compat; apply Rmult_le_pos; try lra. apply Rmult_le_pos; lra. }
  assert (So : somigliana a f (gamma_a d) (gamma_b d) phi = gamma_a d * (T / (sD f m * w))).
  { unfold somigliana. rewrite Hc. fold s.
    replace (sqrt (a ^ 2 * (1 - s) + ((1 - f) * a) ^ 2 * s)) with (a * w).
    - rewrite Gb. unfold T, sT. unfold sW. field. repeat split; lra.
    - unfold w. replace (a ^ 2 * (1 - s) + ((1 - f) * a) ^ 2 * s) with (a ^ 2 * (1 - se f * s)) by (unfold se; ring).
      rewrite sqrt_mult_alt by (apply pow2_ge_0). rewrite <- Rsqr_pow2, sqrt_Rsqr by lra. reflexivity. }
  assert (G0 : gamma_0 d (PI / 2 - phi) = gamma_a d * sG f m s).
  { unfold gamma_0. rewrite cos_shift. unfold sG, sf2, sf4, f2, f4. rewrite Mp. fold f. unfold s. ring. }
  rewrite So, G0, <- Rmult_minus_distr_l, Rabs_mult, (Rabs_right (gamma_a d)) by lra. apply Rmult_le_compat_l; [lra|].
  assert (HG1 : 0.96 <= sG f m s) by (unfold sG; assert (0 <= s ^ 2 <= 1) by (cbn [pow]; nra); nra).
  pose proof (remainder_bound f m s F1 Hm Ht Hs) as B. fold T in B.
  set (G := sG f m s) in *. set (D := sD f m) in *. set (S1 := T / (D * w)).
  assert (HS1 : 0 <= S1) by (unfold S1; apply Rmult_le_pos; [lra|left; apply Rinv_0_lt_compat, Rmult_lt_0_compat; lra]).
  (* T/D is close to 1 as well *)
  assert (P : (G - S1) * ((G + S1) * (D ^ 2 * (w * w))) = G ^ 2 * (1 - se f * s) * D ^ 2 - T ^ 2).
  { rewrite <- Hw2. unfold S1. field. split; lra. }
  assert (HT1 : 0.92 <= T).
  { unfold T, sT. fold D. assert (N1 : 0.98 <= sN f m).
    { unfold sN. assert (0.98 * 1 <= sW f * (1 + m)) by (apply Rmult_le_compat; lra). assert (0 <= 3 / 7 * se f * m) by (apply Rmult_le_pos; lra). lra. }
    assert (N2 : 0.98 * 0.98 <= sW f * sN f m) by (apply Rmult_le_compat; lra).
    assert (A1 : (1 - s) * 0.96 <= (1 - s) * D) by (apply Rmult_le_compat_l; lra).
    assert (A2 : (0.98 * 0.98) * s <= sW f * sN f m * s) by (apply Rmult_le_compat_r; lra). lra. }
  assert (HS2 : 0.92 <= S1).
  { unfold S1. assert (Dw : 0 < D * w <= 1 * 1).
    { split; [apply Rmult_lt_0_compat; lra|]. apply Rmult_le_compat; try lra. apply Rle_trans with (sqrt 1); [apply sqrt_le_1_alt; lra|rewrite sqrt_1; lra]. }
    apply Rmult_le_reg_r with (D * w); [lra|]. unfold Rdiv. rewrite Rmult_assoc, Rinv_l, Rmult_1_r by lra.
    apply Rle_trans with (0.92 * 1); [apply Rmult_le_compat_l; lra|lra]. }
  assert (Den : 1.65 <= (G + S1) * (D ^ 2 * (w * w))).
  { rewrite Hw2. assert (D2 : 0.96 * 0.96 <= D ^ 2) by (cbn [pow]; rewrite Rmult_1_r; apply Rmult_le_compat; lra).
    assert (D3 : (0.96 * 0.96) * 0.97 <= D ^ 2 * (1 - se f * s)) by (apply Rmult_le_compat; lra).
    apply Rle_trans with (1.88 * ((0.96 * 0.96) * 0.97)); [lra|]. apply Rmult_le_compat; lra. }
  assert (Ab : Rabs (G - S1) * ((G + S1) * (D ^ 2 * (w * w))) <= 55 * (f + m) ^ 3).
  { rewrite <- (Rabs_right ((G + S1) * (D ^ 2 * (w * w)))) by lra. rewrite <- Rabs_mult, P. exact B. }
  pose proof (Rabs_pos (G - S1)). assert (0 <= (f + m) ^ 3) by (apply pow_le; lra).
  assert (Rabs (G - S1) * 1.65 <= Rabs (G - S1) * ((G + S1) * (D ^ 2 * (w * w)))) by (apply Rmult_le_compat_l; lra). lra.
Qed.
Print Assumptions C25_somigliana.

(** Free air gradient: at the ellipsoid gravity decreases with height as in Bruns'
    formula, (1/M + 1/N) + 2 omega^2/gravity with M, N the radii of curvature, up to
    the second order. *)
Theorem C25_gradient d phi : sound d -> 0 < d_GM d ->
  let m := d_omega d ^ 2 * d_a d ^ 2 * b_ax d / d_GM d in
  let w := sqrt (1 - (2 * d_flat d - d_flat d ^ 2) * sin phi ^ 2) in
  let M := d_a d * (1 - d_flat d) ^ 2 / w ^ 3 in let N := d_a d / w in
  d_flat d + m <= 1 / 100 ->
  exists c, derivable_pt_lim (gamma_h d (PI / 2 - phi)) 0 (- (gamma_0 d (PI / 2 - phi) * c)) /\
    Rabs (c - (/ M + / N + 2 * d_omega d ^ 2 / gamma_0 d (PI / 2 - phi))) <= 40 * (d_flat d + m) ^ 2 / d_a d.
Proof.
  intros H HG m w M N Ht. pose proof (b_ax_pos d H) as Hb. pose proof (ecc2_sq' d H) as E2. destruct H as [Ha [F1 F2]].
  assert (Hm : 0 <= m).
  { unfold m. apply Rmult_le_pos; [|left; apply Rinv_0_lt_compat; lra]. apply Rmult_le_pos; [|lra]. apply Rmult_le_pos; apply pow2_ge_0. }
  assert (Mp : m_par d = m) by (unfold m_par, m, b_ax; field; lra).
  set (f := d_flat d) in *. set (a := d_a d) in *.
  destruct (range_D f m F1 Hm Ht) as (RD & RN & Re & RW). destruct (range_f2 f m F1 Hm Ht) as [R2 R4].
  set (s := sin phi ^ 2) in *.
  assert (Hs : 0 <= s <= 1) by (unfold s; pose proof (SIN_bound phi); cbn [pow]; split; nra).
  assert (Ga : gamma_a d = d_GM d / (a * b_ax d) * (sD f m / sW f)).
  { unfold gamma_a. rewrite Mp, E2. fold a f. unfold sD, se, sW. field. repeat split; lra. }
  assert (Gp : 0 < gamma_a d).
  { rewrite Ga. apply Rmult_lt_0_compat; apply Rdiv_lt_0_compat; try lra. apply Rmult_lt_0_compat; lra. }
  assert (G0 : gamma_0 d (PI / 2 - phi) = gamma_a d * sG f m s).
  { unfold gamma_0. rewrite cos_shift. unfold sG, sf2, sf4, f2, f4. rewrite Mp. fold f. unfold s. ring. }
  exists (2 / a * (1 + f + m - 2 * f * s)). split.
  { unfold gamma_h. rewrite cos_shift, Mp. fold a f s. eapply GravityProps.deriv_eq.
    - apply (derivable_pt_lim_scal (fun h => 1 - 2 / a * (1 + f + m - 2 * f * s) * h + 3 / a ^ 2 * h ^ 2)).
      apply (derivable_pt_lim_plus (fun h => 1 - 2 / a * (1 + f + m - 2 * f * s) * h) (fun h => 3 / a ^ 2 * h ^ 2)).
      + apply (derivable_pt_lim_minus (fun _ => 1) (fun h => 2 / a * (1 + f + m - 2 * f * s) * h)); [apply derivable_pt_lim_const|].
        apply (derivable_pt_lim_scal (fun h => h)), derivable_pt_lim_id.
      + apply (derivable_pt_lim_scal (fun h => h ^ 2)). apply (derivable_pt_lim_pow 0 2).
    - cbn [INR pred pow]. ring. }
  set (e := se f) in *. assert (W0 : 0.97 <= 1 - e * s <= 1) by (split; nra).
  assert (Hw : 0 < w) by (unfold w; apply sqrt_lt_R0; unfold e, se in W0; lra).
  assert (Hw2 : w * w = 1 - e * s) by (unfold w, e, se; apply sqrt_sqrt; unfold e, se in W0; lra).
  assert (Ef : 0 <= e <= 2 * f) by (unfold e, se; split; nra).
  (* curvature *)
  set (dl := 1 - e * s / 2 - w).
  assert (Dl : 0 <= dl <= f ^ 2).
  { assert (P : dl * (1 - e * s / 2 + w) = (e * s) ^ 2 / 4) by (unfold dl; nra). assert (Q : 1 <= 1 - e * s / 2 + w) by nra.
    assert (0 <= (e * s) ^ 2 / 4 <= f ^ 2) by (assert (0 <= e * s <= 2 * f) by nra; split; nra).
    assert (0 <= dl) by (destruct (Rle_dec 0 dl); [assumption|exfalso; nra]). split; nra. }
  assert (K1 : / M + / N = (w * (2 + e * (1 - s) / (1 - f) ^ 2)) / a).
  { unfold M, N. replace (1 - f) with (1 - f) by ring.
    transitivity ((w * (w * w) / (1 - f) ^ 2 + w) / a); [field; repeat split; lra|]. rewrite Hw2. unfold e, se. field. repeat split; lra. }
  set (k := e * (1 - s) / (1 - f) ^ 2) in *.
  assert (Kk : Rabs (k - 2 * f * (1 - s)) <= 4 * f ^ 2).
  { assert (X : k - 2 * f * (1 - s) = f ^ 2 * ((1 - s) * (3 - 2 * f) / (1 - f) ^ 2)) by (unfold k, e, se; field; lra).
    rewrite X. assert (Y : 0 <= (1 - s) * (3 - 2 * f) / (1 - f) ^ 2 <= 4).
    { assert (0 < (1 - f) ^ 2) by (apply pow_lt; lra). split; [apply Rmult_le_pos; [nra|left; apply Rinv_0_lt_compat; lra]|].
      apply Rmult_le_reg_r with ((1 - f) ^ 2); [lra|]. unfold Rdiv. rewrite Rmult_assoc, Rinv_l, Rmult_1_r by lra. nra. }
    assert (0 <= f ^ 2) by apply pow2_ge_0. rewrite Rabs_right by nra. nra. }
  assert (F01 : f <= 1 / 100) by lra. assert (Fsq : 0 <= f ^ 2 <= f / 100) by (split; [apply pow2_ge_0|nra]). assert (Fs : 0 <= 2 * f * (1 - s) <= 2 * f) by nra.
  assert (Kf : k <= 2.5 * f) by (revert Kk; unfold Rabs; destruct (Rcase_abs _); intros; lra).
  assert (Kr : 0 <= k <= 0.05).
  { split; [|lra]. unfold k. apply Rmult_le_pos; [apply Rmult_le_pos; lra|left; apply Rinv_0_lt_compat, pow_lt; lra]. }
  assert (C1 : Rabs (w * (2 + k) - 2 * (1 + f - 2 * f * s)) <= 12 * f ^ 2).
  { replace w with (1 - e * s / 2 - dl) by (unfold dl; ring).
    replace ((1 - e * s / 2 - dl) * (2 + k) - 2 * (1 + f - 2 * f * s))
      with ((k - 2 * f * (1 - s)) + f ^ 2 * s - e * s / 2 * k - dl * (2 + k)) by (unfold e, se; field).
    assert (0 <= f ^ 2) by apply pow2_ge_0. assert (0 <= e * s / 2 * k <= 3 * f ^ 2).
    { assert (Es : 0 <= e * s / 2 <= f) by nra. split; [apply Rmult_le_pos; lra|].
      apply Rle_trans with (f * (2.5 * f)); [apply Rmult_le_compat; lra|]. replace (f * (2.5 * f)) with (2.5 * f ^ 2) by ring. lra. }
    assert (0 <= dl * (2 + k) <= 3 * f ^ 2) by (split; nra). assert (0 <= f ^ 2 * s <= f ^ 2) by nra.
    revert Kk. unfold Rabs; do 2 destruct (Rcase_abs _); intros; lra. }
  (* rotation *)
  assert (C2 : Rabs (a * (d_omega d ^ 2 / gamma_0 d (PI / 2 - phi)) - m) <= 8 * (f + m) * m).
  { set (y := sD f m / sW f * sG f m s).
    assert (Y1 : Rabs (y - 1) <= 6 * (f + m)).
    { assert (A1 : sD f m / sW f = 1 - 3 / 2 * m - 3 / 14 * (e / sW f) * m) by (unfold sD; fold e; field; lra).
      assert (A2 : 0 <= e / sW f <= 0.03).
      { split; [apply Rmult_le_pos; [lra|left; apply Rinv_0_lt_compat; lra]|]. apply Rmult_le_reg_r with (sW f); [lra|]. unfold Rdiv. rewrite Rmult_assoc, Rinv_l, Rmult_1_r by lra. nra. }
      assert (A3 : 1 - 1.6 * m <= sD f m / sW f <= 1) by (rewrite A1; split; nra).
      assert (A4 : Rabs (sG f m s - 1) <= 4 * (f + m)).
      { unfold sG, sf2, sf4. assert (0 <= f ^ 2 <= f / 100) by (clear - F1 F01; nra). assert (0 <= m ^ 2 <= m / 100) by (clear - Hm Ht F1; nra). assert (0 <= f * m <= f / 100) by (clear - Hm Ht F1; nra).
        assert (Hs2 : 0 <= s ^ 2 <= 1) by (clear - Hs; nra).
        set (p := - f + 5 / 2 * m + 1 / 2 * f ^ 2 - 26 / 7 * f * m + 15 / 4 * m ^ 2). set (r := - (1 / 2) * f ^ 2 + 5 / 2 * f * m).
        assert (Hp : - (1.1 * f + 2.7 * m) <= p <= 1.1 * f + 2.7 * m) by (unfold p; lra). assert (Hr : - (0.1 * f) <= r <= 0.1 * f) by (unfold r; lra).
        assert (- (1.1 * f + 2.7 * m) <= p * s <= 1.1 * f + 2.7 * m) by (clear - Hp Hs Hm F1; split; nra). assert (- (0.1 * f) <= r * s ^ 2 <= 0.1 * f) by (clear - Hr Hs2 F1; split; nra).
        apply Rabs_le. lra. }
      assert (A5 : 0.96 <= sG f m s <= 1.04) by (revert A4; unfold Rabs; destruct (Rcase_abs _); intros; split; lra).
      unfold y. set (z := sD f m / sW f) in *. set (g := sG f m s) in *.
      replace (z * g - 1) with ((z - 1) * g + (g - 1)) by ring. eapply Rle_trans; [apply Rabs_triang|].
      assert (Rabs ((z - 1) * g) <= 1.7 * m) by (rewrite Rabs_mult, (Rabs_right g), (Rabs_left1 (z - 1)) by lra; apply Rle_trans with (1.6 * m * 1.04); [apply Rmult_le_compat; lra|lra]). lra. }
    assert (Y2 : 0.9 <= y) by (revert Y1; unfold Rabs; destruct (Rcase_abs _); intros; lra).
    replace (a * (d_omega d ^ 2 / gamma_0 d (PI / 2 - phi)) - m) with (m * ((1 - y) / y)).
    2:{ rewrite G0, Ga. replace (d_omega d ^ 2) with (m * d_GM d / (a ^ 2 * b_ax d)) by (unfold m; field; lra).
        assert (sG f m s <> 0) by (intros Z; unfold y in Y2; rewrite Z, Rmult_0_r in Y2; lra). unfold y. field. repeat split; lra. }
    rewrite Rabs_mult, (Rabs_right m) by lra. rewrite Rmult_comm. apply Rmult_le_compat_r; [lra|].
    unfold Rdiv. rewrite Rabs_mult, (Rabs_right (/ y)) by (left; apply Rinv_0_lt_compat; lra). rewrite Rabs_minus_sym.
    apply Rmult_le_reg_r with y; [lra|]. rewrite Rmult_assoc, Rinv_l, Rmult_1_r by lra. nra. }
  replace (2 / a * (1 + f + m - 2 * f * s) - (/ M + / N + 2 * d_omega d ^ 2 / gamma_0 d (PI / 2 - phi)))
    with (- ((w * (2 + k) - 2 * (1 + f - 2 * f * s)) + 2 * (a * (d_omega d ^ 2 / gamma_0 d (PI / 2 - phi)) - m)) / a).
  2:{ rewrite K1. field. split; [|lra]. rewrite G0. assert (0.96 <= sG f m s) by (unfold sG; assert (0 <= s ^ 2 <= 1) by (cbn [pow]; nra); nra).
      apply Rmult_integral_contrapositive; lra. }
  unfold Rdiv. rewrite Rabs_mult, (Rabs_right (/ a)), Rabs_Ropp by (left; apply Rinv_0_lt_compat; lra).
  apply Rmult_le_compat_r; [left; apply Rinv_0_lt_compat; lra|].
  eapply Rle_trans; [apply Rabs_triang|]. rewrite (Rabs_mult 2), (Rabs_right 2) by lra.
  assert (0 <= f * m) by nra. assert (0 <= f ^ 2) by apply pow2_ge_0. assert (0 <= m ^ 2) by apply pow2_ge_0.
  replace ((f + m) ^ 2) with (f ^ 2 + 2 * (f * m) + m ^ 2) by ring. replace (8 * (f + m) * m) with (8 * (f * m) + 8 * m ^ 2) in C2 by ring. lra.
Qed.
Print Assumptions C25_gradient.

(** Without rotation and flattening gravity at a height is Newton's law to the third
    order. *)
Theorem C25_height d theta h : sound d -> d_flat d = 0 -> d_omega d = 0 -> 0 < d_GM d -> 0 <= h ->
  Rabs (gamma_h d theta h - d_GM d / (d_a d + h) ^ 2) <= d_GM d / d_a d ^ 2 * (4 * (h / d_a d) ^ 3).
Proof.
  intros H Hf Hw HG Hh. pose proof (ecc2_sq' d H) as E2. destruct H as [Ha [F1 F2]].
  assert (Mp : m_par d = 0) by (unfold m_par; rewrite Hw; unfold Rdiv; ring).
  assert (G0 : gamma_0 d theta = d_GM d / d_a d ^ 2).
  { unfold gamma_0, gamma_a, f2, f4, b_ax. rewrite Mp, Hf. field. lra. }
  unfold gamma_h. rewrite G0, Mp, Hf. set (a := d_a d) in *. set (x := h / a).
  assert (X : 0 <= x) by (apply Rmult_le_pos; [lra|left; apply Rinv_0_lt_compat; lra]).
  replace (d_GM d / a ^ 2 * (1 - 2 / a * (1 + 0 + 0 - 2 * 0 * cos theta ^ 2) * h + 3 / a ^ 2 * h ^ 2) - d_GM d / (a + h) ^ 2)
    with (d_GM d / a ^ 2 * (x ^ 3 * ((4 + 3 * x) / (1 + x) ^ 2))) by (unfold x; field; split; nra).
  assert (0 < d_GM d / a ^ 2) by (apply Rdiv_lt_0_compat; [lra|apply pow_lt; lra]).
  rewrite Rabs_mult, (Rabs_right (d_GM d / a ^ 2)) by lra. apply Rmult_le_compat_l; [lra|].
  assert (0 <= x ^ 3) by (apply pow_le; lra). assert (0 < (1 + x) ^ 2) by (apply pow_lt; lra).
  assert (Y : 0 <= (4 + 3 * x) / (1 + x) ^ 2 <= 4).
  { split; [apply Rmult_le_pos; [lra|left; apply Rinv_0_lt_compat; lra]|]. apply Rmult_le_reg_r with ((1 + x) ^ 2); [lra|].
    unfold Rdiv. rewrite Rmult_assoc, Rinv_l, Rmult_1_r by lra. nra. }
  rewrite Rabs_right by nra. nra.
Qed.
Print Assumptions C25_height.

(** The ellipsoid of WGS84 meets the hypotheses *)
Example C25_case : exists d, make (Kw "WGS84" "MKS" None None None None) = Ok d /\ sound d /\ 0 < d_flat d /\ 0 < d_GM d /\ ecc2 d <= 1 / 2 /\
  d_flat d + d_omega d ^ 2 * d_a d ^ 2 * b_ax d / d_GM d <= 1 / 100.
Proof.
  eexists. split; [reflexivity|]. match goal with |- sound ?x /\ _ => set (d := x) end.
  assert (Ha : d_a d = 6378137) by reflexivity. assert (Hf : d_flat d = 1 / 298.257223563) by reflexivity.
  assert (Hg : d_GM d = 3.986004418e14) by reflexivity. assert (Hw : d_omega d = 7292115e-11) by reflexivity.
  assert (Sd : sound d) by (split; rewrite ?Ha, ?Hf; lra). split; [exact Sd|]. rewrite Hg. split; [rewrite Hf; lra|]. split; [lra|]. split.
  - pose proof (ecc2_sq' d Sd) as E. rewrite Hf in E.
    assert (ecc2 d ^ 2 <= 1 / 4) by (rewrite E; lra). nra.
  - unfold b_ax. rewrite Ha, Hf, Hw. lra.
Qed.
