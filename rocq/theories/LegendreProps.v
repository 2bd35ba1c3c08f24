(** C55: Legendre functions and spherical harmonics. *)
From Coq Require Import String List Reals ZArith Lra Lia Psatz Factorial.
From Verif Require Import PyBase RBase MathModel LegendreSpec.
Import ListNotations.
Open Scope R_scope.

(** ** legendre *)
(** Degrees 0 to 3: the associated Legendre function
    (-1)^m (1-x^2)^(m/2) d^m/dx^m P_l(x), for every x. *)
Theorem C55_legendre : forall l m x, (m <= l)%nat -> (l <= 3)%nat ->
  legendre (Z.of_nat l) x (Z.of_nat m)
  = Ok ((-1) ^ m * sqrt (1 - x ^ 2) ^ m * dleg x l m).
Proof.
  intros l m x Hm Hl.
  assert (H : (l = 0 \/ l = 1 \/ l = 2 \/ l = 3)%nat) by lia.
  destruct H as [->|[->|[->| ->]]].
  1: assert (m = 0)%nat by lia.
  2: assert (m = 0 \/ m = 1)%nat as [?|?] by lia.
  4: assert (m = 0 \/ m = 1 \/ m = 2)%nat as [?|[?|?]] by lia.
  7: assert (m = 0 \/ m = 1 \/ m = 2 \/ m = 3)%nat as [?|[?|[?|?]]] by lia.
  all: subst m; unfold legendre; rewrite !Nat2Z.id;
    cbn [Z.of_nat Pos.of_succ_nat Pos.succ Z.leb Z.compare Pos.compare Pos.compare_cont negb andb];
    f_equal; unfold plm_table; cbn [nth dleg INR pred]; generalize (sqrt (1 - x ^ 2)); intros u;
    try (replace 0.5 with (1 / 2) by lra); try (replace 1.5 with (3 / 2) by lra); field.
Qed.
Print Assumptions C55_legendre.

Theorem C55_legendre_rejects : forall l m x,
  ~ (0 <= m <= l /\ l <= 3)%Z -> legendre l x m = Err AssertionError.
Proof.
  intros l m x H; unfold legendre.
  destruct (0 <=? l)%Z eqn:A, (l <=? 3)%Z eqn:B; cbn [andb negb]; try reflexivity.
  destruct (0 <=? m)%Z eqn:C, (m <=? l)%Z eqn:D; cbn [andb negb]; try reflexivity; lia.
Qed.
Print Assumptions C55_legendre_rejects.
Example C55_case : legendre 2 (1/2) 0 = Ok (-1/8).
Proof.
  change 2%Z with (Z.of_nat 2); change 0%Z with (Z.of_nat 0).
  rewrite C55_legendre by lia; f_equal; cbn; lra.
Qed.

(** ** assoc_legendre *)
Lemma fact_INR_pos : forall n, 0 < INR (fact n).
Proof. intros; apply INR_fact_lt_0. Qed.

Lemma full_norm2_pos : forall l m, 0 < full_norm2 l m.
Proof.
  intros l m; unfold full_norm2; pose proof (fact_INR_pos (l - m)); pose proof (fact_INR_pos (l + m)).
  pose proof (pos_INR l); apply Rdiv_lt_0_compat; [|assumption].
  repeat apply Rmult_lt_0_compat; [destruct m; lra|lra|assumption].
Qed.

Lemma sqrt_prod3 : forall A B C E r, 0 <= A -> 0 <= B -> 0 <= C -> 0 <= E -> 0 <= r ->
  A * B * C = E * r ^ 2 -> sqrt A * sqrt B * sqrt C = sqrt E * r.
Proof.
  intros A B C E r HA HB HC HE Hr H.
  rewrite <- !sqrt_mult by auto using Rmult_le_pos.
  rewrite H, sqrt_mult, sqrt_pow2 by auto using pow_le; reflexivity.
Qed.

Lemma fact_S_INR : forall n, INR (fact (S n)) = (INR n + 1) * INR (fact n).
Proof. intros; rewrite fact_simpl, mult_INR, S_INR; ring. Qed.

(** a * norm * N_{l-1} with l = m + d + 1 *)
Lemma norm_a : forall m d, let l := (S (m + d))%nat in (1 <= m + d)%nat ->
  let L := INR l in let K := INR m in
  sqrt ((2 * L - 1) / ((L - K) * (L + K))) * sqrt (2 * L + 1) * full_norm (m + d) m
  = full_norm l m * ((2 * L - 1) / (L - K)).
Proof.
  intros m d l H1 L K; unfold L, K, l, full_norm; clear L K l.
  pose proof (pos_INR m); pose proof (pos_INR d).
  rewrite S_INR, plus_INR.
  apply sqrt_prod3.
  - apply Rlt_le, Rdiv_lt_0_compat; [|nra].
    assert (1 <= INR (m + d)) by (replace 1 with (INR 1) by reflexivity; apply le_INR; lia).
    rewrite plus_INR in H2; lra.
  - lra.
  - apply Rlt_le, full_norm2_pos.
  - apply Rlt_le, full_norm2_pos.
  - apply Rmult_le_pos; [|apply Rlt_le, Rinv_0_lt_compat; lra].
    assert (1 <= INR (m + d)) by (replace 1 with (INR 1) by reflexivity; apply le_INR; lia).
    rewrite plus_INR in H2; lra.
  - unfold full_norm2.
    replace (S (m + d) - m)%nat with (S d) by lia; replace (m + d - m)%nat with d by lia.
    replace (S (m + d) + m)%nat with (S (m + d + m)) by lia.
    rewrite !fact_S_INR, S_INR, !plus_INR.
    pose proof (fact_INR_pos d); pose proof (fact_INR_pos (m + d + m)).
    destruct m; field; repeat split; try lra; try nra.
Qed.

Lemma norm_b : forall m d, let l := (S (S (m + d)))%nat in
  let L := INR l in let K := INR m in
  sqrt ((L + K - 1) * (L - K - 1) / ((L - K) * (L + K) * (2 * L - 3))) * sqrt (2 * L + 1) * full_norm (m + d) m
  = full_norm l m * ((L + K - 1) / (L - K)).
Proof.
  intros m d l L K; unfold L, K, l, full_norm; clear L K l.
  pose proof (pos_INR m); pose proof (pos_INR d).
  rewrite !S_INR, plus_INR.
  apply sqrt_prod3.
  - apply Rlt_le, Rdiv_lt_0_compat; repeat apply Rmult_lt_0_compat; lra.
  - lra.
  - apply Rlt_le, full_norm2_pos.
  - apply Rlt_le, full_norm2_pos.
  - apply Rlt_le, Rdiv_lt_0_compat; lra.
  - unfold full_norm2.
    replace (S (S (m + d)) - m)%nat with (S (S d)) by lia; replace (m + d - m)%nat with d by lia.
    replace (S (S (m + d)) + m)%nat with (S (S (m + d + m))) by lia.
    rewrite !fact_S_INR, !S_INR, !plus_INR.
    pose proof (fact_INR_pos d); pose proof (fact_INR_pos (m + d + m)).
    destruct m; field; repeat split; try lra; try nra.
Qed.

Lemma sect_spec : forall x u l, sect u l = full_norm l l * u ^ l * dleg x l l.
Proof.
  intros x u l; induction l as [|l IH].
  - cbn [sect dleg pow]; unfold full_norm, full_norm2; cbn [Nat.sub Nat.add fact INR].
    replace (1 * (2 * 0 + 1) * 1 / 1) with 1 by field; rewrite sqrt_1; ring.
  - destruct l as [|l].
    + cbn [sect dleg pow]; unfold full_norm, full_norm2; cbn [Nat.sub Nat.add fact INR Nat.mul].
      replace (2 * (2 * 1 + 1) * 1 / (1 + 1)) with 3 by field; ring.
    + change (sect u (S (S l))) with
        (u * sqrt (2 * INR (S (S l)) + 1) * sqrt (1 / (2 * INR (S (S l)))) * sect u (S l)).
      rewrite IH, (dleg_diag x (S l)); clear IH.
      assert (E : sqrt (2 * INR (S (S l)) + 1) * sqrt (1 / (2 * INR (S (S l)))) * full_norm (S l) (S l)
                  = full_norm (S (S l)) (S (S l)) * (2 * INR (S l) + 1)).
      { pose proof (pos_INR l); unfold full_norm; apply sqrt_prod3.
        - rewrite !S_INR; lra.
        - apply Rlt_le, Rdiv_lt_0_compat; rewrite ?S_INR; lra.
        - apply Rlt_le, full_norm2_pos.
        - apply Rlt_le, full_norm2_pos.
        - rewrite S_INR; lra.
        - unfold full_norm2; rewrite !Nat.sub_diag; change (INR (fact 0)) with 1.
          replace (S (S l) + S (S l))%nat with (S (S (S l + S l))) by lia.
          assert (En : INR (S l + S l) = 2 * INR l + 2) by (rewrite plus_INR, S_INR; ring).
          revert En; generalize (S l + S l)%nat; intros n En.
          rewrite !fact_S_INR, !S_INR, !En.
          pose proof (fact_INR_pos n).
          field; repeat split; lra. }
      transitivity ((sqrt (2 * INR (S (S l)) + 1) * sqrt (1 / (2 * INR (S (S l)))) * full_norm (S l) (S l))
        * (u ^ S (S l) * dleg x (S l) (S l))); [cbn [pow]; ring|].
      rewrite E; cbn [pow]; ring.
Qed.

Lemma column_S : forall x u m l,
  column x u m (S l) =
   (if Nat.ltb (S l) m then 0 else if Nat.eqb (S l) m then sect u (S l)
    else if Nat.eqb (S l) 1 then sqrt 3 * x
    else step x (S l) m (fst (column x u m l)) (snd (column x u m l)), fst (column x u m l)).
Proof. intros; cbn [column]; destruct (column x u m l) as [p q]; reflexivity. Qed.

Lemma column_snd : forall x u m l, snd (column x u m (S l)) = fst (column x u m l).
Proof. intros; rewrite column_S; reflexivity. Qed.

Lemma entry_spec : forall x u m l, fst (column x u m l) =
  if Nat.ltb l m then 0 else full_norm l m * u ^ m * dleg x l m.
Proof.
  intros x u m l; induction l as [l IH] using lt_wf_ind.
  destruct l as [|l].
  - cbn [column fst]; destruct m as [|m]; [|reflexivity].
    cbn; unfold full_norm, full_norm2; cbn.
    replace (1 * (2 * 0 + 1) * 1 / 1) with 1 by field; rewrite sqrt_1; ring.
  - rewrite column_S; cbn [fst].
    destruct (Nat.ltb (S l) m) eqn:A; [reflexivity|apply Nat.ltb_ge in A].
    destruct (Nat.eqb (S l) m) eqn:B; [apply Nat.eqb_eq in B; subst; apply sect_spec|].
    apply Nat.eqb_neq in B.
    destruct (Nat.eqb (S l) 1) eqn:C.
    + apply Nat.eqb_eq in C; injection C as ->; assert (m = 0)%nat by lia; subst m.
      cbn [dleg pow]; unfold full_norm, full_norm2; cbn [Nat.sub Nat.add fact INR Nat.mul].
      replace (1 * (2 * 1 + 1) * 1 / 1) with 3 by field; ring.
    + apply Nat.eqb_neq in C; destruct l as [|l]; [lia|].
      rewrite column_snd.
      rewrite (IH (S l)), (IH l) by lia; clear IH.
      destruct (Nat.ltb (S l) m) eqn:D; [apply Nat.ltb_lt in D; lia|apply Nat.ltb_ge in D].
      pose proof (dleg_three x l m) as T.
      unfold step; cbv zeta.
      pose proof (norm_a m (S l - m)) as NA; cbv zeta in NA.
      replace (m + (S l - m))%nat with (S l) in NA by lia; specialize (NA ltac:(lia)).
      set (sa := sqrt ((2 * INR (S (S l)) - 1) / _)) in *.
      set (sb := sqrt ((INR (S (S l)) + INR m - 1) * _ / _)) in *.
      set (no := sqrt (2 * INR (S (S l)) + 1)) in *.
      assert (Hlm : INR m <= INR l + 1) by (rewrite <- S_INR; apply le_INR; lia).
      assert (T' : dleg x (S (S l)) m = ((2 * INR (S (S l)) - 1) / (INR (S (S l)) - INR m)) * x * dleg x (S l) m
         - ((INR (S (S l)) + INR m - 1) / (INR (S (S l)) - INR m)) * dleg x l m).
      { rewrite !S_INR; apply Rmult_eq_reg_l with (INR l + 2 - INR m); [|lra]; rewrite T; field; lra. }
      rewrite T'.
      replace (sa * no * x * (full_norm (S l) m * u ^ m * dleg x (S l) m))
        with ((sa * no * full_norm (S l) m) * (x * u ^ m * dleg x (S l) m)) by ring.
      rewrite NA.
      destruct (Nat.ltb l m) eqn:F.
      * apply Nat.ltb_lt in F; rewrite (dleg_high x l m) by lia; ring.
      * apply Nat.ltb_ge in F.
        pose proof (norm_b m (l - m)) as NB; cbv zeta in NB.
        replace (m + (l - m))%nat with l in NB by lia.
        replace (sb * no * (full_norm l m * u ^ m * dleg x l m))
          with ((sb * no * full_norm l m) * (u ^ m * dleg x l m)) by ring.
        unfold sb, no; rewrite NB; ring.
Qed.

(** Every entry of the table, for every degree and order, is the fully
    normalised associated Legendre function
    sqrt((2-[m=0])(2l+1)(l-m)!/(l+m)!) (1-x^2)^(m/2) d^m/dx^m P_l(x). *)
Theorem C55_assoc_legendre : forall lmax x, (1 <= lmax)%nat ->
  exists t, assoc_legendre lmax x = Ok t /\
    forall l m, (l <= lmax)%nat -> (m <= lmax)%nat ->
      exists r, nth_error t l = Some r /\
       nth_error r m = Some (if Nat.leb m l
          then full_norm l m * sqrt (1 - x ^ 2) ^ m * dleg x l m else 0).
Proof.
  intros lmax x H; unfold assoc_legendre.
  destruct (Nat.eqb lmax 0) eqn:E; [apply Nat.eqb_eq in E; lia|].
  eexists; split; [reflexivity|]; intros l m Hl Hm.
  eexists; split.
  - apply map_nth_error; rewrite nth_error_nth' with (d := O) by (rewrite seq_length; lia).
    rewrite seq_nth by lia; reflexivity.
  - cbn [Nat.add].
    rewrite (map_nth_error _ m (seq 0 (S lmax)) (d := m)).
    + unfold assoc_entry; rewrite entry_spec, Nat.ltb_antisym.
      destruct (Nat.leb m l); reflexivity.
    + rewrite nth_error_nth' with (d := O) by (rewrite seq_length; lia).
      rewrite seq_nth by lia; reflexivity.
Qed.
Print Assumptions C55_assoc_legendre.

(** Degree 0 alone cannot be requested. *)
Theorem C55_assoc_legendre_total_refuted : forall x, assoc_legendre 0 x = Err IndexError.
Proof. reflexivity. Qed.
Print Assumptions C55_assoc_legendre_total_refuted.

(** ** sph_harm *)
(** The harmonics in the Munk and Cartwright convention. *)
Definition Ylm (l m : nat) (theta phi : R) : cpx :=
  cscale (sqrt ((2 * INR l + 1) / (4 * PI)) * sqrt (INR (fact (l - m)) / INR (fact (l + m)))
          * ((-1) ^ m * Rabs (sin theta) ^ m * dleg (cos theta) l m)) (cexp (INR m * phi)).

(** What is returned is the harmonic times sin(theta). *)
Theorem C55_sph_harm_partial : forall l m theta phi, (m <= l)%nat -> (l <= 3)%nat ->
  sph_harm (Z.of_nat l) theta phi (Z.of_nat m) = Ok (cscale (sin theta) (Ylm l m theta phi)).
(* Missing: equality with the harmonic itself, which fails away from the equator. *)
Proof.
  intros l m theta phi Hm Hl; unfold sph_harm; rewrite C55_legendre by assumption; cbn [bind].
  f_equal; unfold Ylm, cscale, cre, cim, cexp; cbn [fst snd].
  replace (1 - cos theta ^ 2) with (sin theta * sin theta) by (pose proof (sin2_cos2' theta); lra).
  change (sin theta * sin theta) with (Rsqr (sin theta)); rewrite sqrt_Rsqr_abs.
  rewrite !INR_IZR_INZ.
  assert (F1 : sfact (Z.of_nat l - Z.of_nat m) = INR (fact (l - m))).
  { unfold sfact; destruct (_ <? 0)%Z eqn:B; [lia|]; repeat f_equal; lia. }
  assert (F2 : sfact (Z.of_nat l + Z.of_nat m) = INR (fact (l + m))).
  { unfold sfact; destruct (_ <? 0)%Z eqn:B; [lia|]; repeat f_equal; lia. }
  rewrite F1, F2, <- !INR_IZR_INZ; f_equal; ring.
Qed.
Print Assumptions C55_sph_harm_partial.

(** The degree 0 harmonic is not constant. *)
Theorem C55_sph_harm_refuted : exists theta phi z,
  sph_harm 0 theta phi 0 = Ok z /\ z <> Ylm 0 0 theta phi.
Proof.
  exists 0, 0.
  pose proof (C55_sph_harm_partial 0 0 0 0 (le_n _) ltac:(lia)) as E.
  cbn [Z.of_nat] in E; rewrite E, sin_0; eexists; split; [reflexivity|].
  unfold Ylm, cscale, cexp, cre, cim; cbn [fst snd pow dleg INR Nat.sub Nat.add fact].
  intros K; apply pair_equal_spec in K as [K _]; rewrite Rmult_0_l, Rmult_0_l, cos_0 in K.
  assert (0 < sqrt ((2 * 0 + 1) / (4 * PI))).
  { apply sqrt_lt_R0, Rdiv_lt_0_compat; pose proof PI_RGT_0; lra. }
  replace (1 / 1) with 1 in K by field; rewrite sqrt_1 in K; lra.
Qed.
Print Assumptions C55_sph_harm_refuted.
Example C55_sph_case : sph_harm 0 (PI / 2) 0 0 = Ok (Ylm 0 0 (PI / 2) 0).
Proof.
  pose proof (C55_sph_harm_partial 0 0 (PI / 2) 0 (le_n _) ltac:(lia)) as E.
  cbn [Z.of_nat] in E; rewrite E, sin_PI2; f_equal; unfold Ylm, cscale, cre, cim; cbn [fst snd].
  f_equal; ring.
Qed.
