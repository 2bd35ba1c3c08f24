From Coq Require Import String List Reals Lra Lia Bool Arith Permutation.
From Verif Require Import PyBase RBase PredictModel PredictSpec.
Import ListNotations.
Open Scope R_scope.

Section P.
Variable A : tide_args.
Variable corr : string.

Notation comp tm c z := (component (a_f A tm c) (theta A corr tm c) z).

(** Closed form of the accumulation. *)
Lemma accumulate_sum tm cs : forall row acc, (length cs <= length row)%nat ->
  accumulate A corr tm cs row acc =
  Ok (fst acc + rsum (map (fun p => comp tm (fst p) (fst (snd p))) (combine cs row)),
      snd acc || existsb (fun p => snd (snd p)) (combine cs row)).
Proof.
  induction cs as [|c cs IH]; intros row [h m] Hl; cbn [accumulate combine map rsum existsb].
  - rewrite Rplus_0_r, orb_false_r. reflexivity.
  - destruct row as [|[z mz] row]; cbn in Hl; [lia|].
    rewrite IH by lia. cbn [combine map rsum existsb fst snd].
    f_equal. f_equal; [ring|]. now rewrite orb_assoc.
Qed.

Lemma accumulate_short tm cs : forall row acc, (length row < length cs)%nat ->
  accumulate A corr tm cs row acc = Err IndexError.
Proof.
  induction cs as [|c cs IH]; intros row acc Hl; cbn in Hl; [lia|].
  destruct row as [|[z mz] row]; cbn; auto. apply IH. cbn in Hl. lia.
Qed.

Lemma point_sum tm cs row : (length cs <= length row)%nat ->
  point A corr tm cs row =
  Ok (rsum (map (fun p => comp tm (fst p) (fst (snd p))) (combine cs row)),
      existsb (fun p => snd (snd p)) (combine cs row)).
Proof.
  intros H. unfold point. rewrite accumulate_sum by auto. cbn. now rewrite Rplus_0_l.
Qed.

Lemma rsum_app l l' : rsum (l ++ l') = rsum l + rsum l'.
Proof. induction l as [|x l IH]; cbn; [ring|rewrite IH; ring]. Qed.

Lemma rsum_perm l l' : Permutation l l' -> rsum l = rsum l'.
Proof. induction 1; cbn; lra. Qed.

Lemma existsb_perm {X} (f : X -> bool) l l' : Permutation l l' -> existsb f l = existsb f l'.
Proof.
  induction 1; cbn; auto; try congruence.
  destruct (f x), (f y); reflexivity.
Qed.

Lemma component_lin pf th a b z1 z2 :
  component pf th (cadd (cscale a z1) (cscale b z2)) =
  a * component pf th z1 + b * component pf th z2.
Proof. unfold component, cadd, cscale, cre, cim; simpl. ring. Qed.

(** linearity at one point *)
Lemma point_lin tm cs a b : forall r1 r2 v1 m1 v2 m2,
  length r1 = length r2 ->
  point A corr tm cs r1 = Ok (v1, m1) -> point A corr tm cs r2 = Ok (v2, m2) ->
  point A corr tm cs (lin_row a b r1 r2) = Ok (a * v1 + b * v2, m1 || m2).
Proof.
  intros r1 r2 v1 m1 v2 m2 HL H1 H2.
  assert (L1 : (length cs <= length r1)%nat).
  { destruct (le_lt_dec (length cs) (length r1)); auto.
    unfold point in H1. rewrite accumulate_short in H1 by lia. discriminate. }
  rewrite point_sum in H1, H2 by lia.
  assert (L3 : length (lin_row a b r1 r2) = length r1).
  { unfold lin_row. rewrite map_length, combine_length. lia. }
  rewrite point_sum by lia.
  injection H1 as <- <-. injection H2 as <- <-. f_equal.
  clear L1 L3. revert r1 r2 HL. induction cs as [|c cs' IH]; intros r1 r2 HL.
  - cbn. f_equal. ring.
  - destruct r1 as [|[z1 k1] r1], r2 as [|[z2 k2] r2]; cbn in HL; try lia.
    + cbn. f_equal. ring.
    + specialize (IH r1 r2 ltac:(lia)). cbn. injection IH as E1 E2.
      unfold lin_row in *. rewrite E1, E2, component_lin. f_equal; [ring|].
      destruct k1, k2; cbn; auto using orb_true_r.
Qed.

Lemma mapM_Forall2 {X Y} (f : X -> res Y) l l' :
  mapM f l = Ok l' <-> Forall2 (fun x y => f x = Ok y) l l'.
Proof.
  revert l'. induction l as [|x l IH]; intros l'; cbn [mapM].
  - split; [intros <-%Ok_inj; constructor|inversion 1; auto].
  - split.
    + destruct (f x) as [y|] eqn:E; cbn [bind]; [|discriminate].
      destruct (mapM f l) as [ys|] eqn:E2; cbn [bind]; [|discriminate].
      intros <-%Ok_inj. constructor; auto. now apply IH.
    + inversion 1; subst. rewrite H2. cbn [bind]. apply IH in H4. now rewrite H4.
Qed.

Lemma Forall2_length' {X Y} (P : X -> Y -> Prop) l l' : Forall2 P l l' -> length l = length l'.
Proof. induction 1; cbn; auto. Qed.

Lemma lin_hc_length a b h1 h2 : same_shape h1 h2 -> length (lin_hc a b h1 h2) = length h1.
Proof.
  intros H. apply Forall2_length' in H. unfold lin_hc. rewrite map_length, combine_length. lia.
Qed.

Lemma map_lin tm cs a b h1 h2 o1 o2 :
  same_shape h1 h2 ->
  predict_map A corr tm h1 cs = Ok o1 -> predict_map A corr tm h2 cs = Ok o2 ->
  predict_map A corr tm (lin_hc a b h1 h2) cs = Ok (lin_out a b o1 o2).
Proof.
  unfold predict_map. destruct (check_known A cs); cbn [bind]; try discriminate.
  intros HS H1 H2. rewrite mapM_Forall2 in *.
  revert h2 o1 o2 HS H1 H2. induction h1 as [|r1 h1 IH]; intros h2 o1 o2 HS H1 H2;
    inversion HS; subst; inversion H1; subst; inversion H2; subst; unfold lin_hc, lin_out; cbn.
  - constructor.
  - destruct y0 as [v1 m1], y1 as [v2 m2]. constructor; cbn.
    + apply point_lin; auto.
    + apply IH; auto.
Qed.

Lemma mapM_lin_times cs a b r1 r2 ts : forall o1 o2,
  length r1 = length r2 ->
  mapM (fun tm => point A corr tm cs r1) ts = Ok o1 ->
  mapM (fun tm => point A corr tm cs r2) ts = Ok o2 ->
  mapM (fun tm => point A corr tm cs (lin_row a b r1 r2)) ts = Ok (lin_out a b o1 o2).
Proof.
  intros o1 o2 HL H1 H2. rewrite mapM_Forall2 in *. revert o1 o2 H1 H2.
  induction ts as [|t ts IH]; intros o1 o2 H1 H2; inversion H1; subst; inversion H2; subst;
    unfold lin_out; cbn; constructor.
  - destruct y as [v1 m1], y0 as [v2 m2]. cbn. now apply point_lin.
  - now apply IH.
Qed.

Lemma time_series_lin ts cs a b h1 h2 o1 o2 :
  same_shape h1 h2 ->
  predict_time_series A corr ts h1 cs = Ok o1 -> predict_time_series A corr ts h2 cs = Ok o2 ->
  predict_time_series A corr ts (lin_hc a b h1 h2) cs = Ok (lin_out a b o1 o2).
Proof.
  unfold predict_time_series. destruct (check_known A cs); cbn [bind]; try discriminate.
  intros HS H1 H2. destruct cs as [|c cs].
  - assert (E1 : o1 = map (fun _ => (0, false)) ts) by (destruct h1; apply Ok_inj in H1; auto).
    assert (E2 : o2 = map (fun _ => (0, false)) ts) by (destruct h2; apply Ok_inj in H2; auto).
    subst. assert (G : Ok (map (fun _ : time => (0, false)) ts) =
      Ok (lin_out a b (map (fun _ => (0, false)) ts) (map (fun _ => (0, false)) ts))).
    { f_equal. unfold lin_out. induction ts as [|t ts IH]; cbn; auto.
      rewrite <- IH; [|destruct h1; auto|destruct h2; auto]. f_equal. f_equal. ring. }
    destruct (lin_hc a b h1 h2); exact G.
  - inversion HS; subst; [discriminate|].
    change (lin_hc a b (x :: l) (y :: l')) with (lin_row a b x y :: lin_hc a b l l').
    now apply mapM_lin_times.
Qed.

Lemma drift_lin ts cs a b h1 h2 o1 o2 :
  same_shape h1 h2 ->
  predict_drift A corr ts h1 cs = Ok o1 -> predict_drift A corr ts h2 cs = Ok o2 ->
  predict_drift A corr ts (lin_hc a b h1 h2) cs = Ok (lin_out a b o1 o2).
Proof.
  unfold predict_drift. destruct (check_known A cs); cbn [bind]; try discriminate.
  intros HS. pose proof (lin_hc_length a b _ _ HS) as HL3.
  pose proof (Forall2_length' _ _ _ HS) as HL.
  assert (Main : mapM (fun p => point A corr (fst p) cs (snd p)) (combine ts h1) = Ok o1 ->
     mapM (fun p => point A corr (fst p) cs (snd p)) (combine ts h2) = Ok o2 ->
     mapM (fun p => point A corr (fst p) cs (snd p)) (combine ts (lin_hc a b h1 h2)) = Ok (lin_out a b o1 o2)).
  { clear HL HL3. intros H1 H2. rewrite mapM_Forall2 in *.
    revert ts h2 o1 o2 HS H1 H2.
    induction h1 as [|r1 h1 IH]; intros ts h2 o1 o2 HS H1 H2.
    - inversion HS; subst. destruct ts; inversion H1; inversion H2; subst; constructor.
    - inversion HS; subst. destruct ts as [|t ts].
      + inversion H1; inversion H2; subst. constructor.
      + inversion H1; subst; inversion H2; subst. unfold lin_hc, lin_out; cbn. constructor.
        * destruct y0 as [v1 m1], y1 as [v2 m2]; cbn in *. now apply point_lin.
        * now apply IH. }
  assert (Zero : cs = [] -> forall n : list time, lin_out a b (map (fun _ => (0, false)) n) (map (fun _ => (0, false)) n)
            = map (fun _ => (0, false)) n).
  { intros _ n. unfold lin_out. induction n as [|t n IH]; cbn; auto.
    rewrite IH. f_equal. f_equal. ring. }
  destruct h1 as [|r1 [|r1' h1]]; destruct h2 as [|r2 [|r2' h2]]; cbn in HL; try lia.
  - cbn [lin_hc combine map length]. destruct (0 =? length ts)%nat eqn:E.
    + cbn [lin_hc combine map] in Main. exact Main.
    + destruct cs; [|discriminate]. intros <-%Ok_inj <-%Ok_inj. f_equal. symmetry. now apply Zero.
  - cbn [lin_hc combine map]. intros H1 H2. apply mapM_lin_times; auto.
    now inversion HS.
  - rewrite HL3. change (lin_hc a b (r1 :: r1' :: h1) (r2 :: r2' :: h2)) with
      (lin_row a b r1 r2 :: lin_row a b r1' r2' :: lin_hc a b h1 h2) in *.
    cbn [length] in *. replace (length h2) with (length h1) by lia.
    destruct (S (S (length h1)) =? length ts)%nat eqn:E; auto.
    destruct cs; [|discriminate]. intros <-%Ok_inj <-%Ok_inj. f_equal. symmetry. now apply Zero.
Qed.

(** Zero constants *)
Lemma component_zero pf th : component pf th (0, 0) = 0.
Proof. unfold component, cre, cim; simpl. ring. Qed.

Lemma point_zero tm cs row v m :
  Forall (fun z => fst z = (0, 0)) row -> point A corr tm cs row = Ok (v, m) -> v = 0.
Proof.
  intros HZ H.
  assert (L1 : (length cs <= length row)%nat).
  { destruct (le_lt_dec (length cs) (length row)); auto.
    unfold point in H. rewrite accumulate_short in H by lia. discriminate. }
  rewrite point_sum in H by auto. injection H as <- _.
  clear L1. revert row HZ. induction cs as [|c cs' IH]; intros row HZ; cbn; auto.
  inversion HZ; subst; cbn; auto. rewrite H, component_zero, IH by auto. ring.
Qed.

(** order independence at one point *)
Lemma point_perm tm cs row cs' row' :
  length cs = length row -> length cs' = length row' ->
  Permutation (combine cs row) (combine cs' row') ->
  point A corr tm cs row = point A corr tm cs' row'.
Proof.
  intros H1 H2 HP. rewrite !point_sum by lia. f_equal. f_equal.
  - apply rsum_perm. now apply Permutation_map.
  - now apply existsb_perm.
Qed.

Lemma combine_app {X Y} (l1 l2 : list X) (r1 r2 : list Y) :
  length l1 = length r1 -> combine (l1 ++ l2) (r1 ++ r2) = combine l1 r1 ++ combine l2 r2.
Proof.
  revert r1; induction l1 as [|x l1 IH]; intros [|y r1] H; cbn in *; try lia; auto.
  now rewrite IH by lia.
Qed.

Lemma point_concat tm cs1 cs2 row1 row2 v1 m1 v2 m2 :
  length cs1 = length row1 ->
  point A corr tm cs1 row1 = Ok (v1, m1) -> point A corr tm cs2 row2 = Ok (v2, m2) ->
  point A corr tm (cs1 ++ cs2) (row1 ++ row2) = Ok (v1 + v2, m1 || m2).
Proof.
  intros HL H1 H2.
  assert (L1 : (length cs2 <= length row2)%nat).
  { destruct (le_lt_dec (length cs2) (length row2)); auto.
    unfold point in H2. rewrite accumulate_short in H2 by lia. discriminate. }
  rewrite point_sum in H1, H2 by lia. injection H1 as <- <-. injection H2 as <- <-.
  rewrite point_sum by (rewrite !app_length; lia).
  rewrite combine_app by auto. now rewrite map_app, rsum_app, existsb_app.
Qed.

(** cosine form *)
Lemma component_cos pf th amp ph :
  component pf th (constant amp ph) = pf * amp * cos (th - ph).
Proof. unfold component, constant, cre, cim; simpl. rewrite cos_minus. ring. Qed.

Lemma constant_polar z : z = constant (cabs z) (- carg z).
Proof.
  rewrite (cpx_polar z) at 1. unfold constant, cscale, cexp, cre, cim. simpl.
  rewrite cos_neg, sin_neg. f_equal. ring.
Qed.

Lemma component_bound pf th z : Rabs (component pf th z) <= Rabs pf * cabs z.
Proof.
  rewrite (constant_polar z) at 1. rewrite component_cos, !Rabs_mult.
  rewrite (Rabs_right (cabs z)) by (apply Rle_ge, cabs_nonneg).
  pose proof (COS_bound (th - - carg z)) as [B1 B2].
  assert (Rabs (cos (th - - carg z)) <= 1) by (apply Rabs_le; lra).
  pose proof (Rabs_pos pf). pose proof (cabs_nonneg z).
  rewrite <- (Rmult_1_r (Rabs pf * cabs z)) at 2.
  apply Rmult_le_compat_l; auto. now apply Rmult_le_pos.
Qed.

Lemma point_bound tm cs row v m :
  point A corr tm cs row = Ok (v, m) ->
  Rabs v <= rsum (map (fun p => Rabs (a_f A tm (fst p)) * cabs (fst (snd p))) (combine cs row)).
Proof.
  intros H.
  assert (L1 : (length cs <= length row)%nat).
  { destruct (le_lt_dec (length cs) (length row)); auto.
    unfold point in H. rewrite accumulate_short in H by lia. discriminate. }
  rewrite point_sum in H by auto. injection H as <- _.
  induction (combine cs row) as [|[c [z mz]] l IH]; cbn.
  - rewrite Rabs_R0. lra.
  - eapply Rle_trans; [apply Rabs_triang|]. apply Rplus_le_compat; auto. apply component_bound.
Qed.

(** mask *)
Lemma point_mask tm cs row v m :
  length cs = length row -> point A corr tm cs row = Ok (v, m) ->
  (m = true <-> exists z, In (z, true) row).
Proof.
  intros HL H. rewrite point_sum in H by lia. injection H as _ <-.
  rewrite existsb_exists. split.
  - intros ((c & z & mz) & Hin & Hm). cbn in Hm. subst mz.
    apply in_combine_r in Hin. eauto.
  - intros [z Hin]. destruct (In_nth _ _ (z, true) Hin) as (k & Hk & E).
    exists (nth k cs ""%string, (z, true)). split; auto.
    pose proof (combine_nth cs row k ""%string (z, true) HL) as C. rewrite E in C.
    rewrite <- C. apply nth_In. rewrite combine_length. lia.
Qed.

(** agreement of the predictors *)
Lemma Forall2_nth_error {X Y} (P : X -> Y -> Prop) l l' i x :
  Forall2 P l l' -> nth_error l i = Some x -> exists y, nth_error l' i = Some y /\ P x y.
Proof.
  intros H. revert i; induction H; intros [|i] Hi; cbn in *; try discriminate.
  - injection Hi as <-. eauto.
  - eauto.
Qed.

Lemma drift_point ts hc cs out i tm row :
  length ts = length hc ->
  predict_drift A corr ts hc cs = Ok out ->
  nth_error ts i = Some tm -> nth_error hc i = Some row ->
  exists v, nth_error out i = Some v /\ point A corr tm cs row = Ok v /\ length out = length ts.
Proof.
  unfold predict_drift. destruct (check_known A cs); cbn [bind]; try discriminate.
  intros HL H Ht Hr.
  assert (Main : mapM (fun p => point A corr (fst p) cs (snd p)) (combine ts hc) = Ok out ->
     exists v, nth_error out i = Some v /\ point A corr tm cs row = Ok v /\ length out = length ts).
  { clear H. intros H. rewrite mapM_Forall2 in H.
    assert (E : nth_error (combine ts hc) i = Some (tm, row)).
    { clear H HL. revert ts hc Ht Hr. induction i; intros [|t ts] [|r hc] Ht Hr; cbn in *; try discriminate.
      - congruence. - auto. }
    destruct (Forall2_nth_error _ _ _ _ _ H E) as (v & V1 & V2).
    exists v. repeat split; auto. rewrite <- (Forall2_length' _ _ _ H), combine_length. lia. }
  destruct hc as [|r [|r' hc]].
  - destruct i; discriminate.
  - rewrite mapM_Forall2 in H.
    destruct ts as [|t [|? ?]]; cbn in HL; try lia.
    destruct i as [|i]; [|destruct i; discriminate]. cbn in Ht, Hr.
    injection Ht as ->. injection Hr as ->. inversion H; subst.
    inversion H4; subst. exists y. auto.
  - rewrite <- HL, Nat.eqb_refl in H. auto.
Qed.

Lemma map_point tm hc cs out i row :
  predict_map A corr tm hc cs = Ok out -> nth_error hc i = Some row ->
  exists v, nth_error out i = Some v /\ point A corr tm cs row = Ok v /\ length out = length hc.
Proof.
  unfold predict_map. destruct (check_known A cs); cbn [bind]; try discriminate.
  rewrite mapM_Forall2. intros H Hr.
  destruct (Forall2_nth_error _ _ _ _ _ H Hr) as (v & V1 & V2).
  exists v. repeat split; auto. now rewrite <- (Forall2_length' _ _ _ H).
Qed.

Lemma time_series_point ts row rows cs out i tm :
  predict_time_series A corr ts (row :: rows) cs = Ok out -> nth_error ts i = Some tm ->
  exists v, nth_error out i = Some v /\ point A corr tm cs row = Ok v /\ length out = length ts.
Proof.
  unfold predict_time_series. destruct (check_known A cs); cbn [bind]; try discriminate.
  intros H Ht. destruct cs as [|c cs].
  - apply Ok_inj in H. subst out. exists (0, false). repeat split.
    + rewrite nth_error_map, Ht. reflexivity.
    + now rewrite map_length.
  - rewrite mapM_Forall2 in H.
    destruct (Forall2_nth_error _ _ _ _ _ H Ht) as (v & V1 & V2).
    exists v. repeat split; auto. now rewrite <- (Forall2_length' _ _ _ H).
Qed.

Lemma point_ok tm cs row : (length cs <= length row)%nat -> is_ok (point A corr tm cs row) = true.
Proof. intros H. now rewrite point_sum by auto. Qed.

Lemma drift_eq ts hc cs : length ts = length hc ->
  predict_drift A corr ts hc cs =
  bind (check_known A cs) (fun _ => mapM (fun p => point A corr (fst p) cs (snd p)) (combine ts hc)).
Proof.
  intros HL. unfold predict_drift. destruct (check_known A cs); cbn [bind]; auto.
  destruct hc as [|r [|r' hc]].
  - rewrite HL, Nat.eqb_refl. reflexivity.
  - destruct ts as [|t [|]]; cbn in HL; try lia. reflexivity.
  - rewrite HL, Nat.eqb_refl. reflexivity.
Qed.

Lemma time_series_eq ts row rows cs :
  predict_time_series A corr ts (row :: rows) cs =
  bind (check_known A cs) (fun _ => mapM (fun tm => point A corr tm cs row) ts).
Proof.
  unfold predict_time_series. destruct (check_known A cs); cbn [bind]; auto.
  destruct cs; auto. induction ts as [|t ts IH]; auto.
  cbn [mapM map]. rewrite <- IH. reflexivity.
Qed.

Lemma mapM_ext {X Y} (f g : X -> res Y) l : (forall x, In x l -> f x = g x) -> mapM f l = mapM g l.
Proof.
  induction l as [|x l IH]; intros H; cbn; auto. rewrite (H x) by now left.
  rewrite IH; auto. intros; apply H; now right.
Qed.

Lemma mapM_combine_perm cs cs' hc hc' :
  (forall tm r r', length cs = length r /\ length cs' = length r' /\
                       Permutation (combine cs r) (combine cs' r') ->
     point A corr tm cs r = point A corr tm cs' r') ->
  Forall2 (fun r r' => length cs = length r /\ length cs' = length r' /\
                       Permutation (combine cs r) (combine cs' r')) hc hc' ->
  forall ts, mapM (fun p => point A corr (fst p) cs (snd p)) (combine ts hc) =
       mapM (fun p => point A corr (fst p) cs' (snd p)) (combine ts hc').
Proof.
  intros Pt. induction 1; intros [|t ts']; cbn; auto. now rewrite (Pt t x y), IHForall2 by auto.
Qed.

Lemma mapM_concat {X} (f1 f2 f3 : X -> res (R * bool)) l :
  (forall x v1 m1 v2 m2, In x l -> f1 x = Ok (v1, m1) -> f2 x = Ok (v2, m2) -> f3 x = Ok (v1 + v2, m1 || m2)) ->
  forall o1 o2, mapM f1 l = Ok o1 -> mapM f2 l = Ok o2 ->
  mapM f3 l = Ok (map (fun p => (fst (fst p) + fst (snd p), snd (fst p) || snd (snd p))) (combine o1 o2)).
Proof.
  intros H. induction l as [|x l IH]; intros o1 o2 H1 H2; rewrite mapM_Forall2 in *.
  - inversion H1; inversion H2; constructor.
  - inversion H1; subst; inversion H2; subst. destruct y as [v1 m1], y0 as [v2 m2]. cbn. constructor.
    + apply H; auto. now left.
    + apply mapM_Forall2. apply IH; try (now apply mapM_Forall2).
      intros; apply H; auto; now right.
Qed.

Lemma mapM_map {X Y W} (f : Y -> res W) (g : X -> Y) l : mapM f (map g l) = mapM (fun x => f (g x)) l.
Proof. induction l as [|x l IH]; cbn; auto. now rewrite IH. Qed.

(** ** Fit *)

Definition params (off : R) (h : list cpx) : list R :=
  off :: flat_map (fun z => [cre z; cim z]) h.

Lemma params_length off h : length (params off h) = (1 + 2 * length h)%nat.
Proof. unfold params. cbn. f_equal. induction h; cbn; lia. Qed.

Lemma design_dot tm cs : forall h off, length h = length cs ->
  dot (design_row A corr cs tm) (params off h) =
  off + rsum (map (fun p => comp tm (fst p) (snd p)) (combine cs h)).
Proof.
  intros h off HL. unfold design_row, params. cbn [dot]. rewrite Rmult_1_l. f_equal.
  revert h HL. induction cs as [|c cs IH]; intros [|z h] HL; cbn in HL; try lia; cbn; auto.
  rewrite IH by lia. unfold component. ring.
Qed.

Lemma sq_res_nonneg M y p : 0 <= sq_res M y p.
Proof.
  unfold sq_res. induction (combine M y) as [|[r v] l IH]; cbn; [lra|].
  pose proof (Rle_0_sqr (v - dot r p)) as H. unfold Rsqr in H. lra.
Qed.

Lemma sq_res_zero_iff M y p : length M = length y ->
  (sq_res M y p = 0 <-> forall i r v, nth_error M i = Some r -> nth_error y i = Some v -> v = dot r p).
Proof.
  revert y; induction M as [|r M IH]; intros [|v y] HL; cbn in HL; try lia.
  - split; [intros _ [|i] ? ?; discriminate|reflexivity].
  - assert (HLL : length M = length y) by lia. specialize (IH y HLL).
    unfold sq_res in *. cbn. pose proof (sq_res_nonneg M y p) as P. unfold sq_res in P.
    pose proof (Rle_0_sqr (v - dot r p)) as Sq. unfold Rsqr in Sq. split.
    + intros H. assert (E1 : (v - dot r p) * (v - dot r p) = 0) by lra.
      assert (E2 : rsum (map (fun q => (snd q - dot (fst q) p) * (snd q - dot (fst q) p)) (combine M y)) = 0) by lra.
      apply Rmult_integral in E1.
      intros [|i] r' v' Hr Hv; cbn in *.
      * injection Hr as <-. injection Hv as <-. lra.
      * apply (proj1 IH E2 i); auto.
    + intros H. pose proof (H 0%nat r v eq_refl eq_refl) as E. rewrite E at 1 2.
      assert (E2 : rsum (map (fun q => (snd q - dot (fst q) p) * (snd q - dot (fst q) p)) (combine M y)) = 0).
      { apply IH. intros i r' v' Hr Hv. apply (H (S i)); auto. }
      rewrite E2. ring.
Qed.

Lemma lsq_exact n M y p q :
  length M = length y -> least_squares n M y p -> length q = n ->
  (forall i r v, nth_error M i = Some r -> nth_error y i = Some v -> v = dot r q) ->
  forall r, In r M -> dot r p = dot r q.
Proof.
  intros HL [Hp Hmin] Hq Hex r Hr.
  assert (Z : sq_res M y q = 0) by (apply sq_res_zero_iff; auto).
  assert (Zp : sq_res M y p = 0).
  { pose proof (Hmin q Hq). pose proof (sq_res_nonneg M y p). lra. }
  destruct (In_nth_error _ _ Hr) as [i Hi].
  assert (Hv : exists v, nth_error y i = Some v).
  { destruct (nth_error y i) eqn:E; eauto. apply nth_error_None in E.
    assert (nth_error M i <> None) by congruence. apply nth_error_Some in H. lia. }
  destruct Hv as [v Hv].
  pose proof (proj1 (sq_res_zero_iff M y p HL) Zp i r v Hi Hv).
  pose proof (Hex i r v Hi Hv). congruence.
Qed.

Lemma amp_phase_spec a b :
  let '(amp, ph) := amp_phase a b in
  amp = cabs (a, b) /\ 0 <= ph < 360 /\ constant amp (ph * PI / 180) = (a, b).
Proof.
  unfold amp_phase. set (t := atan2 (- b) a).
  pose proof (atan2_range (- b) a) as R. fold t in R. pose proof PI_RGT_0 as Pi.
  assert (Hc : cabs (a, b) * cos t = a).
  { unfold cabs, cre, cim; simpl. replace (b * b) with (- b * - b) by ring. apply atan2_cos. }
  assert (Hs : - (cabs (a, b) * sin t) = b).
  { unfold cabs, cre, cim; simpl. replace (b * b) with (- b * - b) by ring.
    unfold t. rewrite atan2_sin. ring. }
  assert (B : -180 < t * 180 / PI <= 180).
  { split.
    - apply Rmult_lt_reg_r with PI; auto. unfold Rdiv. rewrite Rmult_assoc, Rinv_l by lra. lra.
    - apply Rmult_le_reg_r with PI; auto. unfold Rdiv. rewrite Rmult_assoc, Rinv_l by lra. lra. }
  destruct (Rlt_dec (t * 180 / PI) 0); repeat split; try lra.
  - unfold constant. replace ((t * 180 / PI + 360) * PI / 180) with (t + 2 * IZR 1 * PI)
      by (field; lra). rewrite cos_turns, sin_turns. now rewrite Hc, Hs.
  - unfold constant. replace (t * 180 / PI * PI / 180) with t by (field; lra).
    now rewrite Hc, Hs.
Qed.

Lemma amp_phases_params (h : list cpx) :
  amp_phases (flat_map (fun z => [cre z; cim z]) h) = map (fun z => amp_phase (cre z) (cim z)) h.
Proof. induction h as [|z h IH]; cbn; auto. now rewrite IH. Qed.

Lemma amp_phases_range p x : In x (amp_phases p) -> 0 <= fst x /\ 0 <= snd x < 360.
Proof.
  remember (length p) as n eqn:Hn. revert p Hn.
  induction n as [n IH] using lt_wf_ind. intros [|a [|b p]] Hn; cbn; try tauto.
  intros [<-|H].
  - pose proof (amp_phase_spec a b) as S. destruct (amp_phase a b) as [amp ph]. cbn.
    destruct S as (-> & H & _). split; auto. apply cabs_nonneg.
  - apply (IH (length p)) with p; auto. cbn in Hn. lia.
Qed.

Lemma amp_phases_length p k : length p = (2 * k)%nat -> length (amp_phases p) = k.
Proof.
  revert p; induction k as [|k IH]; intros [|a [|b p]] H; cbn in *; try lia.
  rewrite (IH p); lia.
Qed.
End P.
