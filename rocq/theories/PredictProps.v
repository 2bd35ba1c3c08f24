(** Property theorems C01-C06: prediction and harmonic fit.
    All statements hold for every [tide_args], i.e. whatever the nodal and
    equilibrium arguments are. *)
From Coq Require Import String List Reals Lra Lia Bool Arith Permutation.
From Verif Require Import PyBase RBase PredictModel PredictSpec PredictProofs.
Import ListNotations.
Open Scope R_scope.

(** A small concrete set of arguments used by the examples. *)
Definition toy : tide_args := {|
  a_known := fun c => existsb (String.eqb c) ["m2"; "k1"]%string;
  a_u := fun _ _ => 0; a_f := fun _ _ => 2;
  a_G := fun tm c => 360 * fst tm; a_omega := fun _ => 1; a_phase := fun _ => 0 |}.

(** * C01 *)
Theorem C01_map_linear :
  forall A corr tm cs a b h1 h2 o1 o2, same_shape h1 h2 ->
  predict_map A corr tm h1 cs = Ok o1 -> predict_map A corr tm h2 cs = Ok o2 ->
  predict_map A corr tm (lin_hc a b h1 h2) cs = Ok (lin_out a b o1 o2).
Proof. exact map_lin. Qed.
Print Assumptions C01_map_linear.

Theorem C01_drift_linear :
  forall A corr ts cs a b h1 h2 o1 o2, same_shape h1 h2 ->
  predict_drift A corr ts h1 cs = Ok o1 -> predict_drift A corr ts h2 cs = Ok o2 ->
  predict_drift A corr ts (lin_hc a b h1 h2) cs = Ok (lin_out a b o1 o2).
Proof. exact drift_lin. Qed.
Print Assumptions C01_drift_linear.

Theorem C01_time_series_linear :
  forall A corr ts cs a b h1 h2 o1 o2, same_shape h1 h2 ->
  predict_time_series A corr ts h1 cs = Ok o1 -> predict_time_series A corr ts h2 cs = Ok o2 ->
  predict_time_series A corr ts (lin_hc a b h1 h2) cs = Ok (lin_out a b o1 o2).
Proof. exact time_series_lin. Qed.
Print Assumptions C01_time_series_linear.

Definition all_zero (hc : list (list (cpx * bool))) : Prop :=
  Forall (Forall (fun z => fst z = (0, 0))) hc.

Theorem C01_zero_constants_zero_tide :
  forall A corr hc cs, all_zero hc ->
  (forall tm out v, predict_map A corr tm hc cs = Ok out -> In v out -> fst v = 0) /\
  (forall ts out v, length ts = length hc ->
     predict_drift A corr ts hc cs = Ok out -> In v out -> fst v = 0) /\
  (forall ts out v, hc <> [] -> predict_time_series A corr ts hc cs = Ok out -> In v out -> fst v = 0).
Proof.
  intros A corr hc cs HZ. unfold all_zero in HZ. rewrite Forall_forall in HZ. repeat split.
  - intros tm out v H Hv. destruct (In_nth_error _ _ Hv) as [i Hi].
    assert (Hr : exists row, nth_error hc i = Some row).
    { destruct (nth_error hc i) eqn:E; eauto. apply nth_error_None in E.
      assert (length out = length hc).
      { unfold predict_map in H. destruct (check_known A cs); cbn [bind] in H; [|discriminate].
        apply mapM_Forall2 in H. symmetry. now apply Forall2_length' in H. }
      assert (nth_error out i <> None) by congruence. apply nth_error_Some in H1. lia. }
    destruct Hr as [row Hr]. destruct (map_point _ _ _ _ _ _ _ _ H Hr) as (v' & V1 & V2 & _).
    assert (v' = v) by congruence. subst. destruct v. refine (point_zero A corr _ cs row _ _ _ V2).
    apply HZ. eapply nth_error_In; eauto.
  - intros ts out v HL H Hv. destruct (In_nth_error _ _ Hv) as [i Hi].
    assert (Hlen : length out = length ts).
    { unfold predict_drift in H. destruct (check_known A cs); cbn [bind] in H; [|discriminate].
      destruct hc as [|r [|r' hc]].
      - rewrite <- HL, Nat.eqb_refl in H. apply mapM_Forall2, Forall2_length' in H.
        rewrite combine_length in H. cbn in *. lia.
      - apply mapM_Forall2, Forall2_length' in H. lia.
      - rewrite <- HL, Nat.eqb_refl in H. apply mapM_Forall2, Forall2_length' in H.
        rewrite combine_length in H. lia. }
    assert (Hii : (i < length ts)%nat).
    { rewrite <- Hlen. apply nth_error_Some. congruence. }
    destruct (nth_error ts i) as [tm|] eqn:Et; [|apply nth_error_None in Et; lia].
    destruct (nth_error hc i) as [row|] eqn:Er; [|apply nth_error_None in Er; lia].
    destruct (drift_point _ _ _ _ _ _ _ _ _ HL H Et Er) as (v' & V1 & V2 & _).
    assert (v' = v) by congruence. subst. destruct v. refine (point_zero A corr _ cs row _ _ _ V2).
    apply HZ. eapply nth_error_In; eauto.
  - intros ts out v Hne H Hv. destruct hc as [|row hc]; [congruence|].
    destruct (In_nth_error _ _ Hv) as [i Hi].
    assert (Hlen : length out = length ts).
    { unfold predict_time_series in H. destruct (check_known A cs); cbn [bind] in H; [|discriminate].
      destruct cs.
      - apply Ok_inj in H. subst. apply map_length.
      - apply mapM_Forall2, Forall2_length' in H. lia. }
    assert (Hii : (i < length ts)%nat).
    { rewrite <- Hlen. apply nth_error_Some. congruence. }
    destruct (nth_error ts i) as [tm|] eqn:Et; [|apply nth_error_None in Et; lia].
    destruct (time_series_point _ _ _ _ _ _ _ _ _ H Et) as (v' & V1 & V2 & _).
    assert (v' = v) by congruence. subst. destruct v. refine (point_zero A corr _ cs row _ _ _ V2).
    apply HZ. now left.
Qed.
Print Assumptions C01_zero_constants_zero_tide.

Example C01_case :
  same_shape [[((1, 2), false); ((3, 4), false)]] [[((5, 6), true); ((0, 1), false)]] /\
  exists o, predict_drift toy "GOT" [(0, 0)] [[((1, 2), false); ((3, 4), false)]] ["m2"; "k1"]%string = Ok o.
Proof. split; [repeat constructor|]. eexists. reflexivity. Qed.

(** * C02 *)
(** [hc] and [hc'] hold the same constants for the same constituents, row by
    row, in a possibly different order. *)
Definition reordered (cs cs' : list string) (hc hc' : list (list (cpx * bool))) : Prop :=
  Permutation cs cs' /\
  Forall2 (fun r r' => length cs = length r /\ length cs' = length r' /\
                       Permutation (combine cs r) (combine cs' r')) hc hc'.

Lemma check_known_perm A cs cs' : Permutation cs cs' -> check_known A cs = check_known A cs'.
Proof.
  intros H. unfold check_known. replace (forallb (a_known A) cs') with (forallb (a_known A) cs); auto.
  induction H; cbn; auto; try congruence.
  destruct (a_known A x), (a_known A y); reflexivity.
Qed.

Theorem C02_order_irrelevant :
  forall A corr cs cs' hc hc', reordered cs cs' hc hc' ->
  (forall tm, predict_map A corr tm hc cs = predict_map A corr tm hc' cs') /\
  (forall ts, length ts = length hc ->
     predict_drift A corr ts hc cs = predict_drift A corr ts hc' cs') /\
  (forall ts, hc <> [] -> predict_time_series A corr ts hc cs = predict_time_series A corr ts hc' cs').
Proof.
  intros A corr cs cs' hc hc' [HP HF].
  assert (Pt : forall tm r r', length cs = length r /\ length cs' = length r' /\
                       Permutation (combine cs r) (combine cs' r') ->
     point A corr tm cs r = point A corr tm cs' r').
  { intros tm r r' (H1 & H2 & H3). now apply point_perm. }
  repeat split.
  - intros tm. unfold predict_map. rewrite (check_known_perm _ _ _ HP).
    destruct (check_known A cs'); cbn [bind]; auto.
    induction HF; cbn; auto. now rewrite (Pt tm x y), IHHF by auto.
  - intros ts HL. pose proof (Forall2_length' _ _ _ HF) as HL2.
    rewrite !drift_eq by congruence. rewrite (check_known_perm _ _ _ HP).
    destruct (check_known A cs'); cbn [bind]; auto. now apply mapM_combine_perm.
  - intros ts Hne. destruct HF as [|r r' l l' H HF]; [congruence|].
    rewrite !time_series_eq, (check_known_perm _ _ _ HP).
    destruct (check_known A cs'); cbn [bind]; auto. apply mapM_ext. intros tm _. now apply Pt.
Qed.
Print Assumptions C02_order_irrelevant.

(** Concatenation of two groups of constituents: values add, masks unite. *)
Definition add_out (o1 o2 : list (R * bool)) : list (R * bool) :=
  map (fun p => (fst (fst p) + fst (snd p), snd (fst p) || snd (snd p))) (combine o1 o2).

(** [hc] holds, row by row, the constants of the first group then the second. *)
Definition groups (cs1 cs2 : list string) (h : list (list (cpx * bool) * list (cpx * bool))) :=
  Forall (fun p => length (fst p) = length cs1 /\ length (snd p) = length cs2) h.

Lemma check_known_app A cs1 cs2 a b : check_known A cs1 = Ok a -> check_known A cs2 = Ok b ->
  check_known A (cs1 ++ cs2) = Ok tt.
Proof.
  unfold check_known. rewrite forallb_app.
  destruct (forallb (a_known A) cs1), (forallb (a_known A) cs2); auto; discriminate.
Qed.

Lemma combine_map_r {X Y W} (f : Y -> W) (l : list X) (l' : list Y) :
  combine l (map f l') = map (fun p => (fst p, f (snd p))) (combine l l').
Proof. revert l'; induction l as [|x l IH]; intros [|y l']; cbn; auto. now rewrite IH. Qed.

Theorem C02_groups_add :
  forall A corr cs1 cs2 h, groups cs1 cs2 h ->
  let h1 := map fst h in let h2 := map snd h in
  let h12 := map (fun p => fst p ++ snd p) h in
  (forall tm o1 o2, predict_map A corr tm h1 cs1 = Ok o1 -> predict_map A corr tm h2 cs2 = Ok o2 ->
     predict_map A corr tm h12 (cs1 ++ cs2) = Ok (add_out o1 o2)) /\
  (forall ts o1 o2, length ts = length h ->
     predict_drift A corr ts h1 cs1 = Ok o1 -> predict_drift A corr ts h2 cs2 = Ok o2 ->
     predict_drift A corr ts h12 (cs1 ++ cs2) = Ok (add_out o1 o2)) /\
  (forall ts o1 o2, h <> [] ->
     predict_time_series A corr ts h1 cs1 = Ok o1 -> predict_time_series A corr ts h2 cs2 = Ok o2 ->
     predict_time_series A corr ts h12 (cs1 ++ cs2) = Ok (add_out o1 o2)).
Proof.
  intros A corr cs1 cs2 h HF h1 h2 h12. unfold groups in HF. rewrite Forall_forall in HF.
  unfold h1, h2, h12. repeat split.
  - intros tm o1 o2. unfold predict_map.
    destruct (check_known A cs1) as [a|] eqn:K1; cbn [bind]; [|discriminate].
    destruct (check_known A cs2) as [b|] eqn:K2; cbn [bind]; [|discriminate].
    rewrite (check_known_app _ _ _ _ _ K1 K2); cbn [bind]. rewrite !mapM_map.
    apply mapM_concat. intros x v1 m1 v2 m2 Hx. apply point_concat. symmetry. now apply HF.
  - intros ts o1 o2 Hts. rewrite !drift_eq by (rewrite map_length; auto).
    destruct (check_known A cs1) as [a|] eqn:K1; cbn [bind]; [|discriminate].
    destruct (check_known A cs2) as [b|] eqn:K2; cbn [bind]; [|discriminate].
    rewrite (check_known_app _ _ _ _ _ K1 K2); cbn [bind]. rewrite !combine_map_r, !mapM_map.
    apply mapM_concat. intros [t x] v1 m1 v2 m2 Hx. apply point_concat. cbn. symmetry. apply HF.
    now apply in_combine_r in Hx.
  - intros ts o1 o2 Hne. destruct h as [|p h]; [congruence|]. cbn [map]. rewrite !time_series_eq.
    destruct (check_known A cs1) as [a|] eqn:K1; cbn [bind]; [|discriminate].
    destruct (check_known A cs2) as [b|] eqn:K2; cbn [bind]; [|discriminate].
    rewrite (check_known_app _ _ _ _ _ K1 K2); cbn [bind].
    apply mapM_concat. intros t v1 m1 v2 m2 Hx. apply point_concat. symmetry. apply HF. now left.
Qed.
Print Assumptions C02_groups_add.

Example C02_case :
  reordered ["m2"; "k1"]%string ["k1"; "m2"]%string
    [[((1, 2), false); ((3, 4), true)]] [[((3, 4), true); ((1, 2), false)]] /\
  groups ["m2"]%string ["k1"]%string [([((1, 2), false)], [((3, 4), true)])].
Proof.
  split; [split|].
  - apply perm_swap.
  - constructor; [|constructor]. repeat split; auto. apply perm_swap.
  - repeat constructor.
Qed.

(** * C03 *)
Theorem C03_predictors_agree :
  forall A corr ts hc cs out i tm row, length ts = length hc ->
  predict_drift A corr ts hc cs = Ok out ->
  nth_error ts i = Some tm -> nth_error hc i = Some row ->
  length out = length ts /\
  exists v, nth_error out i = Some v /\
    predict_map A corr tm [row] cs = Ok [v] /\
    predict_drift A corr [tm] [row] cs = Ok [v] /\
    predict_time_series A corr [tm] [row] cs = Ok [v] /\
    (forall hc' j out', nth_error hc' j = Some row ->
       predict_map A corr tm hc' cs = Ok out' -> nth_error out' j = Some v) /\
    (forall ts' hc' j out', length ts' = length hc' ->
       nth_error ts' j = Some tm -> nth_error hc' j = Some row ->
       predict_drift A corr ts' hc' cs = Ok out' -> nth_error out' j = Some v) /\
    (forall ts' rows j out', nth_error ts' j = Some tm ->
       predict_time_series A corr ts' (row :: rows) cs = Ok out' -> nth_error out' j = Some v).
Proof.
  intros A corr ts hc cs out i tm row HL H Ht Hr.
  destruct (drift_point _ _ _ _ _ _ _ _ _ HL H Ht Hr) as (v & V1 & V2 & V3).
  split; auto. exists v.
  assert (K : check_known A cs = Ok tt).
  { unfold predict_drift in H. destruct (check_known A cs) as [[]|]; auto. discriminate. }
  split; auto. split; [|split; [|split; [|split; [|split]]]].
  - unfold predict_map. rewrite K. cbn. now rewrite V2.
  - rewrite drift_eq by reflexivity. rewrite K. cbn. now rewrite V2.
  - rewrite time_series_eq, K. cbn. now rewrite V2.
  - intros hc' j out' Hj Ho. destruct (map_point _ _ _ _ _ _ _ _ Ho Hj) as (v' & W1 & W2 & _). congruence.
  - intros ts' hc' j out' HL' Hj Hj' Ho.
    destruct (drift_point _ _ _ _ _ _ _ _ _ HL' Ho Hj Hj') as (v' & W1 & W2 & _). congruence.
  - intros ts' rows j out' Hj Ho.
    destruct (time_series_point _ _ _ _ _ _ _ _ _ Ho Hj) as (v' & W1 & W2 & _). congruence.
Qed.
Print Assumptions C03_predictors_agree.

(** The predictors succeed on all well-formed input, and only the constituent
    names and shapes matter for failing. *)
Theorem C03_predictors_total :
  forall A corr ts hc cs, length ts = length hc ->
  Forall (fun r => (length cs <= length r)%nat) hc ->
  (forallb (a_known A) cs = true -> is_ok (predict_drift A corr ts hc cs) = true) /\
  (forallb (a_known A) cs = false -> predict_drift A corr ts hc cs = Err ValueError).
Proof.
  intros A corr ts hc cs HL HF. rewrite drift_eq by auto. unfold check_known.
  split; intros ->; [|reflexivity]. cbn [bind].
  rewrite Forall_forall in HF. revert ts HL. induction hc as [|r hc IH]; intros [|t ts] HL; cbn in HL; try lia; auto.
  cbn. rewrite point_sum by (apply HF; now left). cbn [bind].
  specialize (IH (fun x Hx => HF x (or_intror Hx)) ts ltac:(lia)).
  destruct (mapM _ _); auto.
Qed.
Print Assumptions C03_predictors_total.

Example C03_case :
  exists out, predict_drift toy "GOT" [(0, 0); (1, 0)]
    [[((1, 2), false)]; [((3, 4), true)]] ["m2"]%string = Ok out /\ length out = 2%nat.
Proof. eexists. split; reflexivity. Qed.

(** * C04 *)
(** Value at a point: a sum of cosines.  Through C03 this is the value returned
    by all three predictors. *)
(** The argument of a constituent: frequency times the seconds since 1992 plus the
    phase of the potential, or the equilibrium argument in degrees; in both cases
    plus the nodal angle. *)
Definition argument (A : tide_args) (corr : string) (days deltat : R) (c : string) : R :=
  (if in_dec string_dec corr ["OTIS"; "ATLAS"; "TMD3"; "netcdf"]%string
   then a_omega A c * (86400 * days) + a_phase A c
   else a_G A (days, deltat) c * (PI / 180)) + a_u A (days, deltat) c.
Lemma theta_argument A corr tm c : theta A corr tm c = argument A corr (fst tm) (snd tm) c.
Proof.
  unfold theta, argument. rewrite <- surjective_pairing.
  assert (E : otis_type corr = true <-> In corr ["OTIS"; "ATLAS"; "TMD3"; "netcdf"]%string).
  { unfold otis_type. rewrite existsb_exists. split; [intros (x & Hx & Ex); apply String.eqb_eq in Ex; now subst | intros H; exists corr; split; auto; apply String.eqb_refl]. }
  destruct (otis_type corr); destruct (in_dec _ _ _) as [I|I]; try (unfold Rdiv; ring).
  - now destruct I; apply E.
  - now apply E in I.
Qed.
Theorem C04_sum_of_cosines :
  forall A corr tm cs (ap : list (R * R)) (ms : list bool) v m,
  length ap = length cs -> length ms = length cs ->
  predict_map A corr tm [combine (map (fun x => constant (fst x) (snd x)) ap) ms] cs = Ok [(v, m)] ->
  v = rsum (map (fun p => a_f A tm (fst p) * fst (snd p) *
                          cos (argument A corr (fst tm) (snd tm) (fst p) - snd (snd p))) (combine cs ap)).
Proof.
  intros A corr tm cs ap ms v m HL HM H.
  destruct (map_point A corr tm _ cs _ 0%nat _ H eq_refl) as (v' & V1 & V2 & _).
  cbn in V1. injection V1 as <-. rewrite point_sum in V2.
  2:{ rewrite combine_length, map_length. lia. }
  injection V2 as <- _. clear H. revert ap ms HL HM.
  induction cs as [|c cs IH]; intros [|[a p] ap] [|b ms] HL HM; cbn in *; try lia; auto.
  rewrite IH by lia. f_equal. rewrite component_cos, theta_argument. reflexivity.
Qed.
Print Assumptions C04_sum_of_cosines.

Theorem C04_bounded_by_amplitudes :
  forall A corr tm cs row v m,
  predict_map A corr tm [row] cs = Ok [(v, m)] ->
  Rabs v <= rsum (map (fun p => Rabs (a_f A tm (fst p)) * cabs (fst (snd p))) (combine cs row)).
Proof.
  intros A corr tm cs row v m H.
  destruct (map_point A corr tm _ cs _ 0%nat _ H eq_refl) as (v' & V1 & V2 & _).
  cbn in V1. injection V1 as <-. eapply point_bound; eauto.
Qed.
Print Assumptions C04_bounded_by_amplitudes.

(** The bound is attained by a single constituent in phase. *)
Theorem C04_bound_attained :
  forall A corr tm c, a_known A c = true ->
  forall amp, 0 <= amp -> 0 <= a_f A tm c ->
  predict_map A corr tm [[(constant amp (argument A corr (fst tm) (snd tm) c), false)]] [c]
    = Ok [(a_f A tm c * amp, false)].
Proof.
  intros A corr tm c K amp Ha Hf. rewrite <- theta_argument. unfold predict_map, check_known. cbn [forallb]. rewrite K. cbn [andb bind mapM].
  unfold point. cbn [accumulate bind fst snd]. rewrite component_cos.
  replace (theta A corr tm c - theta A corr tm c) with 0 by ring. rewrite cos_0.
  replace (0 + a_f A tm c * amp * 1) with (a_f A tm c * amp) by ring. reflexivity.
Qed.
Print Assumptions C04_bound_attained.

Example C04_case : a_known toy "m2" = true /\ 0 <= a_f toy (0,0) "m2" /\
  constant 2 0 = (2 * cos 0, - (2 * sin 0)).
Proof. repeat split; cbn; lra. Qed.

(** * C05 *)
Theorem C05_mask_iff :
  forall A corr tm cs row v m, length row = length cs ->
  predict_map A corr tm [row] cs = Ok [(v, m)] ->
  (m = true <-> exists z, In (z, true) row).
Proof.
  intros A corr tm cs row v m HL H.
  destruct (map_point A corr tm _ cs _ 0%nat _ H eq_refl) as (v' & V1 & V2 & _).
  cbn in V1. injection V1 as <-. eapply point_mask; eauto.
Qed.
Print Assumptions C05_mask_iff.

Theorem C05_mask_iff_drift :
  forall A corr ts hc cs out i row v m, length ts = length hc ->
  Forall (fun r => length r = length cs) hc ->
  predict_drift A corr ts hc cs = Ok out ->
  nth_error hc i = Some row -> nth_error out i = Some (v, m) ->
  (m = true <-> exists z, In (z, true) row).
Proof.
  intros A corr ts hc cs out i row v m HL HF H Hr Ho. rewrite Forall_forall in HF.
  assert (Hi : (i < length ts)%nat).
  { rewrite HL. apply nth_error_Some. congruence. }
  destruct (nth_error ts i) as [tm|] eqn:Et; [|apply nth_error_None in Et; lia].
  destruct (drift_point _ _ _ _ _ _ _ _ _ HL H Et Hr) as (v' & V1 & V2 & _).
  rewrite Ho in V1. injection V1 as <-. eapply point_mask; eauto.
  symmetry. apply HF. eapply nth_error_In; eauto.
Qed.
Print Assumptions C05_mask_iff_drift.

Theorem C05_mask_iff_time_series :
  forall A corr ts row rows cs out i v m,
  length row = length cs ->
  predict_time_series A corr ts (row :: rows) cs = Ok out -> nth_error out i = Some (v, m) ->
  (m = true <-> exists z, In (z, true) row).
Proof.
  intros A corr ts row rows cs out i v m HL H Ho. rewrite time_series_eq in H.
  destruct (check_known A cs); cbn [bind] in H; [|discriminate].
  rewrite mapM_Forall2 in H.
  assert (Hi : (i < length ts)%nat).
  { rewrite (Forall2_length' _ _ _ H). apply nth_error_Some. congruence. }
  destruct (nth_error ts i) as [tm|] eqn:Et; [|apply nth_error_None in Et; lia].
  destruct (Forall2_nth_error _ _ _ _ _ H Et) as (y & Y1 & Y2).
  rewrite Ho in Y1. injection Y1 as <-. eapply point_mask; eauto.
Qed.
Print Assumptions C05_mask_iff_time_series.

(** Empty constituent lists give unmasked zeros. *)
Theorem C05_empty_constituents :
  forall A corr ts hc, length ts = length hc ->
  predict_drift A corr ts hc [] = Ok (map (fun _ => (0, false)) ts) /\
  predict_time_series A corr ts hc [] = Ok (map (fun _ => (0, false)) ts) /\
  (forall tm, predict_map A corr tm hc [] = Ok (map (fun _ => (0, false)) hc)).
Proof.
  intros A corr ts hc HL. repeat split.
  - rewrite drift_eq by auto. cbn [check_known forallb bind].
    revert hc HL. induction ts as [|t ts IH]; intros [|r hc] HL; cbn in HL; try lia; auto.
    cbn in *. now rewrite IH by lia.
  - destruct hc; reflexivity.
  - intros tm. unfold predict_map. cbn [check_known forallb bind].
    clear HL. induction hc as [|r hc IH]; auto. cbn in *. now rewrite IH.
Qed.
Print Assumptions C05_empty_constituents.

Example C05_case :
  exists v, predict_map toy "GOT" (0, 0) [[((1, 2), false); ((3, 4), true)]] ["m2"; "k1"]%string
    = Ok [(v, true)].
Proof. eexists. reflexivity. Qed.

(** * C06 *)
(** The returned amplitudes and phases, as complex constants. *)
Definition constants_of (l : list (R * R)) : list cpx :=
  map (fun x => constant (fst x) (snd x * PI / 180)) l.
Definition unmasked (h : list cpx) : list (cpx * bool) := map (fun z => (z, false)) h.

Lemma split_params p n : length p = (1 + 2 * n)%nat ->
  exists off h, p = params off h /\ length h = n.
Proof.
  destruct p as [|off p]; [cbn; lia|]. intros H. exists off. cbn in H.
  assert (H' : length p = (2 * n)%nat) by lia. clear H. revert p H'.
  induction n as [|n IH]; intros [|a [|b p]] H; cbn in H; try lia.
  - exists []. auto.
  - destruct (IH p ltac:(lia)) as (h & E & L). exists ((a, b) :: h). split; [|cbn; lia].
    unfold params in *. injection E as E. cbn. now rewrite E.
Qed.

Lemma constants_of_params off h : constants_of (amp_phases (tl (params off h))) = h.
Proof.
  unfold constants_of, params. cbn [tl]. rewrite amp_phases_params, map_map.
  induction h as [|[a b] h IH]; cbn [map]; auto. rewrite IH. f_equal.
  pose proof (amp_phase_spec a b) as S. unfold cre, cim. cbn [fst snd].
  destruct (amp_phase a b) as [am ph]. cbn. apply S.
Qed.

Lemma time_series_unmasked A corr ts cs h out :
  length h = length cs ->
  predict_time_series A corr ts [unmasked h] cs = Ok out ->
  map fst out = map (fun tm => rsum (map (fun p => component (a_f A tm (fst p)) (theta A corr tm (fst p)) (snd p))
                                         (combine cs h))) ts.
Proof.
  intros HL. rewrite time_series_eq. destruct (check_known A cs); cbn [bind]; [|discriminate].
  rewrite mapM_Forall2. intros H. induction H as [|tm v ts out Hv _ IH]; cbn; auto.
  rewrite IH. f_equal. rewrite point_sum in Hv by (unfold unmasked; rewrite map_length; lia).
  injection Hv as <-. cbn. unfold unmasked. rewrite combine_map_r, map_map. reflexivity.
Qed.

(** If the series is an offset plus a prediction with constants [h], then for
    any least-squares solver the returned constants reproduce the series (with
    some offset); and when the design matrix has full column rank they are the
    constants [h] themselves.  Amplitudes are >= 0 and phases in [0,360). *)
Theorem C06_solve_inverts_prediction :
  forall A corr lsq bvls sv ts cs h off out ht r,
  In sv [Lstsq; Gelsd; Gelsy; Gelss] ->
  length h = length cs ->
  predict_time_series A corr ts [unmasked h] cs = Ok out ->
  ht = map (fun v => off + fst v) out ->
  least_squares (1 + 2 * length cs) (design A corr cs ts) ht (lsq (design A corr cs ts) ht) ->
  solve A corr lsq bvls sv ts ht cs = Ok r ->
  length r = length cs /\
  (forall x, In x r -> 0 <= fst x /\ 0 <= snd x < 360) /\
  (exists off' out', predict_time_series A corr ts [unmasked (constants_of r)] cs = Ok out' /\
                     ht = map (fun v => off' + fst v) out') /\
  (full_rank (1 + 2 * length cs) (design A corr cs ts) ->
     constants_of r = h /\ map fst r = map cabs h).
Proof.
  intros A corr lsq bvls sv ts cs h off out ht r Hsv HL Hp Hht Hls.
  unfold solve. destruct (_ <=? _)%nat eqn:B1; [discriminate|].
  destruct (negb _) eqn:B2; [discriminate|].
  destruct (check_known A cs) as [[]|] eqn:K; cbn [bind]; [|discriminate].
  set (M := design A corr cs ts) in *. set (p := lsq M ht) in *.
  assert (Er : (match sv with
    | Bvls => Ok (amp_phases (tl (bvls M ht))) | OtherSolver => Err NameError
    | _ => Ok (amp_phases (tl p)) end) = Ok (amp_phases (tl p))).
  { destruct Hsv as [<-|[<-|[<-|[<-|[]]]]]; reflexivity. }
  intros Hr. rewrite Er in Hr. apply Ok_inj in Hr. subst r.
  pose proof (time_series_unmasked _ _ _ _ _ _ HL Hp) as Eout.
  assert (Hml : length M = length ht).
  { unfold M, design. rewrite map_length, Hht, map_length.
    apply (f_equal (@length R)) in Eout. rewrite !map_length in Eout. auto. }
  assert (Htrue : forall i r v, nth_error M i = Some r -> nth_error ht i = Some v -> v = dot r (params off h)).
  { intros i r v Hr Hv. unfold M, design in Hr. rewrite nth_error_map in Hr.
    destruct (nth_error ts i) as [tm|] eqn:Et; cbn in Hr; [|discriminate]. injection Hr as <-.
    rewrite design_dot by auto.
    rewrite Hht in Hv. rewrite <- (map_map fst (fun x => off + x)), Eout, map_map, nth_error_map, Et in Hv.
    cbn in Hv. congruence. }
  destruct Hls as [Hlen Hmin].
  assert (Hqlen : length (params off h) = (1 + 2 * length cs)%nat) by (rewrite params_length, HL; lia).
  pose proof (lsq_exact _ _ _ _ _ Hml (conj Hlen Hmin) Hqlen Htrue) as Hsame.
  destruct (split_params _ _ Hlen) as (off' & h' & Ep & HL').
  split; [apply amp_phases_length|split; [apply amp_phases_range|split]].
  - rewrite Ep. unfold params. cbn [tl]. rewrite <- HL'. clear. induction h'; cbn; lia.
  - exists off'. rewrite Ep, constants_of_params.
    destruct (predict_time_series A corr ts [unmasked h'] cs) as [out'|e] eqn:Eo'.
    + exists out'. split; auto.
      pose proof (time_series_unmasked _ _ _ _ _ _ HL' Eo') as Eout'.
      rewrite <- (map_map fst (fun x => off' + x)), Eout', map_map.
      rewrite Hht, <- (map_map fst (fun x => off + x)), Eout, map_map.
      apply map_ext_in. intros tm Htm.
      assert (Hin : In (design_row A corr cs tm) M) by (apply in_map; auto).
      specialize (Hsame _ Hin). rewrite Ep in Hsame.
      rewrite !design_dot in Hsame by auto. symmetry. exact Hsame.
    + exfalso. rewrite time_series_eq, K in Eo'. cbn [bind] in Eo'.
      clear - Eo' HL'. induction ts as [|t ts IH]; cbn in Eo'; [discriminate|].
      rewrite point_sum in Eo' by (unfold unmasked; rewrite map_length; lia). cbn [bind] in Eo'.
      destruct (mapM _ ts); [discriminate|]. cbn in Eo'. auto.
  - intros Hrank. pose proof (Hrank _ _ Hlen Hqlen Hsame) as E. rewrite E, constants_of_params.
    split; auto. unfold params. cbn [tl]. rewrite amp_phases_params, map_map.
    apply map_ext. intros [a b]. reflexivity.
Qed.
Print Assumptions C06_solve_inverts_prediction.

(** Rejected inputs. *)
Theorem C06_solve_rejects :
  forall A corr lsq bvls sv ts ht cs,
  (length ts <= 2 * length cs)%nat \/ length ts <> length ht ->
  solve A corr lsq bvls sv ts ht cs = Err ValueError.
Proof.
  intros A corr lsq bvls sv ts ht cs H. unfold solve.
  destruct (length ts <=? 2 * length cs)%nat eqn:B1; auto.
  apply Nat.leb_gt in B1. destruct (length ts =? length ht)%nat eqn:B2; auto.
  apply Nat.eqb_eq in B2. lia.
Qed.
Print Assumptions C06_solve_rejects.

(** A concrete case: one constituent, three times, full-rank design matrix
    (rows (1,2,0), (1,0,-2), (1,-2,0)) and a solver returning the solution. *)
Definition toy4 : tide_args := {|
  a_known := fun _ => true; a_u := fun _ _ => 0; a_f := fun _ _ => 2;
  a_G := fun tm c => 90 * fst tm; a_omega := fun _ => 1; a_phase := fun _ => 0 |}.
Definition toy_ts : list (R * R) := [(0, 0); (1, 0); (2, 0)].

Example C06_case :
  design toy4 "GOT" ["m2"]%string toy_ts = [[1; 2; 0]; [1; 0; -2]; [1; -2; 0]] /\
  full_rank 3 [[1; 2; 0]; [1; 0; -2]; [1; -2; 0]] /\
  least_squares 3 [[1; 2; 0]; [1; 0; -2]; [1; -2; 0]] [5 + 6; 5 - 8; 5 - 6] [5; 3; 4].
Proof.
  split; [|split].
  - unfold design, toy_ts, design_row, theta. cbn.
    replace (90 * 0 * PI / 180 + 0) with 0 by field.
    replace (90 * 1 * PI / 180 + 0) with (PI / 2) by field.
    replace (90 * 2 * PI / 180 + 0) with PI by field.
    rewrite cos_0, sin_0, cos_PI2, sin_PI2, cos_PI, sin_PI.
    repeat (f_equal; try ring).
  - intros p q Hp Hq H.
    destruct p as [|a [|b [|c [|]]]], q as [|a' [|b' [|c' [|]]]]; try discriminate.
    pose proof (H _ (or_introl eq_refl)) as E1.
    pose proof (H _ (or_intror (or_introl eq_refl))) as E2.
    pose proof (H _ (or_intror (or_intror (or_introl eq_refl)))) as E3.
    cbn in E1, E2, E3. repeat f_equal; lra.
  - split; auto. intros q _.
    match goal with |- _ <= ?x => assert (N : 0 <= x) by apply sq_res_nonneg end.
    replace (sq_res _ _ [5; 3; 4]) with 0; [exact N|]. unfold sq_res. cbn. ring.
Qed.
