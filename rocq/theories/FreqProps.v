(** C15: frequencies and aliasing.  C57: the parameter table of the OTIS-type
    predictors against Doodson numbers and mean longitudes. *)
From Coq Require Import Reals Lra Lia String List Bool ZArith Ranalysis.
From Verif Require Import PyBase RBase StrBase DoodsonData DoodsonModel MathModel AstroModel AstroProps.
From Verif Require Import PredictModel NodalBase NodalData ArgModel PiBounds PhaseProps.
Import ListNotations.
Open Scope R_scope.

(** ** C15: rate of change of the argument *)
Fixpoint diff (b a : list R) : list R :=
  match b, a with y :: b', x :: a' => (y - x) :: diff b' a' | _, _ => [] end.

Lemma dot_diff : forall v a b, List.length a = List.length b -> dot v b - dot v a = dot v (diff b a).
Proof.
  induction v as [|k v IH]; intros [|x a] [|y b] E; try discriminate; cbn [diff]; rewrite ?dot_nil, ?dot_nil_r; try ring.
  rewrite !dot_cons, <- IH by (cbn in E; congruence). ring.
Qed.
Lemma dot_rates : forall d v a b, List.length a = List.length b ->
  dot v (map (fun ab => (snd ab - fst ab) / d) (combine a b)) = dot v (diff b a) / d.
Proof.
  intros d. induction v as [|k v IH]; intros [|x a] [|y b] E; try discriminate; cbn [combine map diff];
    rewrite ?dot_nil, ?dot_nil_r; try (unfold Rdiv; ring).
  rewrite !dot_cons, IH by (cbn in E; congruence). cbn [fst snd]. unfold Rdiv. ring.
Qed.

(** The frequency is the change of the phase over an interval of 0.05 days (4320 s)
    at J2000, in radians per second. *)
Theorem C15_difference_quotient : forall corr c w, frequency corr c = Ok w ->
  forall m1, exists u0 f0 G0 u1 f1 G1,
  arguments corr m1 51544.5 0 c = Ok (u0, f0, G0) /\ arguments corr m1 51544.55 0 c = Ok (u1, f1, G1) /\
  w = (G1 - G0) * (PI / 180) / 4320.
Proof.
  intros corr c w. unfold frequency, arguments, arguments_from.
  destruct (coefficients corr c) as [v|x]; [|discriminate]. cbn [bind].
  intros <-%Ok_inj m1. rewrite !Rplus_0_r. do 6 eexists. split; [reflexivity|]. split; [reflexivity|].
  rewrite dot_rates by reflexivity. rewrite <- dot_diff by reflexivity.
  replace (86400 * (51544.55 - 51544.5)) with 4320 by lra. field.
Qed.
Print Assumptions C15_difference_quotient.

(** The seven unreduced arguments (degrees) at Modified Julian Day [t]: hour angle
    of the mean moon, mean longitudes, and a quarter turn. *)
Definition unreduced (corr : string) (t : R) : list R :=
  match spec_raw t false (negb (otis_corr corr)) with
  | [moon; sun; perigee; node] =>
      [360 * t - moon + sun; moon; sun; perigee; node;
       (if otis_corr corr then 282.8 else 282.94 + 1.7192 * ((t - 51544.5) / 36525)); 90]
  | _ => []
  end.

Lemma rmod_at x m k : 0 < m -> m * IZR k <= x < m * IZR k + m -> rmod x m = x - m * IZR k.
Proof.
  intros M [A B]. replace x with (x - m * IZR k + m * IZR k) at 1 by ring.
  rewrite rmod_add_mult by exact M. apply rmod_small; lra.
Qed.

Lemma seven_ext : forall (a b c d e f g a' b' c' d' e' f' g' : R),
  a = a' -> b = b' -> c = c' -> d = d' -> e = e' -> f = f' -> g = g' ->
  [a; b; c; d; e; f; g] = [a'; b'; c'; d'; e'; f'; g'].
Proof. intros; subst; reflexivity. Qed.

(** No argument passes a full turn in the interval. *)
Lemma reduced_diff : forall corr,
  let lon m := fargs (mean_longitudes m false (negb (otis_corr corr))) (hour_of m) in
  diff (lon 51544.55) (lon 51544.5) = diff (unreduced corr 51544.55) (unreduced corr 51544.5).
Proof.
  intros corr. cbv zeta. unfold unreduced, fargs, hour_of.
  pose proof (C52_perigee_value 51544.5 false (negb (otis_corr corr))) as P0.
  pose proof (C52_perigee_value 51544.55 false (negb (otis_corr corr))) as P1.
  rewrite P0, P1. clear P0 P1.
  unfold mean_longitudes; cbn [lS lH lP lN]. unfold normalize_angle.
  pose proof (raw_spec 51544.5 false (negb (otis_corr corr))) as R0.
  pose proof (raw_spec 51544.55 false (negb (otis_corr corr))) as R1.
  generalize dependent (raw_longitudes 51544.5 false (negb (otis_corr corr))). intros r0 R0.
  generalize dependent (raw_longitudes 51544.55 false (negb (otis_corr corr))). intros r1 R1.
  destruct (otis_corr corr); cbn [negb orb] in *; unfold spec_raw in *; cbv zeta in *; cbn [horner] in *;
  injection R0 as -> -> -> ->; injection R1 as -> -> -> ->.
  - rewrite !(rmod_at _ 360 0) by lra. rewrite !(rmod_at _ 1 51544) by lra. cbn [diff]. apply seven_ext; lra.
  - rewrite !(rmod_at (_ - _) 360 (-1)) by lra. rewrite !(rmod_at _ 360 0) by lra.
    rewrite !(rmod_at _ 1 51544) by lra. cbn [diff]. apply seven_ext; lra.
Qed.

Lemma unreduced_length corr t : List.length (unreduced corr t) = 7%nat.
Proof. unfold unreduced, spec_raw. destruct (otis_corr corr); reflexivity. Qed.

Lemma frequency_unreduced : forall corr c w v, frequency corr c = Ok w -> coefficients corr c = Ok v ->
  w = (dot v (unreduced corr 51544.55) - dot v (unreduced corr 51544.5)) * (PI / 180) / 4320.
Proof.
  intros corr c w v. unfold frequency. intros E C. rewrite C in E. cbn [bind] in E.
  apply Ok_inj in E. subst w.
  rewrite dot_rates by reflexivity. rewrite reduced_diff. rewrite <- dot_diff by (rewrite !unreduced_length; reflexivity).
  replace (86400 * (51544.55 - 51544.5)) with 4320 by lra. field.
Qed.

(** Derivatives *)
Fixpoint dhorner (cs : list R) (t : R) : R :=
  match cs with [] => 0 | c :: cs' => horner cs' t + t * dhorner cs' t end.
Lemma horner_derive : forall cs t, derivable_pt_lim (horner cs) t (dhorner cs t).
Proof.
  induction cs as [|c cs IH]; intros t.
  - apply (derivable_pt_lim_const 0).
  - assert (D : derivable_pt_lim (fct_cte c + id * horner cs)%F t (0 + (1 * horner cs t + id t * dhorner cs t))).
    { apply derivable_pt_lim_plus; [apply derivable_pt_lim_const|].
      apply derivable_pt_lim_mult; [apply derivable_pt_lim_id|apply IH]. }
    replace (dhorner (c :: cs) t) with (0 + (1 * horner cs t + id t * dhorner cs t)) by (cbn [dhorner]; unfold id; ring).
    exact D.
Qed.
Lemma affine_derive a b t : derivable_pt_lim (fun t => (t - a) / b) t (/ b).
Proof.
  assert (D : derivable_pt_lim (mult_real_fct (/ b) (id - fct_cte a)%F) t (/ b * (1 - 0))).
  { apply derivable_pt_lim_scal, derivable_pt_lim_minus; [apply derivable_pt_lim_id|apply derivable_pt_lim_const]. }
  replace (/ b * (1 - 0)) with (/ b) in D by ring.
  intros e He. destruct (D e He) as [d Hd]. exists d. intros h Hn Hh.
  replace ((t + h - a) / b) with (mult_real_fct (/ b) (id - fct_cte a)%F (t + h))
    by (unfold mult_real_fct, minus_fct, id, fct_cte, Rdiv; ring).
  replace ((t - a) / b) with (mult_real_fct (/ b) (id - fct_cte a)%F t)
    by (unfold mult_real_fct, minus_fct, id, fct_cte, Rdiv; ring).
  exact (Hd h Hn Hh).
Qed.
Lemma derive_ext : forall f g t d, (forall x, f x = g x) -> derivable_pt_lim f t d -> derivable_pt_lim g t d.
Proof.
  intros f g t d E D e He. destruct (D e He) as [del Hd]. exists del. intros h Hn Hh.
  rewrite <- !E. exact (Hd h Hn Hh).
Qed.
Lemma horner_affine_derive cs a b t :
  derivable_pt_lim (fun t => horner cs ((t - a) / b)) t (dhorner cs ((t - a) / b) * / b).
Proof.
  apply (derive_ext (comp (horner cs) (fun t => (t - a) / b))); [reflexivity|].
  apply derivable_pt_lim_comp; [apply affine_derive|apply horner_derive].
Qed.

(** Componentwise derivatives of a list of functions *)
Lemma dot_derive : forall v fs gs t,
  Forall2 (fun f d => derivable_pt_lim f t d) fs gs ->
  derivable_pt_lim (fun x => dot v (map (fun f => f x) fs)) t (dot v gs).
Proof.
  induction v as [|k v IH]; intros fs gs t H.
  - apply (derivable_pt_lim_const 0).
  - destruct H as [|f d fs gs F H].
    + apply (derivable_pt_lim_const 0).
    + rewrite dot_cons.
      apply (derive_ext (mult_real_fct (IZR k) f + (fun x => dot v (map (fun f => f x) fs)))%F).
      { intros x. reflexivity. }
      apply derivable_pt_lim_plus; [apply derivable_pt_lim_scal; exact F|exact (IH _ _ _ H)].
Qed.

Definition moon5 := [218.3164477; 481267.88123421; -1.5786e-3; 1.855835e-6; -1.53388e-8].
Definition elong5 := [297.8501921; 445267.1114034; -1.8819e-3; 1.83195e-6; -8.8445e-9].
Definition perigee5 := [83.3532465; 4069.0137287; -1.032e-2; -1.249172e-5].
Definition node5 := [125.04452; -1934.136261; 2.0708e-3; 2.22222e-6].
Definition cen (t : R) : R := (t - 51544.5) / 36525.
Definition rates (corr : string) (t : R) : list R :=
  if otis_corr corr
  then [360 - 13.17639648 + 0.98564736; 13.17639648; 0.98564736; 0.11140353; -0.05295377; 0; 0]
  else let d cs := dhorner cs (cen t) / 36525 in
    [360 - d moon5 + (d moon5 - d elong5); d moon5; d moon5 - d elong5; d perigee5; d node5; 1.7192 / 36525; 0].

Lemma linear_derive a b c t : derivable_pt_lim (fun t => a + (t - c) * b) t b.
Proof.
  apply (derive_ext (fct_cte a + mult_real_fct b (fun t => ((t - c) / 1)%R))%F).
  - intros x. unfold plus_fct, fct_cte, mult_real_fct. field.
  - replace b with (0 + b * / 1) at 2 by field.
    apply derivable_pt_lim_plus; [apply derivable_pt_lim_const|apply derivable_pt_lim_scal, affine_derive].
Qed.

Lemma unreduced_derive : forall corr v t,
  derivable_pt_lim (fun t => dot v (unreduced corr t)) t (dot v (rates corr t)).
Proof.
  intros corr v t.
  set (U := fun (i : nat) (t : R) => nth i (unreduced corr t) 0).
  apply (derive_ext (fun x => dot v (map (fun f => f x) [U 0; U 1; U 2; U 3; U 4; U 5; U 6]%nat))).
  { intros x. unfold U, unreduced, spec_raw. destruct (otis_corr corr); reflexivity. }
  apply dot_derive. subst U. unfold unreduced, rates, spec_raw.
  destruct (otis_corr corr); cbn [negb nth]; cbv zeta.
  - repeat apply Forall2_cons; try apply Forall2_nil.
    + apply (derive_ext (fun t => (360 * 51544.4993 - 218.3164 + 280.4661) + (t - 51544.4993) * (360 - 13.17639648 + 0.98564736)));
        [intros x; ring|apply linear_derive].
    + apply linear_derive.
    + apply linear_derive.
    + apply linear_derive.
    + apply (derive_ext (fun t => 125.0445 + (t - 51544.4993) * (-0.05295377))); [intros x; lra|apply linear_derive].
    + apply (derivable_pt_lim_const 282.8).
    + apply (derivable_pt_lim_const 90).
  - change [218.3164477; 481267.88123421; -1.5786e-3; 1.855835e-6; -1.53388e-8] with moon5.
    change [297.8501921; 445267.1114034; -1.8819e-3; 1.83195e-6; -8.8445e-9] with elong5.
    change [83.3532465; 4069.0137287; -1.032e-2; -1.249172e-5] with perigee5.
    change [125.04452; -1934.136261; 2.0708e-3; 2.22222e-6] with node5.
    assert (M := horner_affine_derive moon5 51544.5 36525 t).
    assert (E := horner_affine_derive elong5 51544.5 36525 t).
    assert (ME : derivable_pt_lim (fun t => horner moon5 ((t - 51544.5) / 36525) - horner elong5 ((t - 51544.5) / 36525)) t
      (dhorner moon5 (cen t) / 36525 - dhorner elong5 (cen t) / 36525)).
    { apply (derivable_pt_lim_minus _ _ _ _ _ M E). }
    repeat apply Forall2_cons; try apply Forall2_nil.
    + assert (L : derivable_pt_lim (fun t => 0 + (t - 0) * 360) t 360) by apply linear_derive.
      apply (derive_ext ((fun t => (0 + (t - 0) * 360)%R) - (fun t => horner moon5 ((t - 51544.5) / 36525)%R) +
        (fun t => (horner moon5 ((t - 51544.5) / 36525) - horner elong5 ((t - 51544.5) / 36525))%R))%F).
      { intros x. unfold plus_fct, minus_fct. ring. }
      apply derivable_pt_lim_plus; [apply derivable_pt_lim_minus; [exact L|exact M]|exact ME].
    + exact M.
    + exact ME.
    + apply horner_affine_derive.
    + apply horner_affine_derive.
    + apply (derive_ext (fun t => 282.94 + (t - 51544.5) * (1.7192 / 36525))); [intros x; field|apply linear_derive].
    + apply (derivable_pt_lim_const 90).
Qed.

(** The frequency (converted to degrees per day) is the derivative of the unreduced
    argument at a time within the interval used. *)
Theorem C15_derivative : forall corr c w, frequency corr c = Ok w ->
  exists v t, coefficients corr c = Ok v /\ 51544.5 < t < 51544.55 /\
    derivable_pt_lim (fun t => dot v (unreduced corr t)) t (w * 86400 * (180 / PI)).
Proof.
  intros corr c w F. assert (exists v, coefficients corr c = Ok v) as [v C].
  { unfold frequency in F. destruct (coefficients corr c) as [v|]; [exists v; reflexivity|discriminate]. }
  pose proof (frequency_unreduced _ _ _ _ F C) as W.
  destruct (MVT_cor2 (fun t => dot v (unreduced corr t)) (fun t => dot v (rates corr t)) 51544.5 51544.55) as [t [E B]].
  - lra.
  - intros x _. apply unreduced_derive.
  - exists v, t. split; [exact C|]. split; [exact B|].
    replace (w * 86400 * (180 / PI)) with (dot v (rates corr t)); [apply unreduced_derive|].
    cbv beta in E. rewrite E in W. rewrite W. pose proof PI_RGT_0. 
    replace (51544.55 - 51544.5) with (5 / 100) by lra. field. lra.
Qed.
Print Assumptions C15_derivative.

(** With the OTIS longitudes the derivative is the same at all times. *)
Theorem C15_constant_rate : forall corr c w, otis_corr corr = true -> frequency corr c = Ok w ->
  exists v, coefficients corr c = Ok v /\
    forall t, derivable_pt_lim (fun t => dot v (unreduced corr t)) t (w * 86400 * (180 / PI)).
Proof.
  intros corr c w O F. destruct (C15_derivative _ _ _ F) as (v & s & C & _ & D).
  exists v. split; [exact C|]. intros t.
  assert (E : dot v (rates corr s) = dot v (rates corr t)) by (unfold rates; rewrite O; reflexivity).
  replace (w * 86400 * (180 / PI)) with (dot v (rates corr t)); [apply unreduced_derive|].
  rewrite <- E. symmetry. apply (uniqueness_limite _ _ _ _ D (unreduced_derive corr v s)).
Qed.
Print Assumptions C15_constant_rate.

Definition weight (v : list Z) : R := fold_right Rplus 0 (map (fun k => Rabs (IZR k)) v).
Lemma dot_close : forall e v a b, 0 <= e -> Forall2 (fun x y => Rabs (x - y) <= e) a b ->
  Rabs (dot v a - dot v b) <= e * weight v.
Proof.
  intros e. induction v as [|k v IH]; intros a b He H.
  - rewrite !dot_nil. unfold weight; cbn. rewrite Rminus_0_r, Rabs_R0. lra.
  - assert (0 <= e * weight v).
    { apply Rmult_le_pos; [exact He|]. clear. induction v as [|k v IH]; unfold weight in *; cbn; [lra|].
      pose proof (Rabs_pos (IZR k)). lra. }
    change (weight (k :: v)) with (Rabs (IZR k) + weight v).
    destruct H as [|x y a b X H].
    + rewrite !dot_nil_r, Rminus_0_r, Rabs_R0. pose proof (Rabs_pos (IZR k)). nra.
    + rewrite !dot_cons. specialize (IH _ _ He H).
      replace (IZR k * x + dot v a - (IZR k * y + dot v b)) with (IZR k * (x - y) + (dot v a - dot v b)) by ring.
      eapply Rle_trans; [apply Rabs_triang|]. rewrite Rabs_mult.
      pose proof (Rabs_pos (IZR k)). pose proof (Rmult_le_compat_l _ _ _ H1 X). lra.
Qed.

(** With the other longitudes the rate at any time within a century of J2000
    differs from the frequency by at most 1e-6 degrees per day and unit of Doodson
    coefficient. *)
Theorem C15_rate_within_a_century : forall corr c w, frequency corr c = Ok w ->
  exists v, coefficients corr c = Ok v /\
    forall t, Rabs (t - 51544.5) <= 36525 ->
    exists d, derivable_pt_lim (fun t => dot v (unreduced corr t)) t d /\
      Rabs (d - w * 86400 * (180 / PI)) <= 1e-6 * weight v.
Proof.
  intros corr c w F. destruct (C15_derivative _ _ _ F) as (v & s & C & B & D).
  exists v. split; [exact C|]. intros t T. exists (dot v (rates corr t)).
  split; [apply unreduced_derive|].
  rewrite (uniqueness_limite _ _ _ _ D (unreduced_derive corr v s)).
  apply dot_close; [lra|]. unfold rates. destruct (otis_corr corr).
  - repeat (apply Forall2_cons; [rewrite Rminus_diag_eq by reflexivity; rewrite Rabs_R0; lra|]). apply Forall2_nil.
  - cbv zeta. set (x := cen t). set (y := cen s).
    assert (X : -1 <= x <= 1).
    { unfold x, cen. unfold Rabs in T; destruct (Rcase_abs (t - 51544.5)); split; unfold Rdiv; lra. }
    assert (Y : 0 <= y <= 0.00001) by (unfold y, cen; unfold Rdiv; lra).
    clearbody x y. unfold moon5, elong5, perigee5, node5. cbn [dhorner horner].
    assert (X2 : 0 <= x * x <= 1) by nra. assert (X3 : -1 <= x * (x * x) <= 1) by nra.
    assert (Y2 : 0 <= y * y <= 0.00001) by nra. assert (Y3 : 0 <= y * (y * y) <= 0.00001) by nra.
    repeat (apply Forall2_cons; [apply Rabs_le; lra|]). apply Forall2_nil.
Qed.
Print Assumptions C15_rate_within_a_century.

Example C15_case : exists w v, frequency "GOT" "m2" = Ok w /\ coefficients "GOT" "m2" = Ok v /\ v = [2; 0; 0; 0; 0; 0; 0]%Z.
Proof. do 2 eexists. split; [reflexivity|]. split; reflexivity. Qed.

(** ** C15: aliasing *)
Lemma np_round_near x : Rabs (x - IZR (np_round x)) <= 1 / 2.
Proof.
  unfold np_round. cbv zeta. destruct (rfloor_bounds x) as [A B].
  destruct (Rlt_dec (x - IZR (rfloor x)) (1 / 2)); [apply Rabs_le; lra|].
  destruct (Rlt_dec (1 / 2) (x - IZR (rfloor x))); [rewrite plus_IZR; apply Rabs_le; lra|].
  destruct (Z.even (rfloor x)); rewrite ?plus_IZR; apply Rabs_le; lra.
Qed.

(** The alias is at most half the sampling frequency, it is the distance to the
    nearest multiple of the sampling frequency, and a signal of frequency [f] cannot
    be told from one of the aliased frequency (with phase reversed or not) at the
    sample times. *)
Theorem C15_aliasing : forall f fs, 0 < fs ->
  0 <= aliasing f fs <= fs / 2 /\
  (forall j : Z, aliasing f fs <= Rabs (f - fs * IZR j)) /\
  (exists s, (s = 1 \/ s = -1) /\ forall (k : Z) phi,
    cos (2 * PI * f * (IZR k / fs) + phi) = cos (2 * PI * aliasing f fs * (IZR k / fs) + s * phi)).
Proof.
  intros f fs P. unfold aliasing. set (n := np_round (f / fs)).
  assert (N : Rabs (f - fs * IZR n) <= fs / 2).
  { pose proof (np_round_near (f / fs)) as H. fold n in H.
    replace (f - fs * IZR n) with (fs * (f / fs - IZR n)) by (field; lra).
    rewrite Rabs_mult, (Rabs_right fs) by lra.
    apply (Rmult_le_compat_l fs) in H; [|lra]. lra. }
  split; [split; [apply Rabs_pos|exact N]|]. split.
  - intros j. destruct (Z.eq_dec j n) as [->|Hj]; [lra|].
    assert (1 <= Rabs (IZR n - IZR j)).
    { rewrite <- minus_IZR, <- abs_IZR. apply IZR_le. lia. }
    replace (f - fs * IZR j) with (fs * (IZR n - IZR j) - - (f - fs * IZR n)) by ring.
    pose proof (Rabs_triang_inv (fs * (IZR n - IZR j)) (- (f - fs * IZR n))) as T.
    rewrite Rabs_Ropp, Rabs_mult, (Rabs_right fs) in T by lra.
    assert (fs <= fs * Rabs (IZR n - IZR j)) by nra. lra.
  - assert (E : forall (k : Z) phi, 2 * PI * f * (IZR k / fs) + phi =
        2 * PI * (f - fs * IZR n) * (IZR k / fs) + phi + 2 * IZR (n * k) * PI).
    { intros k phi. rewrite mult_IZR. field. lra. }
    destruct (Rle_dec 0 (f - fs * IZR n)) as [H|H].
    + exists 1. split; [left; reflexivity|]. intros k phi. rewrite E, cos_turns, Rabs_right by lra.
      f_equal. ring.
    + exists (-1). split; [right; reflexivity|]. intros k phi. rewrite E, cos_turns, Rabs_left by lra.
      rewrite <- cos_neg. f_equal. field. lra.
Qed.
Print Assumptions C15_aliasing.

Theorem C15_aliasing_period : forall corr c sampling T, 0 < sampling ->
  aliasing_period corr c sampling = Ok T ->
  exists w, frequency corr c = Ok w /\
    (aliasing (w / (2 * PI)) (1 / sampling) <> 0 ->
     2 * sampling <= T /\
     exists s, (s = 1 \/ s = -1) /\ forall (k : Z) phi,
       cos (w * (IZR k * sampling) + phi) = cos (2 * PI / T * (IZR k * sampling) + s * phi)).
Proof.
  intros corr c sampling T HS. unfold aliasing_period.
  destruct (frequency corr c) as [w|]; [|discriminate]. cbn [bind]. intros <-%Ok_inj.
  exists w. split; [reflexivity|]. intros NZ.
  assert (PF : 0 < 1 / sampling) by (apply Rdiv_lt_0_compat; lra).
  destruct (C15_aliasing (w / (2 * PI)) (1 / sampling) PF) as ([L U] & _ & s & Hs & H).
  set (fa := aliasing (w / (2 * PI)) (1 / sampling)) in *.
  assert (0 < fa) by lra. split.
  - apply (Rmult_le_reg_r fa); [lra|]. replace (1 / fa * fa) with 1 by (field; lra).
    replace 1 with (2 * sampling * (1 / sampling / 2)) by (field; lra).
    apply Rmult_le_compat_l; lra.
  - exists s. split; [exact Hs|]. intros k phi. pose proof PI_RGT_0.
    specialize (H k phi).
    replace (w * (IZR k * sampling)) with (2 * PI * (w / (2 * PI)) * (IZR k / (1 / sampling))) by (field; lra).
    rewrite H. f_equal. field. lra.
Qed.
Print Assumptions C15_aliasing_period.

Example C15_aliasing_case : aliasing 7 3 = 1.
Proof.
  unfold aliasing. replace (np_round (7 / 3)) with 2%Z.
  - replace (7 - 3 * 2) with 1 by ring. apply Rabs_R1.
  - unfold np_round. cbv zeta. rewrite (rfloor_unique (7 / 3) 2) by lra.
    destruct (Rlt_dec (7 / 3 - 2) (1 / 2)); [reflexivity|lra].
Qed.
