(** C49: long-period equilibrium tides (predict.py:924-1053) *)
From Coq Require Import Reals Lra Lia String List Bool ZArith.
From Verif Require Import PyBase RBase StrBase MathModel AstroModel AstroProps DoodsonData DoodsonModel NodalBase NodalData NodalProofs ArgModel PhaseProps PredictModel EarthModel EarthSpec EarthProofs3 LpeSpec.
Import ListNotations.
Open Scope R_scope.

(** Lines asked for: all by default, otherwise those whose name is given, in any case *)
Definition asked (k : names) (c : string) : bool :=
  match k with
  | Default => true
  | One s => String.eqb c (lower s)
  | Many l => existsb (fun s => String.eqb c (lower s)) l
  end.

(** The astronomical longitudes of the theorem of C52 *)
Definition height_at (corrections : string) (chosen : string -> bool) (t deltat lat : R) : R :=
  let otis := existsb (String.eqb corrections) ["OTIS"; "ATLAS"; "TMD3"; "netcdf"]%string in
  let mjd := t + 48622 + deltat in
  match spec_raw mjd false (negb otis) with
  | [s; h; p; n] => height chosen s h p n (if otis then 282.8 else 282.94 + 1.7192 * ((mjd - 51544.5) / 36525)) lat
  | _ => 0
  end.

Lemma mod_turn x y : same_mod 360 x y -> same_turn (x * (PI / 180)) (y * (PI / 180)).
Proof. intros [k ->]. exists k. field. Qed.

Lemma asked_selected k c : In c lpe_index -> mem_str c (lpe_selected k) = asked k c.
Proof.
  intros I. destruct k as [|s|l]; cbn [lpe_selected asked].
  - assert (E : map lower lpe_index = lpe_index) by reflexivity. rewrite E. apply mem_str_In, I.
  - unfold mem_str. cbn [existsb]. apply orb_false_r.
  - unfold mem_str. induction l as [|a l IH]; cbn [map existsb]; [reflexivity|]. rewrite IH. reflexivity.
Qed.

Lemma lpe_cte_asked k : lpe_cte k = map (fun p => if asked k (fst p) then snd p else 0) (combine lpe_index lpe_major).
Proof.
  unfold lpe_cte. apply map_ext_in. intros [c a] I. cbn [fst snd].
  rewrite (asked_selected k c); [reflexivity|]. apply in_combine_l in I. exact I.
Qed.

Lemma sqrt54 : sqrt ((4 + 1) / (4 * PI)) = sqrt (5 / (4 * PI)).
Proof. f_equal. f_equal. ring. Qed.


Lemma forall4 {A B} (P : A -> B -> Prop) a b c d ys : Forall2 P [a; b; c; d] ys ->
  exists a' b' c' d', ys = [a'; b'; c'; d'] /\ P a a' /\ P b b' /\ P c c' /\ P d d'.
Proof.
  intros H. inversion H as [|? a' ? y1 Pa H1]; subst. inversion H1 as [|? b' ? y2 Pb H2]; subst.
  inversion H2 as [|? c' ? y3 Pc H3]; subst. inversion H3 as [|? d' ? y4 Pd H4]; subst. inversion H4; subst.
  exists a', b', c', d'. split; [reflexivity|]. split; [exact Pa|]. split; [exact Pb|]. split; assumption.
Qed.

Section Lines.
  Variables (F : list R) (s h p n pp : R) (chosen : string -> bool).
  Lemma sum_lines : forall (cs : list (list R)) (nv : list (string * R)) (ws : list line),
    Forall2 (fun c w => same_turn (rdot F c * PI / 180) (angle (snd w) s h p n pp * (PI / 180))) cs ws ->
    Forall2 (fun (a : string * R) (w : line) => fst a = fst (fst w) /\ snd a = IZR (snd (fst w)) / 10 ^ 4) nv ws ->
    rdot (map (fun c => cos (rdot F c * PI / 180)) cs) (map (fun a => if chosen (fst a) then snd a else 0) nv)
    = 100 * fold_right (fun (w : line) acc => let '(name, amp, k) := w in
        (if chosen name then IZR amp / 10 ^ 6 * cos (angle k s h p n pp * (PI / 180)) else 0) + acc) 0 ws.
  Proof.
    intros cs nv ws H. revert nv. induction H as [|c [[nm z] k] cs ws Hc H IH]; intros nv G; inversion G as [|[nm' v] ? nv' ? [E1 E2] G']; subst.
    - cbn. ring.
    - cbn [map rdot fold_right fst snd] in *. rewrite (IH _ G'). subst nm' v. cbn [snd] in Hc.
      rewrite (proj2 (same_turn_trig _ _ Hc)). destruct (chosen nm); [|ring]. field.
  Qed.
End Lines.

Lemma lines_amplitudes : Forall2 (fun (a : string * R) (w : line) => fst a = fst (fst w) /\ snd a = IZR (snd (fst w)) / 10 ^ 4)
  (combine lpe_index lpe_major) lines.
Proof.
  unfold lpe_index, lpe_major, lines. cbn [combine].
  repeat (apply Forall2_cons; [cbn [fst snd]; split; [reflexivity|lra]|]). apply Forall2_nil.
Qed.

Lemma line_angle s h p n pp s' h' p' n' pp' a b c d e :
  same_mod 360 s s' -> same_mod 360 h h' -> same_mod 360 p p' -> same_mod 360 n (- n') -> pp = pp' ->
  same_turn (rdot [s; h; p; n; pp] [IZR a; IZR b; IZR c; IZR d; IZR e] * PI / 180) (angle (a, b, c, d, e) s' h' p' n' pp' * (PI / 180)).
Proof.
  intros [i ->] [j ->] [k ->] [l ->] ->. unfold angle. cbn [rdot].
  exists (a * i + b * j + c * k + d * l)%Z. rewrite !plus_IZR, !mult_IZR. field.
Qed.

Lemma lpe_value_height corr k t deltat lat : lpe_value corr k t deltat lat = height_at corr (asked k) t deltat lat.
Proof.
  unfold height_at. set (otis := existsb _ _). set (mjd := t + 48622 + deltat).
  pose proof (C52_mean_longitudes mjd false (negb otis)) as L. cbv zeta in L.
  pose proof (C52_perigee_value mjd false (negb otis)) as PPv. cbn [orb] in PPv.
  set (l := mean_longitudes mjd false (negb otis)) in *.
  apply forall4 in L. destruct L as (s & h & p & n & -> & [_ Ls] & [_ Lh] & [_ Lp] & [_ Ln]).
  set (pp := if otis then _ else _).
  assert (Epp : lPP l = pp) by (rewrite PPv; unfold pp; destruct otis; reflexivity).
  assert (En : same_mod 360 (normalize_angle (360 - lN l) 360) (- n)).
  { unfold normalize_angle. destruct (rmod_cong (360 - lN l) 360) as [i ->]. destruct Ln as [j ->].
    exists (1 + i - j)%Z. rewrite minus_IZR, plus_IZR. ring. }
  unfold lpe_value, lpe_potential. rewrite lpe_cte_asked.
  rewrite (sum_lines (lpe_fargs corr t deltat) s h p n pp (asked k) lpe_coef (combine lpe_index lpe_major) lines).
  - unfold height, lpe_gamma, lpe_p20. rewrite sqrt54. replace (lat * PI / 180) with (lat * (PI / 180)) by (unfold Rdiv; ring).
    set (X := fold_right _ _ _). set (q := sqrt _). set (w := sin _). replace 0.5 with (/ 2) by lra. field.
  - assert (EF : lpe_fargs corr t deltat = [lS l; lH l; lP l; normalize_angle (360 - lN l) 360; lPP l]) by reflexivity.
    rewrite EF. unfold lpe_coef, lines.
    repeat (apply Forall2_cons; [cbn [snd]; apply line_angle; assumption|]). apply Forall2_nil.
  - apply lines_amplitudes.
Qed.

(** As many latitudes as times: one height for each pair. *)
Theorem C49_elementwise : forall t lat corrections k, List.length lat = List.length t ->
  exists l, equilibrium_tide t lat corrections k = Flat l /\ List.length l = List.length t /\
  forall i tm y, nth_error t i = Some tm -> nth_error lat i = Some y ->
    nth_error l i = Some (height_at corrections (asked k) (fst tm) (snd tm) y).
Proof.
  intros t lat corr k E. unfold equilibrium_tide. rewrite (proj2 (Nat.eqb_eq _ _) E). cbn [negb].
  eexists. split; [reflexivity|]. rewrite map_length, combine_length, E, Nat.min_id. split; [reflexivity|].
  intros i tm y Ht Hy. assert (C : nth_error (combine lat t) i = Some (y, tm)).
  { clear E. revert i t Ht Hy. induction lat as [|a lat IH]; intros [|i] [|b t]; cbn; try discriminate; [intros [= ->] [= ->]; reflexivity|apply IH]. }
  rewrite (map_nth_error _ _ _ C). cbn [fst snd]. rewrite lpe_value_height. reflexivity.
Qed.
Print Assumptions C49_elementwise.

(** Different numbers: one row for each latitude, one column for each time. *)
Theorem C49_outer : forall t lat corrections k, List.length lat <> List.length t ->
  exists rows, equilibrium_tide t lat corrections k = Outer rows /\ List.length rows = List.length lat /\
  forall i y, nth_error lat i = Some y -> exists row, nth_error rows i = Some row /\ List.length row = List.length t /\
    forall j tm, nth_error t j = Some tm -> nth_error row j = Some (height_at corrections (asked k) (fst tm) (snd tm) y).
Proof.
  intros t lat corr k E. unfold equilibrium_tide. rewrite (proj2 (Nat.eqb_neq _ _) E). cbn [negb].
  eexists. split; [reflexivity|]. rewrite map_length. split; [reflexivity|].
  intros i y Hy. rewrite (map_nth_error _ _ _ Hy). eexists. split; [reflexivity|]. rewrite map_length. split; [reflexivity|].
  intros j tm Ht. rewrite (map_nth_error _ _ _ Ht), lpe_value_height. reflexivity.
Qed.
Print Assumptions C49_outer.

(** ** Consequences *)
Lemma flat_ext corr k t lat lat' : List.length lat = List.length lat' ->
  (forall i y y' tm, nth_error lat i = Some y -> nth_error lat' i = Some y' -> lpe_value corr k (fst tm) (snd tm) y = lpe_value corr k (fst tm) (snd tm) y') ->
  equilibrium_tide t lat corr k = equilibrium_tide t lat' corr k.
Proof.
  intros E H. unfold equilibrium_tide. rewrite <- E. destruct (negb _).
  - f_equal. clear - H E. revert lat' E H. induction lat as [|y lat IH]; intros [|y' lat'] E H; cbn in E |- *; try lia; [reflexivity|].
    f_equal; [apply map_ext; intros tm; apply (H 0%nat); reflexivity|]. apply IH; [lia|]. intros i a a' tm Ha Ha'. apply (H (S i)); assumption.
  - f_equal. clear - H E. revert lat' t E H. induction lat as [|y lat IH]; intros [|y' lat'] [|tm t] E H; cbn in E |- *; try lia; try reflexivity.
    f_equal; [apply (H 0%nat); reflexivity|]. apply IH; [lia|]. intros i a a' q Ha Ha'. apply (H (S i)); assumption.
Qed.

(** The same in both hemispheres. *)
Theorem C49_hemispheres : forall t lat corrections k,
  equilibrium_tide t (map Ropp lat) corrections k = equilibrium_tide t lat corrections k.
Proof.
  intros t lat corr k. apply flat_ext; [apply map_length|]. intros i y y' tm H H'.
  rewrite (map_nth_error _ _ _ H') in H. injection H as <-. unfold lpe_value, lpe_p20.
  replace (- y' * PI / 180) with (- (y' * PI / 180)) by (unfold Rdiv; ring). rewrite sin_neg.
  replace ((- sin (y' * PI / 180)) ^ 2) with (sin (y' * PI / 180) ^ 2) by ring. reflexivity.
Qed.
Print Assumptions C49_hemispheres.

(** No tide where the square of the sine of the latitude is one third. *)
Theorem C49_node_latitude : forall corr chosen t deltat lat, sin (lat * (PI / 180)) ^ 2 = 1 / 3 -> height_at corr chosen t deltat lat = 0.
Proof.
  intros corr ch t dt lat H. unfold height_at. destruct (spec_raw _ _ _) as [|s [|h [|p [|n [|]]]]]; try reflexivity.
  unfold height. rewrite H. replace ((3 * (1 / 3) - 1) / 2) with 0 by field. ring.
Qed.
Print Assumptions C49_node_latitude.

(** Bounded by the sum of the amplitudes of the chosen lines, times the Love factor
    and the largest value of the normalised Legendre function. *)
Theorem C49_bound : forall corr chosen t deltat lat,
  Rabs (height_at corr chosen t deltat lat) <= 0.693 * sqrt (5 / (4 * PI)) * amplitude_sum chosen.
Proof.
  intros corr ch t dt lat.
  assert (Pos : 0 <= amplitude_sum ch).
  { unfold amplitude_sum. generalize lines. induction l as [|[[nm z] k] l IH]; cbn [fold_right]; [lra|].
    destruct (ch nm); [|lra]. pose proof (Rabs_pos (IZR z)). assert (0 <= Rabs (IZR z) / 10 ^ 6) by (apply Rmult_le_pos; lra). lra. }
  pose proof (sqrt_pos (5 / (4 * PI))) as Q.
  unfold height_at. destruct (spec_raw _ _ _) as [|s [|h [|p [|n [|]]]]];
    try (rewrite Rabs_R0; apply Rmult_le_pos; [apply Rmult_le_pos; lra|exact Pos]).
  unfold height. set (S0 := fold_right _ _ _). set (pp := if existsb _ _ then _ else _) in *.
  assert (B : Rabs S0 <= amplitude_sum ch).
  { unfold S0, amplitude_sum. generalize lines. induction l as [|[[nm z] k] l IH]; cbn [fold_right]; [rewrite Rabs_R0; lra|].
    eapply Rle_trans; [apply Rabs_triang|]. apply Rplus_le_compat; [|exact IH].
    destruct (ch nm); [|rewrite Rabs_R0; lra].
    rewrite Rabs_mult. unfold Rdiv at 1. rewrite Rabs_mult, (Rabs_pos_eq (/ 10 ^ 6)) by lra.
    assert (Rabs (cos (angle k s h p n pp * (PI / 180))) <= 1) by (apply Rabs_le; destruct (COS_bound (angle k s h p n pp * (PI / 180))); lra).
    pose proof (Rabs_pos (IZR z)). unfold Rdiv. rewrite <- (Rmult_1_r (Rabs (IZR z) * / 10 ^ 6)) at 2. apply Rmult_le_compat_l; [apply Rmult_le_pos; lra|assumption]. }
  set (w := (3 * sin (lat * (PI / 180)) ^ 2 - 1) / 2).
  assert (W : Rabs w <= 1).
  { assert (0 <= sin (lat * (PI / 180)) ^ 2 <= 1).
    { pose proof (sin2_cos2 (lat * (PI / 180))) as T. unfold Rsqr in T. pose proof (Rle_0_sqr (sin (lat * (PI / 180)))) as A. pose proof (Rle_0_sqr (cos (lat * (PI / 180)))) as B'. unfold Rsqr in A, B'. nra. }
    unfold w. apply Rabs_le. lra. }
  rewrite !Rabs_mult. rewrite (Rabs_pos_eq (1 + 0.299 - 0.606)) by lra. rewrite (Rabs_pos_eq (sqrt _) Q).
  replace (1 + 0.299 - 0.606) with 0.693 by lra.
  rewrite <- Rmult_assoc. pose proof (Rabs_pos w). pose proof (Rabs_pos S0).
  apply Rmult_le_compat; [apply Rmult_le_pos; [apply Rmult_le_pos; lra|lra]|lra| |exact B].
  rewrite <- (Rmult_1_r (0.693 * sqrt (5 / (4 * PI)))) at 2. apply Rmult_le_compat_l; [apply Rmult_le_pos; lra|exact W].
Qed.
Print Assumptions C49_bound.

(** Choosing two disjoint sets of lines gives the sum of their tides. *)
Theorem C49_additive : forall corr a b t deltat lat, (forall c, In c (map lower a) -> ~ In c (map lower b)) ->
  height_at corr (asked (Many (a ++ b))) t deltat lat = height_at corr (asked (Many a)) t deltat lat + height_at corr (asked (Many b)) t deltat lat.
Proof.
  intros corr a b t dt lat D. unfold height_at. destruct (spec_raw _ _ _) as [|s [|h [|p [|n [|]]]]]; try ring.
  set (pp := if existsb _ _ then _ else _). unfold height. rewrite <- Rmult_plus_distr_l. f_equal.
  generalize lines. induction l as [|[[nm z] k] l IH]; cbn [fold_right]; [ring|]. rewrite IH.
  assert (E : forall l, existsb (fun s => String.eqb nm (lower s)) l = true <-> In nm (map lower l)).
  { intros q. rewrite existsb_exists, in_map_iff. split.
    - intros (x & H1 & H2). apply String.eqb_eq in H2. exists x. split; [congruence|exact H1].
    - intros (x & H1 & H2). exists x. split; [exact H2|]. apply String.eqb_eq. congruence. }
  unfold asked. rewrite existsb_app.
  destruct (existsb _ a) eqn:Ea, (existsb _ b) eqn:Eb; cbn [orb]; try ring.
  exfalso. apply E in Ea, Eb. exact (D _ Ea Eb).
Qed.
Print Assumptions C49_additive.

(** ** Agreement with the arguments of the predictors *)
Lemma dot7 a b c d e f g x1 x2 x3 x4 x5 x6 x7 : dot [a; b; c; d; e; f; g] [x1; x2; x3; x4; x5; x6; x7] =
  IZR a * x1 + (IZR b * x2 + (IZR c * x3 + (IZR d * x4 + (IZR e * x5 + (IZR f * x6 + (IZR g * x7 + 0)))))).
Proof. reflexivity. Qed.

Definition shared_names : list string := ["sa"; "ssa"; "msm"; "mm"; "msf"; "mf"; "mst"; "mt"]%string.
Lemma shared_rows corr : Forall (fun w : line => In (fst (fst w)) shared_names ->
  let '(a, b, c, d, e) := snd w in d = 0%Z /\ coefficients corr (fst (fst w)) = Ok [0; a; b; c; 0; e; 0]%Z) lines.
Proof.
  unfold lines. repeat (apply Forall_cons; [cbn [fst snd]; intros I; try (exfalso; apply mem_str_In in I; vm_compute in I; discriminate I);
    (split; [reflexivity|unfold coefficients; destruct (otis_corr corr); reflexivity])|]). apply Forall_nil.
Qed.

(** A line that is also a constituent of the predictors has the same argument there,
    up to whole turns. *)
Theorem C49_same_arguments : forall corr m1 MJD deltat name amp k u f G,
  In (name, amp, k) lines -> In name ["sa"; "ssa"; "msm"; "mm"; "msf"; "mf"; "mst"; "mt"]%string ->
  arguments corr m1 MJD deltat name = Ok (u, f, G) ->
  match spec_raw (MJD + deltat) false (negb (otis_corr corr)) with
  | [s; h; p; n] => exists j : Z, G = angle k s h p n
      (if otis_corr corr then 282.8 else 282.94 + 1.7192 * ((MJD + deltat - 51544.5) / 36525)) + 360 * IZR j
  | _ => False
  end.
Proof.
  intros corr m1 MJD dt name amp k u f G I N A.
  destruct (C12_unreduced _ _ _ _ _ _ _ _ A) as (v & C & H). cbv zeta in H.
  pose proof (proj1 (Forall_forall _ _) (shared_rows corr) _ I N) as W. cbn [fst snd] in W.
  destruct k as [[[[a b] c] d] e]. destruct W as [-> W]. rewrite C in W. apply Ok_inj in W. subst v.
  destruct (spec_raw _ _ _) as [|s [|h [|p [|n [|]]]]]; try exact H.
  destruct H as [j ->]. exists j. rewrite dot7. unfold angle. ring.
Qed.
Print Assumptions C49_same_arguments.

(** The line mf+ (Doodson number 075.565) is the exception: the predictors use 2s + N
    with the longitude N of the node where the line has 2s + N' = 2s - N. *)
Theorem C49_mf_plus_refuted : exists MJD u f G s h p n,
  arguments "OTIS" "perth5" MJD 0 "mf+" = Ok (u, f, G) /\ spec_raw MJD false false = [s; h; p; n] /\
  In ("mf+"%string, (-27630)%Z, (2, 0, 0, 1, 0)%Z) lines /\
  cos (G * (PI / 180)) <> cos (angle (2, 0, 0, 1, 0)%Z s h p n 282.8 * (PI / 180)).
Proof.
  exists 51544.4993. unfold arguments, arguments_from, coefficients.
  replace (assoc "mf+" doodson_table) with (Some [0; 2; 0; 0; 1; 0; 0]%Z) by reflexivity.
  cbn [otis_corr existsb String.eqb Ascii.eqb Bool.eqb orb andb bind negb].
  eexists _, _, _, _, _, _, _. split; [reflexivity|]. unfold spec_raw. split; [reflexivity|]. split; [unfold lines; cbn [In]; tauto|].
  unfold fargs. rewrite dot7. unfold mean_longitudes, raw_longitudes, normalize_angle. cbn [lS lH lP lN lPP].
  replace (51544.4993 + 0 - 51544.4993) with 0 by ring. replace (51544.4993 - 51544.4993) with 0 by ring.
  rewrite (rmod_small (218.3164 + 13.17639648 * 0)) by lra. rewrite (rmod_small (125.0445 - 0.05295377 * 0)) by lra.
  match goal with |- cos ?A <> cos ?B => replace A with (436.6328 * (PI / 180) + 125.0445 * (PI / 180)) by (unfold Rdiv; lra || (set (q := PI * / 180); lra));
    replace B with (436.6328 * (PI / 180) - 125.0445 * (PI / 180)) by (unfold angle, Rdiv; set (q := PI * / 180); lra) end.
  rewrite cos_plus, cos_minus. pose proof PI_RGT_0.
  assert (S1 : 0 < sin (436.6328 * (PI / 180))).
  { replace (436.6328 * (PI / 180)) with (76.6328 * (PI / 180) + 2 * PI) by lra. rewrite sin_2PI_add || rewrite sin_plus, sin_2PI, cos_2PI.
    assert (0 < sin (76.6328 * (PI / 180))) by (apply sin_gt_0; lra). lra. }
  assert (S2 : 0 < sin (125.0445 * (PI / 180))) by (apply sin_gt_0; lra).
  pose proof (Rmult_lt_0_compat _ _ S1 S2). lra.
Qed.
Print Assumptions C49_mf_plus_refuted.

(** ** The node tide appended to a model (io/model.py:1177-1209) *)
Lemma node_nodal o n p : nodal o n p "node" = (0, 1).
Proof.
  unfold nodal. cbn [nodal_rec]. rule_of. cbn [rule_value]. f_equal.
  - unfold atan2. destruct (Rlt_dec 0 1) as [H|H]; [|exfalso; lra].
    replace (0 / 1) with 0 by field. apply atan_0.
  - replace (0 ^ 2 + 1 ^ 2) with 1 by ring. apply sqrt_1.
Qed.

Lemma node_height lat : forall s h p n pp,
  height (String.eqb "node") s h p n pp lat = fst (node_equilibrium lat) * cos (n * (PI / 180)).
Proof.
  intros s h p n pp. unfold height, lines, node_equilibrium, angle. cbn [fold_right String.eqb Ascii.eqb Bool.eqb fst].
  rewrite sqrt54. replace (lat * PI / 180) with (lat * (PI / 180)) by (unfold Rdiv; ring).
  replace ((0 * s + 0 * h + 0 * p + 1 * - n + 0 * pp) * (PI / 180)) with (- (n * (PI / 180))) by ring. rewrite cos_neg.
  set (q := sqrt _). set (w := sin _). set (c := cos _). replace 0.5 with (/ 2) by lra. replace 0.027929 with (27929 / 10 ^ 6) by lra. field.
Qed.

Lemma node_args corr t deltat : let l := mean_longitudes (t + 48622 + deltat) false (negb (otis_corr corr)) in
  arguments corr "perth5" (t + 48622) deltat "node" = Ok (0, 1, lN l + 180).
Proof.
  intros l. unfold arguments, arguments_from, coefficients. replace (String.eqb "node" "s1") with false by reflexivity. rewrite andb_false_r.
  replace (assoc "node" doodson_table) with (Some [0; 0; 0; 0; 1; 0; 2]%Z) by reflexivity. cbn [bind].
  fold l. rewrite node_nodal. cbn [fst snd]. do 2 f_equal. unfold fargs. rewrite dot7. ring.
Qed.

Lemma node_predict corr t deltat amp ph :
  predict_map (code_args corr) corr (t, deltat) [[((amp * cos (- (ph * PI / 180)), amp * sin (- (ph * PI / 180))), false)]] ["node"%string]
  = Ok [(amp * cos (theta (code_args corr) corr (t, deltat) "node" - ph * PI / 180), false)].
Proof.
  unfold predict_map, check_known. cbn [forallb]. replace (a_known (code_args corr) "node") with (is_ok (coefficients corr "node")) by reflexivity. unfold coefficients. replace (String.eqb "node" "s1") with false by reflexivity. rewrite andb_false_r.
  replace (assoc "node" doodson_table) with (Some [0; 0; 0; 0; 1; 0; 2]%Z) by reflexivity. cbn [is_ok andb bind mapM].
  unfold point. cbn [accumulate bind fst snd orb]. do 2 f_equal.
  f_equal. unfold component, cre, cim. cbn [fst snd].
  assert (Ef : a_f (code_args corr) (t, deltat) "node" = 1).
  { unfold code_args. cbn [a_f fst snd]. unfold ArgModel.mjd_tide. rewrite node_args. reflexivity. }
  rewrite Ef.
  rewrite cos_minus, cos_neg, sin_neg. ring.
Qed.

(** With corrections that are not of OTIS type the predicted tide of the appended
    constituent is the node line of the equilibrium tide. *)
Theorem C49_appended_node : forall corr t deltat lat,
  ~ In corr ["OTIS"; "ATLAS"; "TMD3"; "netcdf"]%string ->
  let amp := fst (node_equilibrium lat) in let ph := snd (node_equilibrium lat) in
  predict_map (code_args corr) corr (t, deltat) [[((amp * cos (- (ph * PI / 180)), amp * sin (- (ph * PI / 180))), false)]] ["node"%string]
  = Ok [(height_at corr (String.eqb "node") t deltat lat, false)].
Proof.
  intros corr t dt lat NI amp ph.
  assert (O : otis_corr corr = false).
  { destruct (otis_corr corr) eqn:E; [|reflexivity]. exfalso. apply NI. unfold otis_corr in E. apply existsb_exists in E.
    destruct E as (x & Hx & Ex). apply String.eqb_eq in Ex. subst x. cbn [In] in *. tauto. }
  rewrite node_predict. do 3 f_equal. unfold height_at. change (existsb _ _) with (otis_corr corr). rewrite O. cbn [negb].
  pose proof (C52_mean_longitudes (t + 48622 + dt) false true) as L. cbv zeta in L.
  apply forall4 in L. destruct L as (s & h & p & n & -> & _ & _ & _ & [_ Ln]).
  rewrite (node_height lat). fold amp. f_equal.
  unfold theta. change (otis_type corr) with (otis_corr corr). rewrite O. unfold code_args. cbn [a_G a_u fst snd].
  change ArgModel.mjd_tide with 48622. rewrite node_args, O. cbn [negb pG_of pu_of].
  destruct Ln as [j ->]. unfold ph, node_equilibrium. cbn [snd].
  assert (S0 : same_turn ((n + 360 * IZR j + 180) * PI / 180 + 0 - 180 * PI / 180) (n * (PI / 180))) by (exists j; field).
  apply (same_turn_trig _ _ S0).
Qed.
Print Assumptions C49_appended_node.

(** With OTIS-type corrections it does not change with time at all. *)
Theorem C49_appended_node_otis_refuted : forall corr, In corr ["OTIS"; "ATLAS"; "TMD3"; "netcdf"]%string ->
  (forall t deltat lat, let amp := fst (node_equilibrium lat) in let ph := snd (node_equilibrium lat) in
    predict_map (code_args corr) corr (t, deltat) [[((amp * cos (- (ph * PI / 180)), amp * sin (- (ph * PI / 180))), false)]] ["node"%string]
    = Ok [(- amp, false)]) /\
  exists t, height_at corr (String.eqb "node") t 0 90 = fst (node_equilibrium 90) /\ 0 < fst (node_equilibrium 90).
Proof.
  intros corr I. assert (O : otis_corr corr = true).
  { unfold otis_corr. apply existsb_exists. exists corr. split; [|apply String.eqb_refl]. cbn [In] in *. tauto. }
  split.
  - intros t dt lat amp ph. rewrite node_predict. do 3 f_equal.
    unfold theta. change (otis_type corr) with (otis_corr corr). rewrite O. unfold code_args. cbn [a_omega a_phase a_u fst snd].
    change ArgModel.mjd_tide with 48622. rewrite node_args. cbn [pu_of].
    match goal with |- amp * cos ?X = _ => replace X with (- PI) end.
    + rewrite cos_neg, cos_PI. ring.
    + unfold ph, node_equilibrium. cbn [snd].
      change (match constituent_parameters "node" false with Ok q => p_omega q | Err _ => 0 end) with 0.
      change (match constituent_parameters "node" false with Ok q => p_phase q | Err _ => 0 end) with 0. field.
  - exists (125.0445 / 0.05295377 - (48622 - 51544.4993)). split.
    + unfold height_at. change (existsb _ _) with (otis_corr corr). rewrite O. cbn [negb]. unfold spec_raw.
      rewrite (node_height 90).
      match goal with |- _ * cos ?X = _ => replace X with 0 end; [rewrite cos_0; ring|].
      field; lra.
    + unfold node_equilibrium. cbn [fst]. replace (90 * PI / 180) with (PI / 2) by field. rewrite sin_PI2.
      assert (0 < sqrt ((4 + 1) / (4 * PI))). { apply sqrt_lt_R0. pose proof PI_RGT_0. apply Rmult_lt_0_compat; [lra|apply Rinv_0_lt_compat; lra]. }
      apply Rmult_lt_0_compat; [lra|assumption].
Qed.
Print Assumptions C49_appended_node_otis_refuted.

(** ** Cases *)
Example C49_case_names : asked (One "MF") "mf" = true /\ asked (Many ["Mm"; "mf"]%string) "mm" = true /\ asked (One "mf") "mf+" = false.
Proof. split; [|split]; reflexivity. Qed.
Example C49_case_shapes : exists a b c d e, equilibrium_tide [(0, 0)] [10; 20] "OTIS" Default = Outer [[a]; [b]] /\
  equilibrium_tide [(0, 0); (1, 0)] [10; 20] "GOT" (One "mf") = Flat [c; d] /\ equilibrium_tide [(0, 0)] [30] "FES" Default = Flat [e].
Proof. do 5 eexists. split; [reflexivity|]. split; reflexivity. Qed.
Example C49_case_disjoint : forall c, In c (map lower ["Mm"; "mf"]%string) -> ~ In c (map lower ["ssa"]%string).
Proof. cbn. intros c [<-|[<-|[]]] [E|[]]; discriminate. Qed.
Example C49_case_amplitudes : amplitude_sum (String.eqb "mf") = 0.066607.
Proof. unfold amplitude_sum, lines. cbn [fold_right String.eqb Ascii.eqb Bool.eqb]. rewrite Rabs_left by lra. lra. Qed.
Example C49_case_got : ~ In "GOT"%string ["OTIS"; "ATLAS"; "TMD3"; "netcdf"]%string.
Proof. cbn. intuition discriminate. Qed.
