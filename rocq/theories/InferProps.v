(** Property theorems C07-C09, C54: minor tide inference. *)
From Coq Require Import String List Reals Lra Lia Bool Arith.
From Verif Require Import PyBase RBase StrBase PredictModel PredictSpec PredictProofs
  InferModel InferSpec InferProofs.
Import ListNotations.
Open Scope R_scope.

(** * C07 *)
(** A constituent supplied under the exact spelling used by the inference
    contributes nothing: its arguments have no influence on the result.
    Missing from the full statement: supplied names in upper case (below). *)
Theorem C07_supplied_not_inferred_partial :
  forall A A' B B' freq gam corr method cs nc rows ts minor raise m,
  In m cs -> agree_except m A A' -> agree_except_idx m B B' ->
  infer_minor A B freq gam corr method cs nc rows ts minor raise =
  infer_minor A' B' freq gam corr method cs nc rows ts minor raise.
Proof.
  intros A A' B B' freq gam corr method cs nc rows ts minor raise m Hm HA HB.
  assert (P : forall gamf mj nm am an meth M tm cols row k, ~ In (nth k nm EmptyString) cs ->
     pivot_contrib A freq gamf mj nm am an meth M tm cols row k =
     pivot_contrib A' freq gamf mj nm am an meth M tm cols row k).
  { intros gamf mj nm am an meth M tm cols row k Hk. unfold pivot_contrib.
    destruct (HA tm (nth k nm EmptyString)) as (-> & -> & ->); [congruence|reflexivity]. }
  assert (E1 : infer_semi_diurnal A freq method cs nc rows ts minor raise =
               infer_semi_diurnal A' freq method cs nc rows ts minor raise).
  { unfold infer_semi_diurnal. destruct (parse_method method); cbn [bind]; [|reflexivity].
    apply family_ext. intros tm cols row k _ Hk. exact (P _ _ _ _ _ _ _ _ _ _ _ Hk). }
  assert (E2 : infer_diurnal A freq gam method cs nc rows ts minor raise =
               infer_diurnal A' freq gam method cs nc rows ts minor raise).
  { unfold infer_diurnal. destruct (parse_method method); cbn [bind]; [|reflexivity].
    apply family_ext. intros tm cols row k _ Hk. exact (P _ _ _ _ _ _ _ _ _ _ _ Hk). }
  assert (E3 : infer_long_period A freq cs nc rows ts minor raise =
               infer_long_period A' freq cs nc rows ts minor raise).
  { apply family_ext. intros tm cols row k _ Hk. exact (P _ _ _ _ _ _ _ _ _ _ _ Hk). }
  assert (E4 : infer_short_period B corr cs nc rows ts minor raise =
               infer_short_period B' corr cs nc rows ts minor raise).
  { apply family_ext. intros tm cols row k _ Hk. unfold sp_contrib.
    destruct (HB tm k) as (-> & -> & ->); [congruence|reflexivity]. }
  unfold infer_minor. now rewrite E1, E2, E3, E4.
Qed.
Print Assumptions C07_supplied_not_inferred_partial.

Definition toy_a : tide_args := {|
  a_known := fun _ => true; a_u := fun _ _ => 0; a_f := fun _ _ => 1; a_G := fun _ _ => 0;
  a_omega := fun _ => 0; a_phase := fun _ => 0 |}.
Definition toy_b : minor_args := {| b_u := fun _ _ => 0; b_f := fun _ _ => 1; b_G := fun _ _ => 0 |}.
Definition toy_freq (c : string) : R :=
  if String.eqb c "m2" then 1 else if String.eqb c "s2" then 2 else
  if String.eqb c "o1" then 1 else if String.eqb c "k1" then 2 else
  if String.eqb c "mm" then 1 else if String.eqb c "mf" then 2 else 0.

Lemma toy_angle : 0 * PI * / 180 + 0 = 0.
Proof. field. Qed.

(** Supplying K2 in upper case (accepted everywhere else, majors are matched
    case-insensitively): the k2 tide is inferred although it was supplied. *)
Theorem C07_any_case_refuted :
  exists A B freq gam cs nc rows ts v,
  In "K2"%string cs /\ NoDup (map lower cs) /\ 0 < v /\
  infer_minor A B freq gam "GOT" "linear" cs nc rows ts (Some ["k2"]%string) false = Ok (Arr [(v, false)]) /\
  infer_minor A B freq gam "GOT" "linear" (map lower cs) nc rows ts (Some ["k2"]%string) false = Ok Scalar0.
Proof.
  exists toy_a, toy_b, toy_freq, (fun _ => 1), ["n2"; "m2"; "s2"; "K2"]%string, 4%nat,
    [[((121006/10^6, 0), false); ((0, 0), false); ((0, 0), false); ((1, 0), false)]], [(0, 0)],
    (79924/10^6).
  split; [cbn; tauto|]. split.
  { apply nodupb_NoDup; vm_compute; reflexivity. }
  split; [lra|]. split; [|reflexivity].
  cbv -[Rlt_dec Rplus Rmult Rminus Rinv Ropp IZR cos sin PI pow].
  rewrite toy_angle.
  destruct (Rlt_dec 0 1); [|lra].
  rewrite cos_0, sin_0. cbv [fst snd]. do 4 f_equal. field.
Qed.
Print Assumptions C07_any_case_refuted.

Example C07_case : In "k2"%string ["n2"; "m2"; "s2"; "k2"]%string /\ agree_except "k2" toy_a toy_a.
Proof. split; [cbn; tauto|]. intros tm c _. auto. Qed.

(** * C08 *)
(** Full statement: the result is the sum over exactly the wanted minors.
    Proved here whenever some wanted minor is not the first of its family;
    when only the first one is wanted the code returns 0 (refutation below). *)
Theorem C08_short_period_sum_partial :
  forall B corr cs nc rows ts minor raise ps,
  NoDup (map lower cs) -> (length cs <= nc)%nat -> Forall (fun r => length r = nc) rows ->
  (6 <= n_present cs sp_majors)%nat -> compatible ts rows ps ->
  (exists m, wanted cs minor (tl sp_minors) m) ->
  infer_short_period B corr cs nc rows ts minor raise =
  Ok (Arr (map (fun p =>
    (rsum (map (fun k =>
       term (b_f B (fst p) k) (b_G B (fst p) k * PI / 180 + b_u B (fst p) k)
         (let coef := if String.eqb corr "FES" then sp_coef_fes k else sp_coef k in
          (rsum (map (fun q => snd q * cre (fst (supplied cs (snd p) (nth (fst q) sp_majors EmptyString)))) coef),
           rsum (map (fun q => snd q * cim (fst (supplied cs (snd p) (nth (fst q) sp_majors EmptyString)))) coef))))
       (wanted_idx cs minor sp_minors)), false)) ps)).
Proof.
  intros B corr cs nc rows ts minor raise ps ND HL HR HP HC (m & Hm1 & Hm2 & Hm3).
  destruct (family_value sp_majors 6 sp_minors (sp_contrib B corr) cs nc rows ts minor raise ps ND HL HP HC)
    as (cols & E1 & E2).
  unfold infer_short_period. rewrite E2. clear E2.
  assert (NA : np_any (wanted_idx cs minor sp_minors) = true).
  { apply np_any_spec. destruct (In_nth _ _ EmptyString Hm1) as (k & K1 & K2).
    exists (S k). split; [|lia]. apply in_wanted_idx. split; [cbn in *; lia|].
    change (nth (S k) sp_minors EmptyString) with (nth k (tl sp_minors) EmptyString). rewrite K2.
    split; auto. now right. }
  rewrite NA. do 2 f_equal. apply map_ext_in. intros [tm row] Hp. cbn [fst snd].
  assert (Hrow : length row = nc).
  { rewrite Forall_forall in HR. apply HR.
    destruct HC as [(r & -> & _ & ->)|[(t & -> & ->)|(_ & _ & ->)]].
    - apply in_map_iff in Hp. destruct Hp as (t & E & _). injection E as _ <-. now left.
    - apply in_map_iff in Hp. destruct Hp as (r & E & H). injection E as _ <-. auto.
    - now apply in_combine_r in Hp. }
  destruct (lookups_ok cs nc sp_majors ND HL) as (cols' & F1 & F2 & F3 & F4).
  assert (cols' = cols) by congruence. subst cols'. f_equal.
  - f_equal. apply map_ext_in. intros k Hk. unfold sp_contrib. cbn [fst]. rewrite component_term. f_equal.
    unfold sp_zmin. set (coef := if String.eqb corr "FES" then sp_coef_fes k else sp_coef k).
    assert (HB : Forall (fun q => (fst q < 9)%nat) coef).
    { subst coef. destruct (String.eqb corr "FES").
      - unfold sp_coef_fes. destruct (find _ _) as [q|] eqn:Ef.
        + apply find_some in Ef. destruct Ef as [Ef _].
          repeat (destruct Ef as [<-|Ef]; [repeat constructor; cbn; lia|]). destruct Ef.
        + unfold sp_coef. destruct (Nat.lt_ge_cases k (length sp_table)) as [Hlt|Hge].
          * pose proof (nth_In sp_table [] Hlt) as Hin. revert Hin. generalize (nth k sp_table []). intros l Hin.
            repeat (destruct Hin as [<-|Hin]; [repeat constructor; cbn; lia|]). destruct Hin.
          * rewrite nth_overflow by auto. constructor.
      - unfold sp_coef. destruct (Nat.lt_ge_cases k (length sp_table)) as [Hlt|Hge].
        + pose proof (nth_In sp_table [] Hlt) as Hin. revert Hin. generalize (nth k sp_table []). intros l Hin.
          repeat (destruct Hin as [<-|Hin]; [repeat constructor; cbn; lia|]). destruct Hin.
        + rewrite nth_overflow by auto. constructor. }
    clearbody coef. induction HB as [|[i c] coef Hi HB IH]; cbn [fold_right map rsum]; [reflexivity|].
    rewrite IH. cbn [fst snd].
    assert (G : nth i (map (fun o => pick row o 1) cols) ((0,0),false) = pick row (nth i cols None) 1).
    { change ((0,0),false) with (pick row None 1). now rewrite map_nth with (d := None). }
    rewrite G, F4 by (auto; exact Hi). cbn [fst snd].
    unfold cadd, cscale, cre, cim. cbn [fst snd]. f_equal; field.
  - clear NA. induction (wanted_idx cs minor sp_minors); auto.
Qed.
Print Assumptions C08_short_period_sum_partial.

(** If nothing is wanted, the result is zero. *)
Theorem C08_nothing_wanted :
  forall B corr cs nc rows ts minor raise,
  NoDup (map lower cs) -> (length cs <= nc)%nat -> (6 <= n_present cs sp_majors)%nat ->
  rows <> [] -> length ts = length rows ->
  (forall m, ~ wanted cs minor sp_minors m) ->
  infer_short_period B corr cs nc rows ts minor raise = Ok Scalar0.
Proof.
  intros B corr cs nc rows ts minor raise ND HL HP Hr Ht Hm.
  assert (HC : compatible ts rows (combine ts rows)) by (right; right; auto).
  destruct (family_value sp_majors 6 sp_minors (sp_contrib B corr) cs nc rows ts minor raise _ ND HL HP HC)
    as (cols & E1 & E2).
  unfold infer_short_period. rewrite E2.
  destruct (np_any _) eqn:E; auto. apply np_any_spec in E. destruct E as (k & K & _).
  apply in_wanted_idx in K. exfalso. now apply (Hm (nth k sp_minors EmptyString)).
Qed.
Print Assumptions C08_nothing_wanted.

Lemma pivot_value A freq gamf c0 c1 c2 names a0 a1 a2 an cs nc row cols tm k M :
  mapM (lookup cs nc) [c0; c1; c2] = Ok cols -> NoDup (map lower cs) -> (length cs <= nc)%nat -> length row = nc ->
  fst (pivot_contrib A freq gamf [c0; c1; c2] names [a0; a1; a2] an Linear M tm cols row k) =
  minor_tide A tm (nth k names EmptyString)
    (inferred freq gamf cs row c0 c1 c2 a0 a1 a2 (nth k names EmptyString) (nth k an 0)).
Proof.
  intros E1 ND HL Hrow.
  destruct (lookups_ok cs nc [c0; c1; c2] ND HL) as (cols' & F1 & F2 & F3 & F4).
  assert (cols' = cols) by congruence. subst cols'.
  pose proof (F4 row 0%nat (a0 * gamf (freq c0)) Hrow ltac:(cbn; lia)) as P0.
  pose proof (F4 row 1%nat (a1 * gamf (freq c1)) Hrow ltac:(cbn; lia)) as P1.
  pose proof (F4 row 2%nat (a2 * gamf (freq c2)) Hrow ltac:(cbn; lia)) as P2.
  cbn [nth] in P0, P1, P2.
  unfold pivot_contrib. cbv zeta. cbn [fst]. unfold minor_tide. rewrite component_term. f_equal.
  change (nth 0 [c0; c1; c2] EmptyString) with c0. change (nth 1 [c0; c1; c2] EmptyString) with c1.
  change (nth 2 [c0; c1; c2] EmptyString) with c2.
  change (nth 0 [a0; a1; a2] 0) with a0. change (nth 1 [a0; a1; a2] 0) with a1. change (nth 2 [a0; a1; a2] 0) with a2.
  rewrite P0, P1, P2. unfold inferred. f_equal.
  unfold lin_interp, piecewise, normalised, line.
  destruct (Rlt_dec (freq c0) (freq c1)); [destruct (Rlt_dec (freq (nth k names EmptyString)) (freq c1))|];
    unfold cadd, csub, cscale, cre, cim, Rdiv; cbn [fst snd]; f_equal; ring.
Qed.

Lemma pivot_family_sum A freq gamf c0 c1 c2 m0 names a0 a1 a2 an M cs nc rows ts minor raise ps :
  NoDup (map lower cs) -> (length cs <= nc)%nat -> Forall (fun r => length r = nc) rows ->
  In c0 (map lower cs) -> In c1 (map lower cs) -> In c2 (map lower cs) -> compatible ts rows ps ->
  (exists m, wanted cs minor names m) ->
  exists d, family [c0; c1; c2] 3 (m0 :: names)
    (pivot_contrib A freq gamf [c0; c1; c2] (m0 :: names) [a0; a1; a2] an Linear M) cs nc rows ts minor raise = Ok d /\
  values d = Some (map (fun p => rsum (map (fun k =>
     minor_tide A (fst p) (nth k (m0 :: names) EmptyString)
       (inferred freq gamf cs (snd p) c0 c1 c2 a0 a1 a2 (nth k (m0 :: names) EmptyString) (nth k an 0)))
     (wanted_idx cs minor (m0 :: names)))) ps).
Proof.
  intros ND HL HR I0 I1 I2 HC (m & Hm1 & Hm2 & Hm3).
  assert (HP : (3 <= n_present cs [c0; c1; c2])%nat).
  { unfold n_present. cbn [filter]. apply mem_str_In in I0, I1, I2. rewrite I0, I1, I2. cbn. lia. }
  destruct (family_value [c0; c1; c2] 3 (m0 :: names)
    (pivot_contrib A freq gamf [c0; c1; c2] (m0 :: names) [a0; a1; a2] an Linear M) cs nc rows ts minor raise ps ND HL HP HC)
    as (cols & E1 & E2).
  rewrite E2. clear E2.
  assert (NA : np_any (wanted_idx cs minor (m0 :: names)) = true).
  { apply np_any_spec. destruct (In_nth _ _ EmptyString Hm1) as (k & K1 & K2).
    exists (S k). split; [|lia]. apply in_wanted_idx. split; [cbn in *; lia|].
    cbn [nth]. rewrite K2. split; auto. now right. }
  rewrite NA. eexists. split; [reflexivity|]. cbn [values]. rewrite map_map. f_equal.
  apply map_ext_in. intros [tm row] Hp. cbn [fst snd].
  assert (Hrow : length row = nc).
  { rewrite Forall_forall in HR. apply HR.
    destruct HC as [(r & -> & _ & ->)|[(t & -> & ->)|(_ & _ & ->)]].
    - apply in_map_iff in Hp. destruct Hp as (t & E & _). injection E as _ <-. now left.
    - apply in_map_iff in Hp. destruct Hp as (r & E & H). injection E as _ <-. auto.
    - now apply in_combine_r in Hp. }
  f_equal. apply map_ext. intros k. now apply (pivot_value _ _ _ _ _ _ _ _ _ _ _ cs nc).
Qed.

Theorem C08_semi_diurnal_sum_partial :
  forall A freq method cs nc rows ts minor raise ps,
  lower method = "linear"%string ->
  NoDup (map lower cs) -> (length cs <= nc)%nat -> Forall (fun r => length r = nc) rows ->
  In "n2"%string (map lower cs) -> In "m2"%string (map lower cs) -> In "s2"%string (map lower cs) ->
  compatible ts rows ps -> (exists m, wanted cs minor (tl sd_minors) m) ->
  exists d, infer_semi_diurnal A freq method cs nc rows ts minor raise = Ok d /\
  values d = Some (map (fun p => rsum (map (fun k =>
     minor_tide A (fst p) (nth k sd_minors EmptyString)
       (inferred freq (fun _ => 1) cs (snd p) "n2" "m2" "s2" (121006/10^6) (631931/10^6) (294019/10^6)
          (nth k sd_minors EmptyString) (nth k sd_amin 0)))
     (wanted_idx cs minor sd_minors))) ps).
Proof.
  intros A freq method cs nc rows ts minor raise ps HM ND HL HR I0 I1 I2 HC HW.
  unfold infer_semi_diurnal, parse_method. rewrite HM. cbn [String.eqb Ascii.eqb Bool.eqb bind].
  eapply pivot_family_sum; eauto.
Qed.
Print Assumptions C08_semi_diurnal_sum_partial.

Theorem C08_diurnal_sum_partial :
  forall A freq gam method cs nc rows ts minor raise ps,
  lower method = "linear"%string ->
  NoDup (map lower cs) -> (length cs <= nc)%nat -> Forall (fun r => length r = nc) rows ->
  In "q1"%string (map lower cs) -> In "o1"%string (map lower cs) -> In "k1"%string (map lower cs) ->
  compatible ts rows ps -> (exists m, wanted cs minor (tl di_minors) m) ->
  exists d, infer_diurnal A freq gam method cs nc rows ts minor raise = Ok d /\
  values d = Some (map (fun p => rsum (map (fun k =>
     minor_tide A (fst p) (nth k di_minors EmptyString)
       (inferred freq gam cs (snd p) "q1" "o1" "k1" (50184/10^6) (262163/10^6) (368731/10^6)
          (nth k di_minors EmptyString) (nth k di_amin 0)))
     (wanted_idx cs minor di_minors))) ps).
Proof.
  intros A freq gam method cs nc rows ts minor raise ps HM ND HL HR I0 I1 I2 HC HW.
  unfold infer_diurnal, parse_method. rewrite HM. cbn [String.eqb Ascii.eqb Bool.eqb bind].
  eapply pivot_family_sum; eauto.
Qed.
Print Assumptions C08_diurnal_sum_partial.

Theorem C08_long_period_sum_partial :
  forall A freq cs nc rows ts minor raise ps,
  NoDup (map lower cs) -> (length cs <= nc)%nat -> Forall (fun r => length r = nc) rows ->
  In "node"%string (map lower cs) -> In "mm"%string (map lower cs) -> In "mf"%string (map lower cs) ->
  compatible ts rows ps -> (exists m, wanted cs minor (tl lp_minors) m) ->
  exists d, infer_long_period A freq cs nc rows ts minor raise = Ok d /\
  values d = Some (map (fun p => rsum (map (fun k =>
     minor_tide A (fst p) (nth k lp_minors EmptyString)
       (inferred freq (fun _ => 1) cs (snd p) "node" "mm" "mf" (27929/10^6) (35184/10^6) (66607/10^6)
          (nth k lp_minors EmptyString) (nth k lp_amin 0)))
     (wanted_idx cs minor lp_minors))) ps).
Proof.
  intros A freq cs nc rows ts minor raise ps ND HL HR I0 I1 I2 HC HW.
  eapply pivot_family_sum; eauto.
Qed.
Print Assumptions C08_long_period_sum_partial.

(** A minor whose frequency and amplitude are those of a pivot gets exactly the
    constant of that pivot (the interpolation passes through the pivots). *)
Theorem C08_interpolation_exact_at_pivots :
  forall freq g cs row c0 c1 c2 a0 a1 a2 m,
  freq c0 < freq c1 < freq c2 -> a0 <> 0 -> a1 <> 0 -> a2 <> 0 ->
  g (freq c0) <> 0 -> g (freq c1) <> 0 -> g (freq c2) <> 0 ->
  (freq m = freq c0 -> inferred freq g cs row c0 c1 c2 a0 a1 a2 m a0 = fst (supplied cs row c0)) /\
  (freq m = freq c1 -> inferred freq g cs row c0 c1 c2 a0 a1 a2 m a1 = fst (supplied cs row c1)) /\
  (freq m = freq c2 -> inferred freq g cs row c0 c1 c2 a0 a1 a2 m a2 = fst (supplied cs row c2)).
Proof.
  intros freq g cs row c0 c1 c2 a0 a1 a2 m [H1 H2] A0 A1 A2 G0 G1 G2.
  unfold inferred, piecewise, normalised, line, cscale.
  repeat split; intros ->.
  - destruct (Rlt_dec (freq c0) (freq c1)); [|lra].
    destruct (supplied cs row c0) as [[x y] ?]. unfold cre, cim. cbn [fst snd].
    f_equal; field; repeat split; auto; lra.
  - destruct (Rlt_dec (freq c0) (freq c1)); [|lra]. destruct (Rlt_dec (freq c1) (freq c1)); [lra|].
    destruct (supplied cs row c1) as [[x y] ?]. unfold cre, cim. cbn [fst snd].
    f_equal; field; repeat split; auto; lra.
  - destruct (Rlt_dec (freq c0) (freq c1)); [|lra]. destruct (Rlt_dec (freq c2) (freq c1)); [lra|].
    destruct (supplied cs row c2) as [[x y] ?]. unfold cre, cim. cbn [fst snd].
    f_equal; field; repeat split; auto; lra.
Qed.
Print Assumptions C08_interpolation_exact_at_pivots.

(** Asking only for the first minor of a family yields nothing, although that
    minor has a non-zero tide. *)
Theorem C08_single_request_refuted :
  exists A B freq gam cs nc rows ts,
  wanted cs (Some ["eps2"]%string) sd_minors "eps2" /\
  infer_minor A B freq gam "GOT" "linear" cs nc rows ts (Some ["eps2"]%string) true = Err OtherError /\
  infer_semi_diurnal A freq "linear" cs nc rows ts (Some ["eps2"]%string) true = Ok Scalar0 /\
  (forall p, In p (combine ts rows) ->
     0 < minor_tide A (fst p) "eps2"
       (inferred freq (fun _ => 1) cs (snd p) "n2" "m2" "s2" (121006/10^6) (631931/10^6) (294019/10^6)
          "eps2" (4669/10^6))).
Proof.
  exists toy_a, toy_b, toy_freq, (fun _ => 1), ["n2"; "m2"; "s2"]%string, 3%nat,
    [[((121006/10^6, 0), false); ((0, 0), false); ((0, 0), false)]], [(0, 0)].
  split.
  { split; [cbn; tauto|]. split; [cbn; intuition discriminate|cbn; tauto]. }
  split; [reflexivity|]. split; [reflexivity|].
  intros p [<-|[]]. cbn [fst snd].
  cbv -[Rlt_dec Rplus Rmult Rminus Rinv Ropp IZR cos sin PI pow Rlt].
  rewrite toy_angle. destruct (Rlt_dec 0 1); [|lra]. rewrite cos_0, sin_0.
  match goal with |- 0 < ?x => replace x with (4669/10^6) by (cbv [fst snd]; field) end. lra.
Qed.
Print Assumptions C08_single_request_refuted.

(** The same for every family and every input: if the only wanted minor is the
    first of the family, the family yields the scalar 0. *)
Theorem C08_first_minor_alone_dropped :
  forall A B freq gam corr cs nc rows ts raise,
  NoDup (map lower cs) -> (length cs <= nc)%nat -> length ts = length rows -> rows <> [] ->
  ((6 <= n_present cs sp_majors)%nat ->
   infer_short_period B corr cs nc rows ts (Some ["2q1"]%string) raise = Ok Scalar0) /\
  ((3 <= n_present cs sd_majors)%nat ->
   infer_semi_diurnal A freq "linear" cs nc rows ts (Some ["eps2"]%string) raise = Ok Scalar0) /\
  ((3 <= n_present cs di_majors)%nat ->
   infer_diurnal A freq gam "linear" cs nc rows ts (Some ["2q1"]%string) raise = Ok Scalar0) /\
  ((3 <= n_present cs lp_majors)%nat ->
   infer_long_period A freq cs nc rows ts (Some ["sa"]%string) raise = Ok Scalar0).
Proof.
  intros A B freq gam corr cs nc rows ts raise ND HL Ht Hr.
  assert (HC : compatible ts rows (combine ts rows)) by (right; right; auto).
  assert (NA : forall m names, ~ In m names -> np_any (wanted_idx cs (Some [m]) (m :: names)) = false).
  { intros m names Hm. destruct (np_any _) eqn:E; auto. apply np_any_spec in E.
    destruct E as (k & K & Hk). apply in_wanted_idx in K. destruct K as [K1 (K2 & _ & K3)].
    destruct k as [|k]; [congruence|]. cbn [nth] in K3. destruct K3 as [K3|[]].
    exfalso. apply Hm. rewrite K3. apply nth_In. cbn in K1. lia. }
  repeat split; intros HP.
  - destruct (family_value sp_majors 6 sp_minors (sp_contrib B corr) cs nc rows ts (Some ["2q1"]%string) raise _ ND HL HP HC)
      as (cols & _ & E). unfold infer_short_period. rewrite E. unfold sp_minors.
    rewrite NA; auto. cbn. intuition discriminate.
  - unfold infer_semi_diurnal. cbn [parse_method lower smap]. 
    change (parse_method "linear") with (@Ok imethod Linear). cbn [bind].
    destruct (family_value sd_majors 3 sd_minors
      (pivot_contrib A freq (fun _ => 1) sd_majors sd_minors sd_amaj sd_amin Linear sd_Ainv)
      cs nc rows ts (Some ["eps2"]%string) raise _ ND HL HP HC) as (cols & _ & E). rewrite E.
    unfold sd_minors. rewrite NA; auto. cbn. intuition discriminate.
  - unfold infer_diurnal. change (parse_method "linear") with (@Ok imethod Linear). cbn [bind].
    destruct (family_value di_majors 3 di_minors
      (pivot_contrib A freq gam di_majors di_minors di_amaj di_amin Linear di_Ainv)
      cs nc rows ts (Some ["2q1"]%string) raise _ ND HL HP HC) as (cols & _ & E). rewrite E.
    unfold di_minors. rewrite NA; auto. cbn. intuition discriminate.
  - unfold infer_long_period.
    destruct (family_value lp_majors 3 lp_minors
      (pivot_contrib A freq (fun _ => 1) lp_majors lp_minors lp_amaj lp_amin Linear [])
      cs nc rows ts (Some ["sa"]%string) raise _ ND HL HP HC) as (cols & _ & E). rewrite E.
    unfold lp_minors. rewrite NA; auto. cbn. intuition discriminate.
Qed.
Print Assumptions C08_first_minor_alone_dropped.

Example C08_case :
  let cs := ["Q1"; "o1"; "k1"; "n2"; "m2"; "s2"; "node"; "mm"; "mf"]%string in
  NoDup (map lower cs) /\ (6 <= n_present cs sp_majors)%nat /\
  wanted cs (Some ["mu2"; "2q1"]%string) (tl sp_minors) "mu2" /\
  wanted cs None (tl sd_minors) "k2" /\ wanted cs None (tl di_minors) "p1" /\
  wanted cs None (tl lp_minors) "ssa" /\
  toy_freq "n2" < toy_freq "m2" < toy_freq "s2" /\
  compatible [(0,0); (1,0)] [[((1,2),false)]] [((0,0), [((1,2),false)]); ((1,0), [((1,2),false)])].
Proof.
  cbv zeta. split; [apply nodupb_NoDup; vm_compute; reflexivity|].
  split; [vm_compute; lia|].
  do 4 (split; [split; [apply in_compute; vm_compute; reflexivity|];
                split; [apply not_in_compute; vm_compute; reflexivity|
                        exact I || (apply in_compute; vm_compute; reflexivity)]|]).
  split; [unfold toy_freq; cbn; lra|].
  left. exists [((1,2),false)]. split; [reflexivity|]. split; [discriminate|reflexivity].
Qed.

(** * C09 *)
Theorem C09_missing_majors :
  forall A B freq gam method cs nc rows ts minor raise,
  NoDup (map lower cs) -> (length cs <= nc)%nat -> is_ok (parse_method method) = true ->
  ((n_present cs sp_majors < 6)%nat -> forall corr,
     infer_short_period B corr cs nc rows ts minor raise = if raise then Err OtherError else Ok Scalar0) /\
  ((n_present cs sd_majors < 3)%nat ->
     infer_semi_diurnal A freq method cs nc rows ts minor raise = if raise then Err OtherError else Ok Scalar0) /\
  ((n_present cs di_majors < 3)%nat ->
     infer_diurnal A freq gam method cs nc rows ts minor raise = if raise then Err OtherError else Ok Scalar0) /\
  ((n_present cs lp_majors < 3)%nat ->
     infer_long_period A freq cs nc rows ts minor raise = if raise then Err OtherError else Ok Scalar0).
Proof.
  intros A B freq gam method cs nc rows ts minor raise ND HL HM.
  destruct (parse_method method) as [meth|] eqn:EM; [|discriminate].
  repeat split; intros; unfold infer_semi_diurnal, infer_diurnal; rewrite ?EM; now apply family_missing.
Qed.
Print Assumptions C09_missing_majors.

(** All families together. *)
Theorem C09_no_majors_no_minor_tide :
  forall A B freq gam corr method cs nc rows ts minor raise,
  NoDup (map lower cs) -> (length cs <= nc)%nat -> is_ok (parse_method method) = true ->
  (n_present cs sp_majors < 6)%nat -> (n_present cs sd_majors < 3)%nat ->
  (n_present cs di_majors < 3)%nat -> (n_present cs lp_majors < 3)%nat ->
  infer_minor A B freq gam corr method cs nc rows ts minor raise =
  if raise then Err OtherError else Ok Scalar0.
Proof.
  intros A B freq gam corr method cs nc rows ts minor raise ND HL HM H1 H2 H3 H4.
  destruct (C09_missing_majors A B freq gam method cs nc rows ts minor raise ND HL HM) as (E1 & E2 & E3 & E4).
  unfold infer_minor. rewrite (E1 H1), (E2 H2), (E3 H3), (E4 H4).
  destruct raise, (String.eqb corr "GOT"); reflexivity.
Qed.
Print Assumptions C09_no_majors_no_minor_tide.

Theorem C09_linear_in_majors :
  forall A B freq gam corr method cs nc h1 h2 ts minor raise a b d1 d2, same_shape h1 h2 ->
  infer_minor A B freq gam corr method cs nc h1 ts minor raise = Ok d1 ->
  infer_minor A B freq gam corr method cs nc h2 ts minor raise = Ok d2 ->
  infer_minor A B freq gam corr method cs nc (lin_hc a b h1 h2) ts minor raise = Ok (lin_dh a b d1 d2).
Proof.
  intros A B freq gam corr method cs nc h1 h2 ts minor raise a b d1 d2 HS.
  pose proof (Forall2_length' _ _ _ HS) as HL.
  unfold infer_minor, infer_semi_diurnal, infer_diurnal, infer_short_period, infer_long_period.
  set (C1 := sp_contrib B corr).
  set (C4 := pivot_contrib A freq (fun _ => 1) lp_majors lp_minors lp_amaj lp_amin Linear []).
  destruct (String.eqb corr "GOT").
  - destruct (parse_method method) as [meth|]; cbn [bind]; [|discriminate].
    set (C2 := pivot_contrib A freq (fun _ => 1) sd_majors sd_minors sd_amaj sd_amin meth sd_Ainv).
    set (C3 := pivot_contrib A freq gam di_majors di_minors di_amaj di_amin meth di_Ainv).
    destruct (family sd_majors 3 sd_minors C2 cs nc h1 ts minor raise) as [x1|] eqn:X1; cbn [bind]; [|discriminate].
    destruct (family di_majors 3 di_minors C3 cs nc h1 ts minor raise) as [y1|] eqn:Y1; cbn [bind]; [|discriminate].
    destruct (family lp_majors 3 lp_minors C4 cs nc h1 ts minor raise) as [z1|] eqn:Z1; cbn [bind]; [|discriminate].
    destruct (family sd_majors 3 sd_minors C2 cs nc h2 ts minor raise) as [x2|] eqn:X2; cbn [bind]; [|discriminate].
    destruct (family di_majors 3 di_minors C3 cs nc h2 ts minor raise) as [y2|] eqn:Y2; cbn [bind]; [|discriminate].
    destruct (family lp_majors 3 lp_minors C4 cs nc h2 ts minor raise) as [z2|] eqn:Z2; cbn [bind]; [|discriminate].
    intros <-%Ok_inj <-%Ok_inj.
    pose proof (family_lin _ _ _ C2 ltac:(intros; apply pivot_contrib_lin; auto) a b _ _ _ _ _ _ _ _ _ HS X1 X2) as X3.
    pose proof (family_lin _ _ _ C3 ltac:(intros; apply pivot_contrib_lin; auto) a b _ _ _ _ _ _ _ _ _ HS Y1 Y2) as Y3.
    pose proof (family_lin _ _ _ C4 ltac:(intros; apply pivot_contrib_lin; auto) a b _ _ _ _ _ _ _ _ _ HS Z1 Z2) as Z3.
    rewrite X3, Y3, Z3. cbn [bind]. f_equal. cbn [dh_add].
    pose proof (family_shape2 _ _ _ _ _ _ _ _ _ _ _ _ _ HL X1 X2) as SX.
    pose proof (family_shape2 _ _ _ _ _ _ _ _ _ _ _ _ _ HL Y1 Y2) as SY.
    pose proof (family_shape2 _ _ _ _ _ _ _ _ _ _ _ _ _ HL Z1 Z2) as SZ.
    pose proof (family_shape _ _ _ _ _ _ _ _ _ _ _ _ _ _ _ _ _ eq_refl X1 Y1) as SXY.
    pose proof (family_shape _ _ _ _ _ _ _ _ _ _ _ _ _ _ _ _ _ eq_refl X1 Z1) as SXZ.
    pose proof (family_shape _ _ _ _ _ _ _ _ _ _ _ _ _ _ _ _ _ eq_refl Y1 Z1) as SYZ.
    rewrite !dh_add_lin; auto.
    + destruct x1, x2, y1, y2; cbn in *; try tauto; rewrite ?map_length, ?combine_length; lia.
    + destruct x1, y1, z1; cbn in *; auto; rewrite ?map_length, ?combine_length; lia.
  - destruct (family sp_majors 6 sp_minors C1 cs nc h1 ts minor raise) as [x1|] eqn:X1; cbn [bind]; [|discriminate].
    destruct (family lp_majors 3 lp_minors C4 cs nc h1 ts minor raise) as [z1|] eqn:Z1; cbn [bind]; [|discriminate].
    destruct (family sp_majors 6 sp_minors C1 cs nc h2 ts minor raise) as [x2|] eqn:X2; cbn [bind]; [|discriminate].
    destruct (family lp_majors 3 lp_minors C4 cs nc h2 ts minor raise) as [z2|] eqn:Z2; cbn [bind]; [|discriminate].
    intros <-%Ok_inj <-%Ok_inj.
    pose proof (family_lin _ _ _ C1 ltac:(intros; apply sp_contrib_lin; auto) a b _ _ _ _ _ _ _ _ _ HS X1 X2) as X3.
    pose proof (family_lin _ _ _ C4 ltac:(intros; apply pivot_contrib_lin; auto) a b _ _ _ _ _ _ _ _ _ HS Z1 Z2) as Z3.
    rewrite X3, Z3. cbn [bind]. f_equal. cbn [dh_add].
    pose proof (family_shape2 _ _ _ _ _ _ _ _ _ _ _ _ _ HL X1 X2) as SX.
    pose proof (family_shape2 _ _ _ _ _ _ _ _ _ _ _ _ _ HL Z1 Z2) as SZ.
    pose proof (family_shape _ _ _ _ _ _ _ _ _ _ _ _ _ _ _ _ _ eq_refl X1 Z1) as SXZ.
    rewrite !dh_add_lin; auto.
Qed.
Print Assumptions C09_linear_in_majors.

Example C09_case :
  let cs := ["m2"; "S2"; "k1"]%string in
  NoDup (map lower cs) /\ (n_present cs sp_majors < 6)%nat /\ (n_present cs sd_majors < 3)%nat /\
  (n_present cs di_majors < 3)%nat /\ (n_present cs lp_majors < 3)%nat /\
  is_ok (parse_method "Linear") = true /\ same_shape [[((1,2),false)]] [[((3,4),true)]].
Proof.
  cbv zeta. split; [apply nodupb_NoDup; vm_compute; reflexivity|].
  repeat (split; [vm_compute; lia || reflexivity|]). repeat constructor.
Qed.

(** * C54: masks *)
Lemma Arr_inj l l' : Arr l = Arr l' -> l = l'.
Proof. congruence. Qed.

(** The short-period inference drops the mask of its majors: the result is
    never masked. *)
Theorem C54_short_period_never_masked :
  forall B corr cs nc rows ts minor raise l,
  infer_short_period B corr cs nc rows ts minor raise = Ok (Arr l) -> Forall (fun v => snd v = false) l.
Proof.
  intros B corr cs nc rows ts minor raise l. unfold infer_short_period, family.
  destruct (mapM _ _) as [cols|]; cbn [bind]; [|discriminate].
  destruct (_ <? _)%nat; [destruct raise; discriminate|]. destruct (negb _); [discriminate|].
  destruct (pairs ts rows) as [ps|]; cbn [bind]; [|discriminate].
  intros H. apply Ok_inj, Arr_inj in H. subst l. apply Forall_forall. intros v Hv.
  apply in_map_iff in Hv. destruct Hv as (p & <- & _). rewrite sum_minor_eq. cbn [snd orb].
  generalize (select cs (requested minor sp_minors) sp_minors 0). intros l0. clear.
  induction l0 as [|k l0 IH]; [reflexivity|]. cbn [existsb]. rewrite IH. reflexivity.
Qed.
Print Assumptions C54_short_period_never_masked.

Theorem C54_mask_propagates_refuted :
  exists B cs nc row ts l,
  Forall (fun z => snd z = true) row /\
  infer_short_period B "OTIS" cs nc [row] ts None false = Ok (Arr l) /\
  l <> [] /\ Forall (fun v => snd v = false) l.
Proof.
  exists toy_b, ["q1"; "o1"; "k1"; "n2"; "m2"; "s2"]%string, 6%nat, (repeat ((1, 0), true) 6), [(0, 0)].
  eexists. split; [repeat constructor|].
  assert (HC : compatible [(0, 0)] [repeat ((1, 0), true) 6] [((0, 0), repeat ((1, 0), true) 6)]).
  { left. eexists. split; [reflexivity|]. split; [discriminate|reflexivity]. }
  split.
  - refine (C08_short_period_sum_partial toy_b "OTIS" _ 6 _ _ None false _ _ _ _ _ HC _).
    + apply nodupb_NoDup. vm_compute. reflexivity.
    + cbn. lia.
    + repeat constructor.
    + vm_compute. lia.
    + exists "mu2"%string. split; [apply in_compute; vm_compute; reflexivity|].
      split; [apply not_in_compute; vm_compute; reflexivity|exact I].
  - split; [discriminate|]. constructor; [reflexivity|constructor].
Qed.
Print Assumptions C54_mask_propagates_refuted.

(** The linear interpolation families mask a point as soon as all three pivots
    are masked, and never mask it when none is. *)
Theorem C54_pivot_families_mask :
  forall A freq gamf mj nm am an M tm cols row k,
  let r := pivot_contrib A freq gamf mj nm am an Linear M tm cols row k in
  ((forall i, (i < 3)%nat -> snd (pick row (nth i cols None) 1) = true) -> snd r = true) /\
  ((forall i, (i < 3)%nat -> snd (pick row (nth i cols None) 1) = false) -> snd r = false).
Proof.
  intros A freq gamf mj nm am an M tm cols row k r.
  assert (P : forall o s, snd (pick row o s) = snd (pick row o 1)).
  { intros [j|] s; cbn; auto. destruct (nth j row _); reflexivity. }
  assert (Q : forall b, (forall i, (i < 3)%nat -> snd (pick row (nth i cols None) 1) = b) ->
     snd r = b).
  { intros b H. subst r. unfold pivot_contrib, lin_interp. cbn [snd].
    destruct (Rlt_dec _ _); [destruct (Rlt_dec _ _)|]; cbn [snd];
      rewrite (P (nth 1 cols None)), (H 1%nat) by lia;
      first [rewrite (P (nth 0 cols None)), (H 0%nat) by lia | rewrite (P (nth 2 cols None)), (H 2%nat) by lia];
      destruct b; reflexivity. }
  split; apply Q.
Qed.
Print Assumptions C54_pivot_families_mask.
