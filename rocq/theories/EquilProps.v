(** C60: minor inference reproduces a constant admittance. *)
From Coq Require Import String List Reals Lra Lia Bool Arith.
From Verif Require Import PyBase RBase StrBase PredictModel PredictSpec PredictProofs InferModel InferSpec InferProofs InferProps EquilSpec.
Import ListNotations.
Open Scope R_scope.

(** ** Families interpolating between three pivots: exact, both methods *)
Lemma flat_pivot A freq g c0 c1 c2 names a0 a1 a2 an meth r0 r1 r2 cs nc tm row cols k resp :
  mapM (lookup cs nc) [c0; c1; c2] = Ok cols ->
  NoDup (map lower cs) -> (length cs <= nc)%nat -> length row = nc ->
  flat g freq cs row [c0; c1; c2] resp -> cte c0 = a0 -> cte c1 = a1 -> cte c2 = a2 -> a0 <> 0 -> a1 <> 0 -> a2 <> 0 ->
  g (freq c0) <> 0 -> g (freq c1) <> 0 -> g (freq c2) <> 0 ->
  (let s (r : R * R * R) := let '(a, b, c) := r in a + b + c in s r0 = 1 /\ s r1 = 0 /\ s r2 = 0) ->
  fst (pivot_contrib A freq g [c0; c1; c2] names [a0; a1; a2] an meth [r0; r1; r2] tm cols row k) =
  minor_tide A tm (nth k names EmptyString) (cscale (nth k an 0 * g (freq (nth k names EmptyString))) resp).
Proof.
  intros E1 ND HL Hrow Fl C0 C1 C2 N0 N1 N2 G0 G1 G2 Sums.
  destruct (lookups_ok cs nc [c0; c1; c2] ND HL) as (cols' & F1 & F2 & F3 & F4).
  assert (cols' = cols) by congruence. subst cols'.
  pose proof (F4 row 0%nat (a0 * g (freq c0)) Hrow ltac:(cbn; lia)) as P0.
  pose proof (F4 row 1%nat (a1 * g (freq c1)) Hrow ltac:(cbn; lia)) as P1.
  pose proof (F4 row 2%nat (a2 * g (freq c2)) Hrow ltac:(cbn; lia)) as P2.
  cbn [nth] in P0, P1, P2.
  unfold pivot_contrib. cbv zeta. cbn [fst]. unfold minor_tide. rewrite component_term. f_equal.
  change (nth 0 [c0; c1; c2] EmptyString) with c0. change (nth 1 [c0; c1; c2] EmptyString) with c1.
  change (nth 2 [c0; c1; c2] EmptyString) with c2.
  change (nth 0 [a0; a1; a2] 0) with a0. change (nth 1 [a0; a1; a2] 0) with a1. change (nth 2 [a0; a1; a2] 0) with a2.
  rewrite P0, P1, P2. rewrite (Fl c0), (Fl c1), (Fl c2) by (cbn; auto). rewrite C0, C1, C2.
  assert (U : forall a b, a <> 0 -> b <> 0 -> cscale (/ (a * b)) (cscale (a * b) resp) = resp).
  { intros a b Ha Hb. destruct resp as [x y]. unfold cscale, cre, cim. cbn [fst snd]. f_equal; field; auto. }
  rewrite !U by auto. f_equal. destruct resp as [x y]. destruct meth.
  - unfold lin_interp. cbv zeta. cbn [fst snd].
    destruct (if Rlt_dec _ _ then _ else false); unfold cadd, csub, cscale, cre, cim; cbn [fst snd]; f_equal; ring.
  - destruct r0 as [[p0 p1] p2], r1 as [[q0 q1] q2], r2 as [[s0 s1] s2]. destruct Sums as (S0 & S1 & S2).
    unfold adm_interp. cbv zeta. cbn [nth fst]. unfold cadd, cscale, cre, cim. cbn [fst snd].
    set (co := cos _). set (si := sin _).
    assert (E : forall v, p0 * v + (p1 * v + p2 * v) = v) by (intros v; transitivity ((p0 + p1 + p2) * v); [ring | rewrite S0; ring]).
    assert (E' : forall v, q0 * v + (q1 * v + q2 * v) = 0) by (intros v; transitivity ((q0 + q1 + q2) * v); [ring | rewrite S1; ring]).
    assert (E'' : forall v, s0 * v + (s1 * v + s2 * v) = 0) by (intros v; transitivity ((s0 + s1 + s2) * v); [ring | rewrite S2; ring]).
    rewrite !E, !E', !E''. f_equal; ring.
Qed.

Lemma flat_family A freq g c0 c1 c2 m0 names a0 a1 a2 an meth r0 r1 r2 cs nc rows ts minor raise ps resp :
  NoDup (map lower cs) -> (length cs <= nc)%nat -> Forall (fun r => length r = nc) rows ->
  In c0 (map lower cs) -> In c1 (map lower cs) -> In c2 (map lower cs) -> compatible ts rows ps ->
  (exists m, wanted cs minor names m) ->
  (forall p, In p ps -> flat g freq cs (snd p) [c0; c1; c2] (resp p)) -> cte c0 = a0 -> cte c1 = a1 -> cte c2 = a2 -> a0 <> 0 -> a1 <> 0 -> a2 <> 0 ->
  g (freq c0) <> 0 -> g (freq c1) <> 0 -> g (freq c2) <> 0 ->
  (let s (r : R * R * R) := let '(a, b, c) := r in a + b + c in s r0 = 1 /\ s r1 = 0 /\ s r2 = 0) ->
  (forall k, (k < length (m0 :: names))%nat -> nth k an 0 = cte (nth k (m0 :: names) EmptyString)) ->
  exists d, family [c0; c1; c2] 3 (m0 :: names)
    (pivot_contrib A freq g [c0; c1; c2] (m0 :: names) [a0; a1; a2] an meth [r0; r1; r2]) cs nc rows ts minor raise = Ok d /\
  values d = Some (map (fun p => rsum (map (fun k =>
     let m := nth k (m0 :: names) EmptyString in minor_tide A (fst p) m (cscale (cte m * g (freq m)) (resp p)))
     (wanted_idx cs minor (m0 :: names)))) ps).
Proof.
  intros ND HL HR I0 I1 I2 HC (m & Hm1 & Hm2 & Hm3) Fl C0 C1 C2 N0 N1 N2 G0 G1 G2 Sums An.
  assert (HP : (3 <= n_present cs [c0; c1; c2])%nat).
  { unfold n_present. cbn [filter]. apply mem_str_In in I0, I1, I2. rewrite I0, I1, I2. cbn. lia. }
  destruct (family_value [c0; c1; c2] 3 (m0 :: names)
    (pivot_contrib A freq g [c0; c1; c2] (m0 :: names) [a0; a1; a2] an meth [r0; r1; r2]) cs nc rows ts minor raise ps ND HL HP HC)
    as (cols & E1 & E2).
  rewrite E2. clear E2.
  assert (NA : np_any (wanted_idx cs minor (m0 :: names)) = true).
  { apply np_any_spec. destruct (In_nth _ _ EmptyString Hm1) as (k & K1 & K2).
    exists (S k). split; [|lia]. apply in_wanted_idx. split; [cbn in *; lia|].
    cbn [nth]. rewrite K2. split; auto. now right. }
  rewrite NA. eexists. split; [reflexivity|]. cbn [values]. rewrite map_map. f_equal.
  apply map_ext_in. intros [tm row] Hp. cbn [fst snd].
  assert (Hrow : length row = nc).
  { rewrite Forall_forall in HR. apply HR.
    destruct HC as [(r & -> & _ & ->)|[(t & -> & ->)|(_ & _ & ->)]].
    - apply in_map_iff in Hp. destruct Hp as (t & E & _). injection E as _ <-. now left.
    - apply in_map_iff in Hp. destruct Hp as (r & E & H). injection E as _ <-. auto.
    - now apply in_combine_r in Hp. }
  f_equal. apply map_ext_in. intros k Hk. apply in_wanted_idx in Hk. destruct Hk as [Hk _]. cbv zeta. rewrite <- (An k Hk).
  apply (flat_pivot _ _ _ _ _ _ _ _ _ _ _ _ _ _ _ cs nc); auto. exact (Fl _ Hp).
Qed.

Lemma cte_value c q : find (fun q => String.eqb (fst q) c) cte_table = Some q -> cte c = snd q / 10^6.
Proof. unfold cte. now intros ->. Qed.
Ltac cte_at := match goal with |- context [cte ?c] => rewrite (cte_value c _ eq_refl) end.

(** Semi-diurnal: for an ocean with constant admittance every inferred constituent
    has exactly its equilibrium amplitude times that admittance. *)
Theorem C60_semi_diurnal : forall A freq method cs nc rows ts minor raise ps resp,
  (lower method = "linear" \/ lower method = "admittance")%string ->
  NoDup (map lower cs) -> (length cs <= nc)%nat -> Forall (fun r => length r = nc) rows ->
  In "n2"%string (map lower cs) -> In "m2"%string (map lower cs) -> In "s2"%string (map lower cs) ->
  compatible ts rows ps -> (exists m, wanted cs minor (tl sd_minors) m) ->
  (forall p, In p ps -> flat (fun _ => 1) freq cs (snd p) ["n2"; "m2"; "s2"]%string (resp p)) ->
  exists d, infer_semi_diurnal A freq method cs nc rows ts minor raise = Ok d /\
  values d = Some (map (fun p => rsum (map (fun k =>
     let m := nth k sd_minors EmptyString in minor_tide A (fst p) m (cscale (cte m * 1) (resp p)))
     (wanted_idx cs minor sd_minors))) ps).
Proof.
  intros A freq method cs nc rows ts minor raise ps resp HM ND HL HR I0 I1 I2 HC HW Fl.
  assert (G : forall meth, exists d, family sd_majors 3 sd_minors (pivot_contrib A freq (fun _ => 1) sd_majors sd_minors sd_amaj sd_amin meth sd_Ainv) cs nc rows ts minor raise = Ok d /\
    values d = Some (map (fun p => rsum (map (fun k => let m := nth k sd_minors EmptyString in minor_tide A (fst p) m (cscale (cte m * 1) (resp p))) (wanted_idx cs minor sd_minors))) ps)).
  { intros meth. apply (flat_family A freq (fun _ => 1)); auto; try (cte_at; reflexivity); try lra.
    intros k Hk. unfold sd_amin. do 14 (destruct k as [|k]; [cbn [nth]; cte_at; reflexivity|]). cbn in Hk. lia. }
  unfold infer_semi_diurnal, parse_method. destruct HM as [-> | ->]; cbn [String.eqb Ascii.eqb Bool.eqb bind]; apply G.
Qed.
Print Assumptions C60_semi_diurnal.

Theorem C60_diurnal : forall A freq gam method cs nc rows ts minor raise ps resp,
  (lower method = "linear" \/ lower method = "admittance")%string ->
  NoDup (map lower cs) -> (length cs <= nc)%nat -> Forall (fun r => length r = nc) rows ->
  In "q1"%string (map lower cs) -> In "o1"%string (map lower cs) -> In "k1"%string (map lower cs) ->
  compatible ts rows ps -> (exists m, wanted cs minor (tl di_minors) m) ->
  gam (freq "q1"%string) <> 0 -> gam (freq "o1"%string) <> 0 -> gam (freq "k1"%string) <> 0 ->
  (forall p, In p ps -> flat gam freq cs (snd p) ["q1"; "o1"; "k1"]%string (resp p)) ->
  exists d, infer_diurnal A freq gam method cs nc rows ts minor raise = Ok d /\
  values d = Some (map (fun p => rsum (map (fun k =>
     let m := nth k di_minors EmptyString in minor_tide A (fst p) m (cscale (cte m * gam (freq m)) (resp p)))
     (wanted_idx cs minor di_minors))) ps).
Proof.
  intros A freq gam method cs nc rows ts minor raise ps resp HM ND HL HR I0 I1 I2 HC HW G0 G1 G2 Fl.
  assert (G : forall meth, exists d, family di_majors 3 di_minors (pivot_contrib A freq gam di_majors di_minors di_amaj di_amin meth di_Ainv) cs nc rows ts minor raise = Ok d /\
    values d = Some (map (fun p => rsum (map (fun k => let m := nth k di_minors EmptyString in minor_tide A (fst p) m (cscale (cte m * gam (freq m)) (resp p))) (wanted_idx cs minor di_minors))) ps)).
  { intros meth. apply (flat_family A freq gam); auto; try (cte_at; reflexivity); try lra.
    intros k Hk. unfold di_amin. do 17 (destruct k as [|k]; [cbn [nth]; cte_at; reflexivity|]). cbn in Hk. lia. }
  unfold infer_diurnal, parse_method. destruct HM as [-> | ->]; cbn [String.eqb Ascii.eqb Bool.eqb bind]; apply G.
Qed.
Print Assumptions C60_diurnal.

Theorem C60_long_period : forall A freq cs nc rows ts minor raise ps resp,
  NoDup (map lower cs) -> (length cs <= nc)%nat -> Forall (fun r => length r = nc) rows ->
  In "node"%string (map lower cs) -> In "mm"%string (map lower cs) -> In "mf"%string (map lower cs) ->
  compatible ts rows ps -> (exists m, wanted cs minor (tl lp_minors) m) ->
  (forall p, In p ps -> flat (fun _ => 1) freq cs (snd p) ["node"; "mm"; "mf"]%string (resp p)) ->
  exists d, infer_long_period A freq cs nc rows ts minor raise = Ok d /\
  values d = Some (map (fun p => rsum (map (fun k =>
     let m := nth k lp_minors EmptyString in minor_tide A (fst p) m (cscale (cte m * 1) (resp p)))
     (wanted_idx cs minor lp_minors))) ps).
Proof.
  intros A freq cs nc rows ts minor raise ps resp ND HL HR I0 I1 I2 HC HW Fl.
  assert (P : forall tm cols row k, pivot_contrib A freq (fun _ => 1) lp_majors lp_minors lp_amaj lp_amin Linear [] tm cols row k
    = pivot_contrib A freq (fun _ => 1) lp_majors lp_minors lp_amaj lp_amin Linear [(1, 0, 0); (0, 0, 0); (0, 0, 0)] tm cols row k) by reflexivity.
  change (infer_long_period A freq cs nc rows ts minor raise) with (family lp_majors 3 lp_minors (pivot_contrib A freq (fun _ => 1) lp_majors lp_minors lp_amaj lp_amin Linear [(1, 0, 0); (0, 0, 0); (0, 0, 0)]) cs nc rows ts minor raise).
  apply (flat_family A freq (fun _ => 1)); auto; try (cte_at; reflexivity); try lra.
  intros k Hk. unfold lp_amin. do 9 (destruct k as [|k]; [cbn [nth]; cte_at; reflexivity|]). cbn in Hk. lia.
Qed.
Print Assumptions C60_long_period.

(** ** Short period: within 1.2 per cent (3 per cent for the FES splines) *)
(** response of the species of the short-period minor number [k] *)
Definition species_resp (d s : cpx) (k : nat) : cpx := if (k <? 11)%nat then d else s.
Definition flat_short (corr : string) (cs : list string) (row : list (cpx * bool)) (d s : cpx) : Prop :=
  flat (fun _ => 1) (fun _ => 0) cs row ["q1"; "o1"; "k1"]%string d
  /\ flat (fun _ => 1) (fun _ => 0) cs row ["n2"; "m2"; "s2"]%string s
  /\ (corr = "FES"%string -> flat (fun _ => 1) (fun _ => 0) cs row ["k2"; "2n2"]%string s).
Definition close (tol a b : R) : Prop := Rabs (a - b) <= tol * b.

Lemma flat_coef corr cs row d s k : flat_short corr cs row d s -> (k < 20)%nat ->
  let coef := if String.eqb corr "FES" then sp_coef_fes k else sp_coef k in
  let a := rsum (map (fun q => snd q * cte (nth (fst q) sp_majors EmptyString)) coef) in
  (rsum (map (fun q => snd q * cre (fst (supplied cs row (nth (fst q) sp_majors EmptyString)))) coef),
   rsum (map (fun q => snd q * cim (fst (supplied cs row (nth (fst q) sp_majors EmptyString)))) coef)) = cscale a (species_resp d s k).
Proof.
  intros (F1 & F2 & F3) Hk coef a.
  assert (H : forall q, In q coef -> fst (supplied cs row (nth (fst q) sp_majors EmptyString)) = cscale (cte (nth (fst q) sp_majors EmptyString)) (species_resp d s k)).
  { assert (G : forall c r, fst (supplied cs row c) = cscale (cte c * 1) r -> fst (supplied cs row c) = cscale (cte c) r) by (intros c r ->; now rewrite Rmult_1_r).
    intros q Hq. apply G. unfold coef in Hq. clear a coef. destruct (String.eqb corr "FES") eqn:E; unfold species_resp.
    - apply String.eqb_eq in E. specialize (F3 E).
      do 20 (destruct k as [|k]; [cbn in Hq; repeat (destruct Hq as [<-|Hq]; [cbn; first [apply F1; cbn; tauto | apply F2; cbn; tauto | apply F3; cbn; tauto]|]); destruct Hq|]). lia.
    - do 20 (destruct k as [|k]; [cbn in Hq; repeat (destruct Hq as [<-|Hq]; [cbn; first [apply F1; cbn; tauto | apply F2; cbn; tauto]|]); destruct Hq|]). lia. }
  clearbody coef. unfold a. clear - H. unfold cscale, cre, cim in *. induction coef as [|q coef IH].
  - cbn [map rsum]. f_equal; ring.
  - cbn [map rsum]. assert (E := IH (fun q' Hq' => H q' (or_intror Hq'))). pose proof (f_equal fst E) as E1. pose proof (f_equal snd E) as E2. cbn [fst snd] in E1, E2. rewrite E1, E2. rewrite (H q (or_introl eq_refl)). cbn [fst snd].
    f_equal; ring.
Qed.
Definition sp_amp (corr : string) (k : nat) : R :=
  rsum (map (fun q => snd q * cte (nth (fst q) sp_majors EmptyString)) (if String.eqb corr "FES" then sp_coef_fes k else sp_coef k)).
Lemma flat_short_sum B corr cs nc rows ts minor raise ps d s :
  NoDup (map lower cs) -> (length cs <= nc)%nat -> Forall (fun r => length r = nc) rows ->
  (6 <= n_present cs sp_majors)%nat -> compatible ts rows ps -> (exists m, wanted cs minor (tl sp_minors) m) ->
  (forall p, In p ps -> flat_short corr cs (snd p) (d p) (s p)) ->
  infer_short_period B corr cs nc rows ts minor raise =
  Ok (Arr (map (fun p => (rsum (map (fun k =>
       term (b_f B (fst p) k) (b_G B (fst p) k * PI / 180 + b_u B (fst p) k) (cscale (sp_amp corr k) (species_resp (d p) (s p) k)))
       (wanted_idx cs minor sp_minors)), false)) ps)).
Proof.
  intros ND HL HR HP HC HW Fl. rewrite (C08_short_period_sum_partial B corr cs nc rows ts minor raise ps); auto. do 2 f_equal.
  apply map_ext_in. intros p Hp. f_equal. f_equal. apply map_ext_in. intros k Hk. apply in_wanted_idx in Hk. destruct Hk as [Hk _]. cbn [length sp_minors] in Hk. f_equal.
  exact (flat_coef corr cs (snd p) (d p) (s p) k (Fl p Hp) Hk).
Qed.
Ltac amp_ := cbn [sp_coef sp_coef_fes sp_table sp_table_fes find nth Nat.eqb map fst snd rsum sp_majors sp_minors]; repeat cte_at; cbn [snd]; apply Rabs_le; lra.

(** With any corrections other than FES, eighteen minors get their equilibrium
    amplitude within 1.2 per cent; eps2 and eta2 get nothing. *)
Theorem C60_short_period_partial : forall corr, corr <> "FES"%string -> exists amp : nat -> R,
  (forall k, (k < 18)%nat -> close 0.012 (amp k) (cte (nth k sp_minors EmptyString))) /\ amp 18%nat = 0 /\ amp 19%nat = 0 /\
  forall B cs nc rows ts minor raise ps d s,
  NoDup (map lower cs) -> (length cs <= nc)%nat -> Forall (fun r => length r = nc) rows ->
  (6 <= n_present cs sp_majors)%nat -> compatible ts rows ps -> (exists m, wanted cs minor (tl sp_minors) m) ->
  (forall p, In p ps -> flat_short corr cs (snd p) (d p) (s p)) ->
  infer_short_period B corr cs nc rows ts minor raise =
  Ok (Arr (map (fun p => (rsum (map (fun k =>
       term (b_f B (fst p) k) (b_G B (fst p) k * PI / 180 + b_u B (fst p) k) (cscale (amp k) (species_resp (d p) (s p) k)))
       (wanted_idx cs minor sp_minors)), false)) ps)).
Proof.
  intros corr Hc. exists (sp_amp corr). apply String.eqb_neq in Hc.
  split; [|split; [|split; [|intros; now apply flat_short_sum]]].
  - intros k Hk. unfold close, sp_amp. rewrite Hc. do 18 (destruct k as [|k]; [amp_|]). lia.
  - unfold sp_amp. rewrite Hc. reflexivity.
  - unfold sp_amp. rewrite Hc. reflexivity.
Qed.
Print Assumptions C60_short_period_partial.
(** With FES corrections all but l2b are within 3 per cent. *)
Theorem C60_short_period_fes_partial : exists amp : nat -> R,
  (forall k, (k < 20)%nat -> k <> 16%nat -> close 0.03 (amp k) (cte (nth k sp_minors EmptyString)))
  /\ nth 16 sp_minors EmptyString = "l2b"%string /\
  forall B cs nc rows ts minor raise ps d s,
  NoDup (map lower cs) -> (length cs <= nc)%nat -> Forall (fun r => length r = nc) rows ->
  (6 <= n_present cs sp_majors)%nat -> compatible ts rows ps -> (exists m, wanted cs minor (tl sp_minors) m) ->
  (forall p, In p ps -> flat_short "FES" cs (snd p) (d p) (s p)) ->
  infer_short_period B "FES" cs nc rows ts minor raise =
  Ok (Arr (map (fun p => (rsum (map (fun k =>
       term (b_f B (fst p) k) (b_G B (fst p) k * PI / 180 + b_u B (fst p) k) (cscale (amp k) (species_resp (d p) (s p) k)))
       (wanted_idx cs minor sp_minors)), false)) ps)).
Proof.
  exists (sp_amp "FES").
  assert (E : String.eqb "FES" "FES" = true) by reflexivity.
  split; [|split; [reflexivity|intros; now apply flat_short_sum]].
  intros k Hk N. unfold close, sp_amp. rewrite E. do 20 (destruct k as [|k]; [first [now destruct N | amp_]|]). lia.
Qed.
Print Assumptions C60_short_period_fes_partial.
(** The spline coefficients of L2 are assigned to l2b, the smaller of the two lines
    of L2 (predict.py:455), which so gets the amplitude of the larger one, almost
    four times too much, while l2 is inferred from its own relation as well. *)
Theorem C60_l2b_fes_refuted : exists a : R, 3.9 * cte "l2b"%string < a /\ close 0.02 a (cte "l2"%string) /\
  forall B cs nc rows ts raise ps d s,
  NoDup (map lower cs) -> (length cs <= nc)%nat -> Forall (fun r => length r = nc) rows ->
  (6 <= n_present cs sp_majors)%nat -> compatible ts rows ps -> ~ In "l2b"%string cs ->
  (forall p, In p ps -> flat_short "FES" cs (snd p) (d p) (s p)) ->
  infer_short_period B "FES" cs nc rows ts (Some ["l2b"%string]) raise =
  Ok (Arr (map (fun p => (term (b_f B (fst p) 16%nat) (b_G B (fst p) 16%nat * PI / 180 + b_u B (fst p) 16%nat) (cscale a (s p)) + 0, false)) ps)).
Proof.
  exists (sp_amp "FES" 16).
  assert (E : String.eqb "FES" "FES" = true) by reflexivity. split; [|split].
  - unfold sp_amp. rewrite E. cbn [sp_coef sp_coef_fes sp_table sp_table_fes find nth Nat.eqb map fst snd rsum sp_majors sp_minors]. repeat cte_at. cbn [snd]. lra.
  - unfold close, sp_amp. rewrite E. amp_.
  - intros B cs nc rows ts raise ps d s ND HL HR HP HC HN Fl. rewrite (flat_short_sum B "FES" cs nc rows ts _ raise ps d s); auto.
    + assert (W : wanted_idx cs (Some ["l2b"%string]) sp_minors = [16%nat]).
      { unfold wanted_idx. transitivity (filter (fun k => k =? 16)%nat (seq 0 (length sp_minors))); [|reflexivity].
        assert (M : mem_str "l2b" cs = false) by (apply not_true_is_false; rewrite mem_str_In; auto).
        apply filter_ext_in. intros k Hk. apply in_seq in Hk. cbv zeta. destruct (Nat.eq_dec k 16) as [->|N].
        - change (nth 16 sp_minors EmptyString) with "l2b"%string. rewrite M. reflexivity.
        - replace (k =? 16)%nat with false by (symmetry; now apply Nat.eqb_neq). apply andb_false_intro2. destruct Hk as [_ Hk]. change (0 + length sp_minors)%nat with 20%nat in Hk.
          clear - N Hk. do 20 (destruct k as [|k]; [try reflexivity; now destruct N|]). lia. }
      rewrite W. reflexivity.
    + exists "l2b"%string. split; [cbn; tauto|]. split; [auto | now left].
Qed.
Print Assumptions C60_l2b_fes_refuted.

(** a flat ocean with response 2 + 3i *)
Definition flat_row (cs : list string) : list (cpx * bool) := map (fun c => ((2 * cte c, 3 * cte c), false)) cs.
Example C60_case : flat_short "FES" sp_majors (flat_row sp_majors) (2, 3) (2, 3).
Proof.
  assert (H : forall c, In c sp_majors -> fst (supplied sp_majors (flat_row sp_majors) c) = cscale (cte c * 1) (2, 3)).
  { intros c Hc. transitivity (2 * cte c, 3 * cte c).
    - unfold sp_majors in Hc. cbn [In] in Hc. repeat (destruct Hc as [<-|Hc]; [reflexivity|]). destruct Hc.
    - unfold cscale, cre, cim. cbn [fst snd]. f_equal; ring. }
  split; [|split; [|intros _]]; intros c Hc; apply H; unfold sp_majors; cbn [In] in *; tauto.
Qed.
