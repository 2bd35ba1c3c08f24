(** C40: amplitude, phase and mask of constituents written and read back. *)
From Coq Require Import String Ascii List Reals Bool Lra Lia.
From Verif Require Import PyBase StrBase RBase ParseModel ParseSpec ParseProps CodecModel CodecSpec.
Import ListNotations.
Open Scope R_scope.

Lemma combine_lag z : cscale (cabs z) (cexp (- lag z * PI / 180)) = z.
Proof.
  unfold lag. replace (- (180 * atan2 (- cim z) (cre z) / PI) * PI / 180) with (- atan2 (- cim z) (cre z))
    by (field; apply PI_neq0').
  destruct z as [x y]. unfold cscale, cexp, cabs, cre, cim. cbn [fst snd].
  rewrite cos_neg, sin_neg. pose proof (atan2_cos (- y) x) as C. pose proof (atan2_sin (- y) x) as D.
  replace (- y * - y) with (y * y) in * by ring. f_equal; lra.
Qed.
Lemma combine_wrapped z : cscale (cabs z) (cexp (- wrapped (lag z) * PI / 180)) = z.
Proof.
  unfold wrapped. destruct (Rlt_dec _ 0); [|apply combine_lag].
  rewrite <- (combine_lag z) at 3. unfold cexp.
  replace (- (lag z + 360) * PI / 180) with (- lag z * PI / 180 + 2 * IZR (-1) * PI) by field.
  now rewrite cos_turns, sin_turns.
Qed.
Lemma lag_range z : -180 < lag z <= 180.
Proof.
  unfold lag. pose proof (atan2_range (- cim z) (cre z)) as [L U]. pose proof PI_RGT_0 as P.
  split.
  - apply Rmult_lt_reg_r with PI; [assumption|]. unfold Rdiv. rewrite Rmult_assoc, Rinv_l by lra. lra.
  - apply Rmult_le_reg_r with PI; [assumption|]. unfold Rdiv. rewrite Rmult_assoc, Rinv_l by lra. lra.
Qed.
Lemma wrapped_range z : 0 <= wrapped (lag z) < 360.
Proof. pose proof (lag_range z). unfold wrapped. destruct (Rlt_dec _ 0); lra. Qed.

Lemma feq_true x y : feq (Some x) y = true <-> x = y.
Proof. unfold feq. destruct (Req_EM_T x y); split; congruence. Qed.
Lemma feq_false x y : feq (Some x) y = false <-> x <> y.
Proof. unfold feq. destruct (Req_EM_T x y); split; congruence. Qed.

(** ** C40: amplitude and phase determine the constituent, the phase is an angle
    in degrees between 0 and 360 and the amplitude is not negative. *)
Theorem C40_codec :
  forall fill z,
    exists a p, amp_out fill (false, Some z) = Some a /\ got_ph_out fill (false, Some z) = Some p /\
      0 <= a /\ 0 <= p < 360 /\
      z = (a * cos (p * PI / 180), - (a * sin (p * PI / 180))) /\
      a * a = fst z * fst z + snd z * snd z.
Proof.
  intros fill z. exists (cabs z), (wrapped (lag z)). split; [reflexivity|]. split; [reflexivity|].
  split; [apply cabs_nonneg|]. split; [apply wrapped_range|]. split.
  - rewrite <- (combine_wrapped z) at 1. unfold cscale, cexp, cre, cim. cbn [fst snd].
    replace (- wrapped (lag z) * PI / 180) with (- (wrapped (lag z) * PI / 180)) by field.
    rewrite cos_neg, sin_neg. f_equal. ring.
  - unfold cabs, cre, cim. apply sqrt_sqrt. nra.
Qed.
Print Assumptions C40_codec.

(** the amplitude and the phase of masked cells are the fill value *)
Theorem C40_masked_fill :
  forall fill z, amp_out fill (true, z) = Some fill /\ got_ph_out fill (true, z) = Some fill /\
    fes_ph_out fill (true, z) = Some fill.
Proof. intros. repeat split. Qed.
Print Assumptions C40_masked_fill.

Lemma zip_map {A B C D : Type} (f : B -> C -> D) (g : A -> B) (h : A -> C) (R : D -> A -> Prop) l :
  (forall x, In x l -> R (f (g x) (h x)) x) -> Forall2 R (zip_with f (map g l) (map h l)) l.
Proof.
  induction l as [|x l IH]; intros H; cbn; constructor; [apply H; now left|apply IH; intros; apply H; now right].
Qed.

(** ** C40: a constituent written to a GOT file and read back is the same:
    the same name, the same masked cells, the same value elsewhere. *)
Theorem C40_got :
  forall famp fph hc con,
    In con known_names ->
    ~ (0 <= fph < 360) -> unmasked (fun z => cabs z <> famp) hc ->
    exists hc', got_input (got_output famp fph hc con) = Ok (hc', con) /\ same_field hc' hc.
Proof.
  intros famp fph hc con I F U. unfold got_input, got_output. cbn [variables constituent_attr].
  unfold lookup. cbn [find fst snd String.eqb bind]. change (String.eqb "amplitude" "amplitude") with true.
  change (String.eqb "phase" "amplitude") with false. change (String.eqb "phase" "phase") with true.
  cbn [snd bind fst].
  assert (L : lower con = con).
  { assert (K : Forall (fun n => lower n = n) known_names)
      by (unfold known_names; repeat constructor). rewrite Forall_forall in K. auto. }
  destruct (C42_canonical con (upper con) I) as [P _]; [now rewrite lower_upper|].
  rewrite P. cbn [bind]. eexists. split; [reflexivity|].
  unfold same_field, grid_with. cbn [fst snd]. apply zip_map. intros row Ir. apply zip_map.
  intros [[|] z] Ic; unfold got_cell, amp_out, got_ph_out; cbn [fst snd].
  - rewrite (proj2 (feq_true famp famp) eq_refl). split; [reflexivity|discriminate].
  - destruct (U row Ir z Ic) as (v & -> & N). cbn [option_map isnan].
    rewrite (proj2 (feq_false (cabs v) famp) N).
    rewrite (proj2 (feq_false (wrapped (lag v)) fph)); [|pose proof (wrapped_range v); intros E; apply F; lra].
    cbn [orb]. split; [reflexivity|]. intros _. cbn [snd combine]. now rewrite combine_wrapped.
Qed.
Print Assumptions C40_got.

(** NaN values come back masked *)
Theorem C40_got_nan :
  forall famp fph, fst (got_cell famp fph (amp_out famp (false, None)) (got_ph_out fph (false, None))) = true.
Proof. reflexivity. Qed.
Print Assumptions C40_got_nan.

(** ** C40: heights written in FES form and read back as one of the three
    models of that form. *)
Theorem C40_fes_heights_partial :
  forall famp fph hc con version,
    (String.length con <= 4)%nat -> In version ["FES2014"; "FES2022"; "EOT20"]%string ->
    ~ (-180 < fph <= 180) -> unmasked (fun z => cabs z <> famp /\ z <> (0, 0)) hc ->
    exists f hc', fes_output famp fph (Some "z"%string) hc con = Ok f /\
      fes_input (Some version) (Some "z"%string) f = Ok hc' /\ same_field hc' hc.
Proof.
  intros famp fph hc con version L I F U.
  assert (FO : fes_output famp fph (Some "z"%string) hc con =
    Ok {| variables := [("amplitude"%string, (famp, map (map (amp_out famp)) hc));
                        ("phase"%string, (fph, map (map (fes_ph_out fph)) hc))];
          constituent_attr := con |}).
  { unfold fes_output. cbn [bind String.eqb negb]. cbn [Ascii.eqb Bool.eqb bind].
    change (String.eqb "amplitude" "amplitude") with true. cbn [negb].
    destruct (Nat.ltb_spec 4 (String.length con)); [lia|reflexivity]. }
  rewrite FO. eexists. eexists. split; [reflexivity|].
  assert (K : fes_keys (Some version) (Some "z"%string) = Ok ("amplitude"%string, "phase"%string)).
  { cbn in I. repeat destruct I as [<-|I]; [..|destruct I]; reflexivity. }
  unfold fes_input. rewrite K. cbn [bind fst snd variables].
  unfold lookup. cbn [find fst snd]. change (String.eqb "amplitude" "amplitude") with true.
  change (String.eqb "phase" "amplitude") with false. change (String.eqb "phase" "phase") with true.
  cbn [snd bind fst]. split; [reflexivity|].
  unfold same_field, grid_with. cbn [fst snd]. apply zip_map. intros row Ir. apply zip_map.
  intros [[|] z] Ic; unfold fes_cell, amp_out, fes_ph_out; cbn [fst snd].
  - rewrite (proj2 (feq_true famp famp) eq_refl). split; [reflexivity|discriminate].
  - destruct (U row Ir z Ic) as (v & -> & N & Z). cbn [option_map isnan].
    rewrite (proj2 (feq_false (cabs v) famp) N).
    rewrite (proj2 (feq_false (lag v) fph)); [|pose proof (lag_range v); intros E; apply F; lra].
    rewrite (proj2 (feq_false (cabs v) 0)); [|intros E; apply Z; now apply cabs_zero].
    cbn [orb andb]. split; [reflexivity|]. intros _. cbn [snd combine]. now rewrite combine_lag.
Qed.
Print Assumptions C40_fes_heights_partial.

(** Cases: a masked cell and two values. *)
Example C40_case :
  let hc := [[(true, Some (1, 2)); (false, Some (3, -4)); (false, Some (-1, 0))]] in
  unmasked (fun z => cabs z <> 1000000 /\ z <> (0, 0)) hc /\ unmasked (fun z => cabs z <> 1000000) hc /\
  In "m2"%string known_names.
Proof.
  cbv zeta.
  assert (A : forall z, In (false, z) [(true, Some (1, 2)); (false, Some (3, -4)); (false, Some (-1, 0))] ->
    exists v, z = Some v /\ cabs v <> 1000000 /\ v <> (0, 0)).
  { intros z [E|[E|[E|[]]]]; [discriminate E|..]; inversion E; subst; (eexists; split; [reflexivity|]); split.
    - unfold cabs, cre, cim. cbn [fst snd]. replace (3 * 3 + -4 * -4) with (5 * 5) by lra.
      rewrite sqrt_square; lra.
    - intros H. injection H. lra.
    - unfold cabs, cre, cim. cbn [fst snd]. replace (-1 * -1 + 0 * 0) with (1 * 1) by lra.
      rewrite sqrt_square; lra.
    - intros H. injection H. lra. }
  split; [|split].
  - intros row [<-|[]] z I. exact (A z I).
  - intros row [<-|[]] z I. destruct (A z I) as (v & E & H & _). eauto.
  - unfold known_names. cbn. tauto.
Qed.

(** ** Findings *)
(** Currents cannot be written: the amplitudes are stored under the name of
    the heights. *)
Theorem C40_currents_refuted :
  forall famp fph hc con,
    fes_output famp fph (Some "u"%string) hc con = Err KeyError /\
    fes_output famp fph (Some "v"%string) hc con = Err KeyError /\
    fes_output famp fph None hc con = Err NameError.
Proof. intros. repeat split. Qed.
Print Assumptions C40_currents_refuted.

(** Names of more than four characters cannot be written. *)
Theorem C40_long_name_refuted :
  forall famp fph hc con, (4 < String.length con)%nat ->
    fes_output famp fph (Some "z"%string) hc con = Err OtherError.
Proof.
  intros famp fph hc con L. unfold fes_output. cbn [bind String.eqb Ascii.eqb Bool.eqb negb].
  change (String.eqb "amplitude" "amplitude") with true. cbn [negb].
  apply Nat.ltb_lt in L. now rewrite L.
Qed.
Print Assumptions C40_long_name_refuted.
Example C40_long_name : (4 < String.length "lambda2")%nat.
Proof. cbn. lia. Qed.

(** A place without any tide comes back masked from a FES file, and unmasked from
    a GOT file. *)
Theorem C40_no_tide_refuted :
  forall famp fph,
    fst (fes_cell famp fph (amp_out famp (false, Some (0, 0))) (fes_ph_out fph (false, Some (0, 0)))) = true /\
    (famp <> 0 -> fph <> 0 ->
     fst (got_cell famp fph (amp_out famp (false, Some (0, 0))) (got_ph_out fph (false, Some (0, 0)))) = false).
Proof.
  intros famp fph. unfold fes_cell, got_cell, amp_out, fes_ph_out, got_ph_out. cbn [fst snd option_map isnan].
  assert (A : cabs (0, 0) = 0) by (unfold cabs, cre, cim; cbn [fst snd]; replace (0 * 0 + 0 * 0) with 0 by ring; apply sqrt_0).
  assert (B : lag (0, 0) = 0).
  { unfold lag, cim, cre. cbn [fst snd]. replace (- 0) with 0 by ring. rewrite atan2_zero. field. apply PI_neq0'. }
  assert (W : wrapped 0 = 0) by (unfold wrapped; destruct (Rlt_dec 0 0); lra).
  rewrite A, B, W. split.
  - rewrite (proj2 (feq_true 0 0) eq_refl). cbn [andb]. now rewrite !orb_true_r.
  - intros Ha Hp. rewrite (proj2 (feq_false 0 famp)), (proj2 (feq_false 0 fph)) by congruence. reflexivity.
Qed.
Print Assumptions C40_no_tide_refuted.

(** The written heights cannot be read back as FES2012 or HAMTIDE11. *)
Theorem C40_other_versions_refuted :
  forall famp fph hc con f, fes_output famp fph (Some "z"%string) hc con = Ok f ->
    fes_input (Some "FES2012"%string) (Some "z"%string) f = Err KeyError /\
    fes_input (Some "HAMTIDE11"%string) (Some "z"%string) f = Err KeyError.
Proof.
  intros famp fph hc con f. unfold fes_output. cbn [bind String.eqb Ascii.eqb Bool.eqb negb].
  change (String.eqb "amplitude" "amplitude") with true. cbn [negb].
  destruct (4 <? String.length con)%nat; [discriminate|]. intros <-%Ok_inj. split; reflexivity.
Qed.
Print Assumptions C40_other_versions_refuted.

Ltac nodup := repeat (constructor; [cbn; intuition discriminate|]); constructor.
(** The names looked for, for every version and type: distinct names for the
    amplitude and the phase and for every type; an error otherwise. *)
Theorem C40_variable_names :
  forall version type k, fes_keys version type = Ok k ->
    (In version [Some "FES2012"; Some "FES2014"; Some "FES2022"; Some "EOT20"; Some "HAMTIDE11"]%string /\
     In type [Some "z"; Some "u"; Some "v"]%string) /\ fst k <> snd k /\
    forall type' k', fes_keys version type' = Ok k' -> type' <> type ->
      fst k' <> fst k /\ snd k' <> snd k /\ fst k' <> snd k /\ snd k' <> fst k.
Proof.
  intros version type k.
  assert (T : forall z u v t s, by_type z u v t = Ok s ->
    (t = Some "z" /\ s = z \/ t = Some "u" /\ s = u \/ t = Some "v" /\ s = v)%string).
  { intros z u v [t|] s; [|discriminate]. unfold by_type, lookup. cbn [find fst snd].
    destruct (String.eqb_spec t "z") as [->|]; [cbn; intros <-%Ok_inj; auto|].
    destruct (String.eqb_spec t "u") as [->|]; [cbn; intros <-%Ok_inj; auto|].
    destruct (String.eqb_spec t "v") as [->|]; [cbn; intros <-%Ok_inj; auto|]. discriminate. }
  assert (G : forall ver (a1 a2 a3 p1 p2 p3 : string),
    (forall t, fes_keys ver t = (do a <- by_type a1 a2 a3 t ;; do p <- by_type p1 p2 p3 t ;; Ok (a, p))) ->
    NoDup [a1; a2; a3; p1; p2; p3] ->
    fes_keys ver type = Ok k -> In type [Some "z"; Some "u"; Some "v"]%string /\ fst k <> snd k /\
    forall type' k', fes_keys ver type' = Ok k' -> type' <> type ->
      fst k' <> fst k /\ snd k' <> snd k /\ fst k' <> snd k /\ snd k' <> fst k).
  { intros ver a1 a2 a3 p1 p2 p3 H ND.
    assert (Q : forall t r, fes_keys ver t = Ok r -> (t = Some "z" /\ r = (a1, p1) \/ t = Some "u" /\ r = (a2, p2) \/
      t = Some "v" /\ r = (a3, p3))%string).
    { intros t r. rewrite H. destruct (by_type a1 a2 a3 t) as [a|] eqn:Ea; [|discriminate].
      cbn [bind]. destruct (by_type p1 p2 p3 t) as [p|] eqn:Ep; [|discriminate]. intros <-%Ok_inj.
      apply T in Ea. apply T in Ep.
      destruct Ea as [[-> ->]|[[-> ->]|[-> ->]]]; destruct Ep as [[E ->]|[[E ->]|[E ->]]]; try discriminate E; auto. }
    assert (D : forall i j, (i < 6)%nat -> (j < 6)%nat -> i <> j ->
      nth i [a1; a2; a3; p1; p2; p3] ""%string <> nth j [a1; a2; a3; p1; p2; p3] ""%string).
    { intros i j Hi Hj N E. apply N. apply (proj1 (NoDup_nth _ ""%string) ND); cbn; lia || assumption. }
    intros K. apply Q in K. split; [destruct K as [[-> _]|[[-> _]|[-> _]]]; cbn; auto|]. split.
    - destruct K as [[_ ->]|[[_ ->]|[_ ->]]]; cbn [fst snd].
      + apply (D 0%nat 3%nat); lia.
      + apply (D 1%nat 4%nat); lia.
      + apply (D 2%nat 5%nat); lia.
    - intros t' k' K' NE. apply Q in K'.
      pose proof (fun i j => D i j) as DD.
      destruct K as [[-> ->]|[[-> ->]|[-> ->]]]; destruct K' as [[-> ->]|[[-> ->]|[-> ->]]]; try congruence;
        cbn [fst snd]; repeat split;
        first [apply (D 0 1)%nat | apply (D 0 2)%nat | apply (D 1 0)%nat | apply (D 1 2)%nat | apply (D 2 0)%nat | apply (D 2 1)%nat
              |apply (D 3 4)%nat | apply (D 3 5)%nat | apply (D 4 3)%nat | apply (D 4 5)%nat | apply (D 5 3)%nat | apply (D 5 4)%nat
              |apply (D 0 4)%nat | apply (D 0 5)%nat | apply (D 1 3)%nat | apply (D 1 5)%nat | apply (D 2 3)%nat | apply (D 2 4)%nat
              |apply (D 4 0)%nat | apply (D 5 0)%nat | apply (D 3 1)%nat | apply (D 5 1)%nat | apply (D 3 2)%nat | apply (D 4 2)%nat]; lia. }
  intros K. destruct version as [ver|]; [|discriminate].
  destruct (String.eqb_spec ver "FES2012") as [->|N1].
  { destruct (G (Some "FES2012") "Ha" "Ua" "Va" "Hg" "Ug" "Vg")%string as (G1 & G2); [reflexivity|nodup|exact K|]. cbn; auto. }
  destruct (String.eqb_spec ver "FES2014") as [->|N2].
  { destruct (G (Some "FES2014") "amplitude" "Ua" "Va" "phase" "Ug" "Vg")%string as (G1 & G2); [reflexivity|nodup|exact K|]. cbn; auto. }
  destruct (String.eqb_spec ver "FES2022") as [->|N3].
  { destruct (G (Some "FES2022") "amplitude" "Ua" "Va" "phase" "Ug" "Vg")%string as (G1 & G2); [reflexivity|nodup|exact K|]. cbn; auto 10. }
  destruct (String.eqb_spec ver "EOT20") as [->|N4].
  { destruct (G (Some "EOT20") "amplitude" "Ua" "Va" "phase" "Ug" "Vg")%string as (G1 & G2); [reflexivity|nodup|exact K|]. cbn; auto 10. }
  destruct (String.eqb_spec ver "HAMTIDE11") as [->|N5].
  { destruct (G (Some "HAMTIDE11") "AMPL" "UAMP" "VAMP" "PHAS" "UPHA" "VPHA")%string as (G1 & G2); [reflexivity|nodup|exact K|]. cbn; auto 10. }
  exfalso. unfold fes_keys in K. apply String.eqb_neq in N1, N2, N3, N4, N5. rewrite N1, N5 in K.
  unfold mem_str in K. cbn [existsb] in K. rewrite N2, N3, N4 in K. discriminate K.
Qed.
Print Assumptions C40_variable_names.
