(** C57: the parameter table of the OTIS-type predictors (omega, phase, species)
    against the Doodson numbers and the mean longitudes. *)
From Coq Require Import Reals Lra Lia String List Bool ZArith.
From Verif Require Import PyBase RBase StrBase DoodsonData DoodsonModel MathModel AstroModel AstroProps.
From Verif Require Import PredictModel NodalBase NodalData ArgModel PiBounds PhaseProps FreqProps.
Import ListNotations.
Open Scope R_scope.

Definition phase_tolerance (c : string) : R := if String.eqb c "m1" then 1e-7 else 2e-9.

Definition rates0 : list R := [360 - 13.17639648 + 0.98564736; 13.17639648; 0.98564736; 0.11140353; -0.05295377; 0; 0].
Definition epoch0 : list R := let t := 48622 - 51544.4993 in
  let s := 218.3164 + t * 13.17639648 in let h := 280.4661 + t * 0.98564736 in
  [360 * 48622 - s + h; s; h; 83.3535 + t * 0.11140353; 125.0445 - t * 0.05295377; 282.8; 90].

Definition row_good (k : Z) (r : string * param) : Prop :=
  let (c, q) := r in
  String.eqb c "s1" = false /\ exists v, raw_table c = Ok v /\ hd 0%Z v = p_species q /\
  Rabs (dot v rates0 * (PI / 180) / 86400 - p_omega q) <= 2.1e-10 /\
  Rabs ((dot v epoch0 - 360 * IZR k) * (PI / 180) - p_phase q) <= phase_tolerance c.

Definition day_turns : Z := 48622.
(** Full turns in the unreduced arguments at the epoch, less the turns of the days *)
Definition turns : list Z :=
  [198; 0; -7; 205; 303; 6; -15; 310; 409; 396; 290; 93; 8; -113; 99; -220; 297; -213; -106; -15;
   396; 198; 502; 594; 792; 191; 0; -199; 403; -199; -9; -319; 416]%Z.

Ltac good_row :=
  unfold row_good; split; [reflexivity|];
  match goal with |- exists v, raw_table ?c = Ok v /\ _ =>
    let r := eval vm_compute in (raw_table c) in
    match r with Ok ?v => exists v end end;
  split; [vm_compute; reflexivity|]; split; [reflexivity|];
  unfold rates0, epoch0, phase_tolerance; cbv zeta; rewrite !dot_cons, !dot_nil; cbn [p_omega p_phase p_species];
  pose proof PI_bounds;
  split; [apply Rabs_le; lra|];
  lazy beta iota zeta delta [String.eqb Ascii.eqb Bool.eqb]; apply Rabs_le; lra.

Lemma rows_good : Forall2 (fun k r => exists k', row_good k' r /\ (k' = k + day_turns * p_species (snd r))%Z) turns parameters.
Proof.
  unfold turns, parameters, day_turns.
  repeat (apply Forall2_cons; [eexists; split; [|cbn [snd p_species]; reflexivity];
    match goal with |- row_good ?k _ => let k' := eval vm_compute in k in change k with k' end; good_row|]).
  apply Forall2_nil.
Qed.

Lemma row_of c q : In (c, q) parameters -> exists k, row_good k (c, q).
Proof.
  intros I. pose proof rows_good as H. revert I. induction H as [|k r ks rs [k' [G _]] H IH]; [contradiction|].
  intros [->|I]; [exists k'; exact G|exact (IH I)].
Qed.

Lemma coefficients_of corr c v : String.eqb c "s1" = false -> raw_table c = Ok v -> coefficients corr c = Ok v.
Proof.
  intros N E. destruct (coefficients_raw corr c) as [[_ ->]| ->]; [discriminate N|exact E].
Qed.

(** The species is the first Doodson coefficient. *)
Theorem C57_species : forall corr c q, In (c, q) parameters ->
  exists v, coefficients corr c = Ok v /\ hd 0%Z v = p_species q.
Proof.
  intros corr c q I. destruct (row_of _ _ I) as [k [N (v & E & S & _)]].
  exists v. split; [apply coefficients_of; assumption|exact S].
Qed.
Print Assumptions C57_species.

Lemma otis_unreduced corr t : otis_corr corr = true -> unreduced corr t =
  (let d := t - 51544.4993 in
  let s := 218.3164 + d * 13.17639648 in let h := 280.4661 + d * 0.98564736 in
  [360 * t - s + h; s; h; 83.3535 + d * 0.11140353; 125.0445 - d * 0.05295377; 282.8; 90]).
Proof. intros O. unfold unreduced, spec_raw. rewrite O. reflexivity. Qed.

Lemma otis_change corr v t : otis_corr corr = true ->
  dot v (unreduced corr (48622 + t)) = dot v epoch0 + t * dot v rates0.
Proof.
  intros O. rewrite otis_unreduced by exact O. cbv zeta.
  assert (X : forall v a b e, List.length a = List.length b -> List.length b = List.length e ->
     Forall2 (fun x yz => x = fst yz + t * snd yz) e (combine a b) -> dot v e = dot v a + t * dot v b).
  { clear. induction v as [|k v IH]; intros a b e E1 E2 H; [rewrite !dot_nil; ring|].
    destruct a as [|x a], b as [|y b], e as [|z e]; try discriminate; [rewrite !dot_nil_r; ring|].
    cbn [combine] in H. inversion H; subst. cbn [fst snd] in *. rewrite !dot_cons.
    rewrite (IH a b e) by (cbn in *; congruence). ring. }
  apply X; [reflexivity|reflexivity|]. unfold epoch0, rates0. cbv zeta. cbn [combine].
  repeat (apply Forall2_cons; [cbn [fst snd]; lra|]). apply Forall2_nil.
Qed.

Lemma otis_frequency corr c v : otis_corr corr = true -> coefficients corr c = Ok v ->
  frequency corr c = Ok (dot v rates0 * (PI / 180) / 86400).
Proof.
  intros O C. destruct (frequency corr c) as [w|] eqn:F.
  - f_equal. rewrite (frequency_unreduced _ _ _ _ F C).
    replace 51544.55 with (48622 + 2922.55) by lra. replace 51544.5 with (48622 + 2922.5) by lra.
    rewrite !otis_change by exact O.
    replace (dot v epoch0 + 2922.55 * dot v rates0 - (dot v epoch0 + 2922.5 * dot v rates0))
      with ((5 / 100) * dot v rates0) by lra. field.
  - unfold frequency in F. rewrite C in F. discriminate.
Qed.

(** The tabulated angular frequency is the one computed from the Doodson
    coefficients and the mean longitudes, within 2.1e-10 radians per second. *)
Theorem C57_omega : forall corr c q, otis_corr corr = true -> In (c, q) parameters ->
  exists w, frequency corr c = Ok w /\ Rabs (w - p_omega q) <= 2.1e-10.
Proof.
  intros corr c q O I. destruct (row_of _ _ I) as [k [N (v & E & _ & W & _)]].
  eexists. split; [apply (otis_frequency _ _ v O); apply coefficients_of; assumption|exact W].
Qed.
Print Assumptions C57_omega.

(** The tabulated phase is the argument of the constituent at the epoch of the
    OTIS-type models (1992-01-01, MJD 48622), up to full turns, within 2e-9 radians
    (1e-7 for M1). *)
Theorem C57_phase : forall corr m1 c q, otis_corr corr = true -> In (c, q) parameters ->
  exists u f G, arguments corr m1 48622 0 c = Ok (u, f, G) /\
  exists k : Z, Rabs (G * (PI / 180) - p_phase q - 2 * PI * IZR k) <= (if String.eqb c "m1" then 1e-7 else 2e-9).
Proof.
  intros corr m1 c q O I. destruct (row_of _ _ I) as [k [N (v & E & _ & _ & P)]].
  pose proof (coefficients_of corr _ _ N E) as C.
  assert (A : exists u f G, arguments corr m1 48622 0 c = Ok (u, f, G)).
  { unfold arguments, arguments_from. rewrite C. cbn [bind]. do 3 eexists. reflexivity. }
  destruct A as (u & f & G & A). exists u, f, G. split; [exact A|].
  destruct (C12_unreduced _ _ _ _ _ _ _ _ A) as (v' & C' & U). rewrite C in C'. apply Ok_inj in C'. subst v'.
  cbv zeta in U. fold (raw_table c) in *.
  assert (U' : same_mod 360 G (dot v (unreduced corr 48622))).
  { unfold unreduced. rewrite !Rplus_0_r in U. unfold spec_raw in *. rewrite O in *. exact U. }
  clear U. destruct U' as [j J].
  replace 48622 with (48622 + 0) in J by ring. rewrite otis_change in J by exact O.
  exists (k + j)%Z. fold (phase_tolerance c).
  replace (G * (PI / 180) - p_phase q - 2 * PI * IZR (k + j))
    with ((dot v epoch0 - 360 * IZR k) * (PI / 180) - p_phase q); [exact P|].
  rewrite J, plus_IZR. field.
Qed.
Print Assumptions C57_phase.

(** So at [t] days from the epoch the phase angle used by the OTIS-type branch of
    the predictors differs from the argument [G] used by the other branch by at most
    that tolerance plus 2.1e-10 radians per second of elapsed time. *)
Theorem C57_prediction : forall corr c q t, otis_corr corr = true -> In (c, q) parameters ->
  exists k : Z,
  Rabs (a_omega (code_args corr) c * t * 86400 + a_phase (code_args corr) c
        - a_G (code_args corr) (t, 0) c * (PI / 180) - 2 * PI * IZR k)
  <= (if String.eqb c "m1" then 1e-7 else 2e-9) + 2.1e-10 * 86400 * Rabs t.
Proof.
  intros corr c q t O I. destruct (row_of _ _ I) as [k [N (v & E & _ & W & P)]].
  pose proof (coefficients_of corr _ _ N E) as C. fold (phase_tolerance c).
  assert (Q : constituent_parameters c false = Ok q).
  { clear - I. unfold constituent_parameters.
    assert (T : forallb (fun r => String.eqb (lower (fst r)) (fst r)) parameters = true) by reflexivity.
    assert (D : NoDup (map fst parameters)) by (repeat (apply NoDup_cons; [apply not_in_compute; reflexivity|]); apply NoDup_nil).
    rewrite forallb_forall in T. pose proof (T _ I) as L. cbn [fst] in L. apply String.eqb_eq in L. rewrite L. clear L T.
    revert I D. unfold assoc. generalize parameters as l. induction l as [|[x y] l IH]; [contradiction|].
    intros I D. cbn [find fst]. cbn [map fst] in D. inversion D as [|? ? D1 D2]; subst.
    destruct I as [I|I].
    - inversion I; subst. rewrite String.eqb_refl. reflexivity.
    - destruct (String.eqb x c) eqn:X; [|exact (IH I D2)].
      apply String.eqb_eq in X. subst x. exfalso. apply D1. apply (in_map fst) in I. exact I. }
  unfold code_args; cbn [a_omega a_phase a_G fst snd]. rewrite Q.
  assert (A : exists u f G, arguments corr "perth5" (t + mjd_tide) 0 c = Ok (u, f, G)).
  { unfold arguments, arguments_from. rewrite C. cbn [bind]. do 3 eexists. reflexivity. }
  destruct A as (u & f & G & A). rewrite A. cbn [pG_of].
  destruct (C12_unreduced _ _ _ _ _ _ _ _ A) as (v' & C' & U). rewrite C in C'. apply Ok_inj in C'. subst v'.
  cbv zeta in U.
  assert (U' : same_mod 360 G (dot v (unreduced corr (48622 + t)))).
  { unfold unreduced. rewrite !Rplus_0_r in U. unfold mjd_tide in U. rewrite (Rplus_comm 48622 t).
    unfold spec_raw in *. rewrite O in *. exact U. }
  clear U. destruct U' as [j J]. rewrite otis_change in J by exact O.
  exists (- (k + j))%Z. rewrite opp_IZR, plus_IZR.
  match goal with |- Rabs ?x <= _ => replace x with
    (- ((dot v epoch0 - 360 * IZR k) * (PI / 180) - p_phase q)
     + - ((dot v rates0 * (PI / 180) / 86400 - p_omega q) * (86400 * t))) by (rewrite J; field) end.
  eapply Rle_trans; [apply Rabs_triang|]. rewrite !Rabs_Ropp, Rabs_mult, Rabs_mult, (Rabs_right 86400) by lra.
  pose proof (Rabs_pos t). apply Rplus_le_compat; [exact P|].
  rewrite Rmult_assoc. apply Rmult_le_compat_r; [lra|exact W].
Qed.
Print Assumptions C57_prediction.

(** A constituent outside the table (S1 for instance) silently gets zero frequency
    and phase in the OTIS-type branch, though its frequency is not zero. *)
Theorem C57_untabulated_refuted : exists c w,
  frequency "OTIS" c = Ok w /\ 7e-5 < w /\ a_omega (code_args "OTIS") c = 0 /\ a_phase (code_args "OTIS") c = 0.
Proof.
  exists "s1"%string. eexists. split; [apply otis_frequency with (v := [1; 1; -1; 0; 0; 0; 1]%Z); reflexivity|].
  split; [|split; reflexivity].
  unfold rates0. rewrite !dot_cons, dot_nil. pose proof PI_bounds. lra.
Qed.
Print Assumptions C57_untabulated_refuted.

Example C57_case : In ("m2"%string, Par 0.2441 1.731557546 1.405189e-04 0.693 2) parameters.
Proof. left. reflexivity. Qed.
