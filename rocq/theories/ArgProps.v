(** C12 (equilibrium arguments modulo 360), C13 (periodicity of the nodal
    corrections), C14 (compound tides) and C58 (Doodson coefficients of compound
    tides). *)
From Coq Require Import Reals String List Bool ZArith Lra Lia.
From Verif Require Import PyBase RBase StrBase DoodsonData DoodsonModel DoodsonProps MathModel AstroModel.
From Verif Require Import PredictModel NodalBase NodalData ArgModel CompoundSpec PiBounds NodalProofs.
Import ListNotations.
Open Scope R_scope.

(** ** C13 *)
(** Changing the longitude of the node by whole turns changes nothing, for every
    name (tabulated or not) and every scheme. *)
Theorem C13_node : forall o n p c k, nodal o (n + 360 * IZR k) p c = nodal o n p c.
Proof. intros o n p c k. unfold nodal. rewrite env_node. reflexivity. Qed.
Print Assumptions C13_node.

(** The constituents built on L2 *)
Definition l2_family : list string :=
  ["l2"; "sl4"; "ml4"; "msl6"; "2ml2"; "2ml6"; "2ml2s2"; "2mls4"; "2msl8"; "2nmls6"; "3mls6"; "2mnls6";
   "3ml8"; "2mnl8"; "3msl10"; "4msl12"]%string.

Lemma uses_l2 : forall o e c l, nodal_rule o e c = Compound l ->
  In "l2"%string (map (fun x => fst (fst x)) l) -> In c l2_family.
Proof.
  intros o e c. unfold nodal_rule.
  apply (first_rule_forall (fun r => forall l, r = Compound l -> In "l2"%string (map (fun x => fst (fst x)) l) -> In c l2_family));
    [discriminate|].
  unfold branches; repeat (apply Forall_cons;
    [cbn [fst snd]; intros Hc l Hl;
     (discriminate Hl ||
      (injection Hl as <-; cbn [map fst]; intro HI;
       first [ exfalso; revert HI; apply not_in_compute; reflexivity
             | unfold holds in Hc; apply existsb_exists in Hc; destruct Hc as [x [Hx Ex]];
               apply String.eqb_eq in Ex; subst x; unfold l2_family; cbn [In] in Hx |- *; tauto ])) |]);
  apply Forall_nil.
Qed.

(** Likewise for the perigee, except for the L2 family of the FES scheme.
    Missing: those constituents (see the refutation). *)
Theorem C13_perigee_partial : forall o n p c k, fes o = false \/ ~ In c l2_family ->
  nodal o n (p + 360 * IZR k) c = nodal o n p c.
Proof.
  intros o n p c k H. unfold nodal. rewrite env_perigee.
  set (a := fes_Ra1 _ _). set (b := fes_R _ _). set (e := mk_env n p). clearbody a b e.
  assert (sub : fes o = false \/ ~ In c ["l2"; "sl4"]%string).
  { destruct H as [H|H]; [left; exact H | right; intro I; apply H].
    unfold l2_family; cbn [In] in I |- *; tauto. }
  change (rule_value (nodal_rec 1 o (set_fes e a b)) (nodal_rule o (set_fes e a b) c) =
          rule_value (nodal_rec 1 o e) (nodal_rule o e c)).
  rewrite rule_set_fes by exact sub.
  destruct (nodal_rule o e c) as [| |l] eqn:E; cbn [rule_value]; [reflexivity | reflexivity |].
  apply combine_ext.
  apply Forall_forall. intros [[x m] z] I. cbn [fst].
  change (rule_value (fun c' => (0, 0)) (nodal_rule o (set_fes e a b) x) =
          rule_value (fun c' => (0, 0)) (nodal_rule o e x)).
  rewrite rule_set_fes; [reflexivity|].
  destruct H as [H|H]; [left; exact H | right]. intro J.
  assert (In x parent_names) as Px
    by (generalize (branches_parents _ _ _ _ E); rewrite Forall_forall; intro F; exact (F _ I)).
  cbn [In] in J. destruct J as [<-|[<-|[]]].
  - apply H, (uses_l2 _ _ _ _ E). apply in_map_iff. exists ("l2"%string, m, z). split; [reflexivity | exact I].
  - revert Px. apply not_in_compute. reflexivity.
Qed.
Print Assumptions C13_perigee_partial.

Lemma cos_720 : cos 720 <> 1.
Proof.
  intro E. assert (S0 : sin 720 = 0) by (pose proof (sin2_cos2' 720) as Q; rewrite E in Q; nra).
  destruct (sin_eq_0_0 _ S0) as [k K].
  pose proof PI_bounds as B.
  assert (k = 229)%Z.
  { assert (A1 : 228 < IZR k) by (apply Rmult_lt_reg_r with PI; lra).
    assert (A2 : IZR k < 230) by (apply Rmult_lt_reg_r with PI; lra).
    apply lt_IZR in A1. apply lt_IZR in A2. lia. }
  subst k. rewrite K in E. replace (229 * PI) with (PI + 2 * IZR 114 * PI) in E by ring.
  rewrite cos_turns, cos_PI in E. lra.
Qed.

(** FES L2: adding a turn to the perigee (in degrees) changes the factor, since
    the code subtracts xi in radians from p in degrees. *)
Theorem C13_perigee_refuted : exists n p,
  snd (nodal (options "FES" "perth5") n (p + 360 * IZR 1) "l2") <> snd (nodal (options "FES" "perth5") n p "l2").
Proof.
  exists 0, 0. unfold nodal. cbn [nodal_rec]. rewrite !rule_filter.
  rule_of. unfold options. cbn.
  pose proof (fes_half 0) as [C _]. pose proof (fes_tan 0) as T.
  assert (X : fes_xi 0 = 0).
  { unfold fes_xi, fes_at1, fes_at2. rewrite Rmult_0_l. replace (0 / 2) with 0 by field.
    rewrite tan_0, !Rmult_0_r, atan_0. replace (- 0 - 0 + 0) with 0 by ring.
    rewrite sin_0, cos_0. unfold atan2. destruct (Rlt_dec 0 1); [|lra].
    replace (0 / 1) with 0 by field; apply atan_0. }
  assert (D : fes_Ra1 0 (0 + 360 * 1) <> fes_Ra1 0 0).
  { unfold fes_Ra1. rewrite X. set (t := fes_I2 0) in *.
    replace (2 * (0 + 360 * 1 - 0)) with 720 by ring. replace (2 * (0 - 0)) with 0 by ring. rewrite cos_0.
    pose proof (COS_bound 720) as CB. pose proof cos_720 as N.
    intro Q. apply sqrt_inj in Q.
    - apply N. replace (t ^ 4) with (t ^ 2 * t ^ 2) in Q by ring. set (u := t ^ 2) in *. nra.
    - replace (t ^ 4) with (t ^ 2 * t ^ 2) by ring. set (u := t ^ 2) in *. nra.
    - replace (t ^ 4) with (t ^ 2 * t ^ 2) by ring. set (u := t ^ 2) in *. nra. }
  intro Q. apply D.
  assert (P4 : 0 < cos (fes_II 0 / 2) ^ 4) by (apply pow_lt; exact C).
  apply Rmult_eq_reg_r with (cos (fes_II 0 / 2) ^ 4 / 0.9154).
  - unfold Rdiv in *. rewrite <- !Rmult_assoc. cbn in Q |- *. exact Q.
  - apply Rgt_not_eq. apply Rdiv_lt_0_compat; lra.
Qed.
Print Assumptions C13_perigee_refuted.

(** Minor constituents: same for [minor_arguments] *)
Theorem C13_minor_node : forall corr n p j k, minor_nodal corr (n + 360 * IZR k) p j = minor_nodal corr n p j.
Proof. intros corr n p j k. unfold minor_nodal. rewrite env_node. reflexivity. Qed.
Print Assumptions C13_minor_node.

(** Missing: column 15 (L2) of the FES scheme, refuted below. *)
Theorem C13_minor_perigee_partial : forall corr n p j k, corr <> "FES"%string \/ j <> 15%nat ->
  minor_nodal corr n (p + 360 * IZR k) j = minor_nodal corr n p j.
Proof.
  intros corr n p j k H. unfold minor_nodal. rewrite env_perigee.
  set (a := fes_Ra1 _ _). set (b := fes_R _ _). set (e := mk_env n p). clearbody a b e.
  destruct (String.eqb corr "FES") eqn:E.
  - destruct H as [H|H]; [apply String.eqb_eq in E; contradiction|].
    do 15 (destruct j as [|j]; [reflexivity|]). destruct j as [|j]; [contradiction|].
    do 4 (destruct j as [|j]; [reflexivity|]). destruct j; reflexivity.
  - reflexivity.
Qed.
Print Assumptions C13_minor_perigee_partial.

Theorem C13_minor_perigee_refuted : exists n p,
  snd (minor_nodal "FES" n (p + 360 * IZR 1) 15) <> snd (minor_nodal "FES" n p 15).
Proof.
  destruct C13_perigee_refuted as [n [p H]]. exists n, p. intro Q. apply H. clear H.
  unfold minor_nodal in Q. change (String.eqb "FES" "FES") with true in Q. cbv iota in Q.
  unfold minor_fes in Q. cbv zeta in Q. cbn [nth snd fst] in Q.
  unfold nodal. cbn [nodal_rec]. rule_of. unfold options. cbn [otis fes String.eqb Ascii.eqb Bool.eqb existsb orb].
  cbn [rule_value snd].
  unfold Rdiv in *.
  etransitivity; [|etransitivity; [exact Q|]]; ring.
Qed.
Print Assumptions C13_minor_perigee_refuted.

(** ** C14 *)
(** The recursion of the code is well founded: no parent is itself compound, so
    any recursion depth of at least two gives the same value. *)
Theorem C14_recursion_depth : forall k o n p c, nodal_rec (S (S k)) o (mk_env n p) c = nodal o n p c.
Proof. intros. apply rec_depth. Qed.
Print Assumptions C14_recursion_depth.

(** Factors are positive for every name, scheme and pair of longitudes *)
Theorem C14_factor_positive : forall o n p c, 0 < snd (nodal o n p c).
Proof. exact nodal_positive. Qed.
Print Assumptions C14_factor_positive.

Ltac name_cbv := lazy beta iota zeta delta [conventional solar carrier existsb String.eqb Ascii.eqb Bool.eqb orb andb].

(** Every compound with a branch of its own has the product of the factors and
    the signed sum of the angles of its parents, in every scheme (solar parents
    unmodulated, N2, NU2, MU2 modulated like M2). *)
Theorem C14_compound : forall c l, In (c, l) compound_handled -> forall o n p,
  let uf := nodal o n p in
  snd (uf c) = factor (conventional uf) l /\ fst (uf c) = angle (conventional uf) l.
Proof.
  intros c l I o n p. cbv zeta.
  revert c l I.
  assert (H : Forall (fun cl => forall val e, 
     snd (rule_value val (nodal_rule o e (fst cl))) = factor (conventional val) (snd cl) /\
     fst (rule_value val (nodal_rule o e (fst cl))) = angle (conventional val) (snd cl)) compound_handled).
  { unfold compound_handled.
    repeat (apply Forall_cons;
      [ cbn [fst snd]; intros val e; rule_of; cbn [factor angle]; name_cbv;
        cbn [rule_value combine_parents fst snd Z.abs_nat]; split;
        [ unfold Pos.to_nat; cbn [Pos.iter_op Nat.add pow]; ring | ring ] |]).
    apply Forall_nil. }
  rewrite Forall_forall in H. intros c l I.
  pose proof (H _ I (nodal o n p) (mk_env n p)) as [A B]. cbn [fst snd] in A, B.
  rewrite (nodal_unfold o n p c). split; assumption.
Qed.
Print Assumptions C14_compound.

(** Compounds that share the branch of their lunar parent (all schemes but perth3,
    whose simplified M2, O1, K1, K2 are not applied to them). *)
Theorem C14_as_linear : forall c l, In (c, l) compound_as_linear -> forall o n p, perth3 o = false ->
  let uf := nodal o n p in
  snd (uf c) = factor (conventional uf) l /\ fst (uf c) = angle (conventional uf) l.
Proof.
  intros c l I o n p HP. cbv zeta. revert c l I.
  assert (K : forall c d : string, (forall e, nodal_rule o e c = nodal_rule o e d) -> nodal o n p c = nodal o n p d).
  { intros c d H. rewrite (nodal_unfold o n p c), (nodal_unfold o n p d), H. reflexivity. }
  assert (H : Forall (fun cl => snd (nodal o n p (fst cl)) = factor (conventional (nodal o n p)) (snd cl) /\
     fst (nodal o n p (fst cl)) = angle (conventional (nodal o n p)) (snd cl)) compound_as_linear).
  { unfold compound_as_linear.
    repeat (apply Forall_cons;
      [ cbn [fst snd]; cbn [factor angle]; name_cbv;
        match goal with |- snd (nodal _ _ _ ?c) = ?rhs /\ _ =>
          match rhs with context [snd (nodal _ _ _ ?d)] => rewrite (K c d) end end;
        [ cbn [fst snd Z.abs_nat]; generalize (nodal o n p); intro val; split;
          [ unfold Pos.to_nat; cbn [Pos.iter_op Nat.add pow]; ring | ring ]
        | intro e; rule_of; rewrite ?HP; 
          repeat match goal with |- context [if ?g then _ else _] => destruct g end; reflexivity ] |]).
    apply Forall_nil. }
  rewrite Forall_forall in H. intros c l I. exact (H _ I).
Qed.
Print Assumptions C14_as_linear.

Lemma atan2_0_1 : atan2 0 1 = 0.
Proof. unfold atan2. destruct (Rlt_dec 0 1); [|lra]. replace (0 / 1) with 0 by field. apply atan_0. Qed.
Lemma amp_0_1 : sqrt (0 ^ 2 + 1 ^ 2) = 1.
Proof. replace (0 ^ 2 + 1 ^ 2) with 1 by ring. apply sqrt_1. Qed.

(** In the OTIS and FES schemes the conventions are exact: the actual corrections
    of all the parents can be used. *)
Theorem C14_actual_parents : forall c l, In (c, l) (compound_handled ++ compound_as_linear) ->
  forall o n p, otis o = true \/ fes o = true -> perth3 o = false ->
  let uf := nodal o n p in snd (uf c) = factor uf l /\ fst (uf c) = angle uf l.
Proof.
  intros c l I o n p HO HP. cbv zeta.
  assert (D : snd (nodal o n p c) = factor (conventional (nodal o n p)) l /\
              fst (nodal o n p c) = angle (conventional (nodal o n p)) l).
  { apply in_app_or in I. destruct I as [I|I].
    - apply (C14_compound c l I). - apply (C14_as_linear c l I o n p HP). }
  assert (X : forall x, conventional (nodal o n p) x = nodal o n p x).
  { assert (K : forall c d : string, (forall e, nodal_rule o e c = nodal_rule o e d) -> nodal o n p c = nodal o n p d).
    { intros c' d H. rewrite (nodal_unfold o n p c'), (nodal_unfold o n p d), H. reflexivity. }
    assert (S0 : forall x, (forall e, nodal_rule o e x = Terms 0 1) -> (0, 1) = nodal o n p x).
    { intros x H. rewrite nodal_unfold, H. cbn [rule_value]. rewrite atan2_0_1, amp_0_1. reflexivity. }
    intro x. unfold conventional.
    destruct (solar x) eqn:E.
    - unfold solar in E. apply existsb_exists in E. destruct E as [y [J E]]. apply String.eqb_eq in E. subst y.
      apply S0. intro e. cbn [In] in J.
      decompose [or] J; subst; try contradiction; rule_of;
      rewrite ?HP; destruct HO as [HO|HO]; rewrite ?HO; destruct (otis o); destruct (fes o); try discriminate; reflexivity.
    - unfold carrier. destruct (existsb (String.eqb x) ["n2"; "nu2"; "mu2"]%string) eqn:F; [|reflexivity].
      apply existsb_exists in F. destruct F as [y [J F]]. apply String.eqb_eq in F. subst y. cbn [In] in J.
      apply K. intro e.
      decompose [or] J; subst; try contradiction; rule_of; rewrite ?HP; destruct (otis o), (fes o); reflexivity. }
  destruct D as [D1 D2]. rewrite D1, D2. clear -X. split; induction l as [|[x k] l IH]; cbn [factor angle];
    rewrite ?X, ?IH; reflexivity.
Qed.
Print Assumptions C14_actual_parents.

(** *** Where the claim fails *)
Lemma sqrt_sq x : 0 <= x -> sqrt (0 ^ 2 + x ^ 2) = x.
Proof. intro H. replace (0 ^ 2 + x ^ 2) with (x * x) by ring. apply sqrt_square, H. Qed.

Lemma env0 : mk_env 0 0 = {| sinn := 0; cosn := 1; sin2n := 0; cos2n := 1; sin3n := 0; sinp := 0; cosp := 1;
  sin2p := 0; cos2p := 1; s2pn := 0; c2pn := 1; spn := 0; cpn := 1; s2np := 0; c2np := 1;
  incl := fes_II 0; xi := fes_xi 0; nu := fes_nu 0; nu_prime := fes_nu_prime 0; nu_sec := fes_nu_sec 0;
  ra1 := fes_Ra1 0 0; rr := fes_R 0 0 |}.
Proof.
  unfold mk_env. rewrite ?Rmult_0_r, ?Rminus_0_r, ?Rmult_0_r, ?Rmult_0_l, sin_0, cos_0. reflexivity.
Qed.

(** Factors of the OTIS scheme when node and perigee are both at 0 *)
Definition factor0 (x : string) : R :=
  match assoc x [("m2", 0.96321); ("k2", 1.3176); ("k1", 1.1129); ("o1", 1.1832); ("q1", 1.188);
                 ("j1", 1.169); ("l2", 0.6); ("oo1", 1.774)]%string with Some v => v | None => 1 end.
Lemma values0 : forall x, In x parent_names -> snd (nodal (options "OTIS" "perth5") 0 0 x) = factor0 x.
Proof.
  intros x I. rewrite nodal_unfold, env0.
  unfold parent_names in I; cbn [In] in I.
  repeat (destruct I as [<-|I];
    [rule_of; unfold options; cbn [otis fes perth3 sinn cosn sin2n cos2n cos2p sin2p s2pn c2pn rule_value snd];
     lazy beta iota zeta delta [factor0 assoc find fst snd String.eqb Ascii.eqb Bool.eqb existsb orb];
     cbn [rule_value snd];
     match goal with |- sqrt (?a ^ 2 + ?b ^ 2) = ?c =>
       first [ replace a with 0 by lra; replace b with c by lra; apply sqrt_sq; lra
             | replace b with 0 by lra; replace a with c by lra; rewrite Rplus_comm; apply sqrt_sq; lra ] end |]).
  destruct I.
Qed.

(** A tabulated compound without a branch gets f = 1, u = 0 from [nodal], while the
    product of its parents is something else. *)
Theorem C14_unhandled_refuted : forall c l, In (c, l) compound_unhandled ->
  (forall o n p, nodal o n p c = (0, 1)) /\
  (exists n p, factor (conventional (nodal (options "OTIS" "perth5") n p)) l <> 1).
Proof.
  assert (H : Forall (fun cl => forall o e, nodal_rule o e (fst cl) = Terms 0 1) compound_unhandled).
  { unfold compound_unhandled. repeat (apply Forall_cons; [cbn [fst]; intros o e; rule_of; reflexivity|]). apply Forall_nil. }
  assert (H' : Forall (fun cl => factor (conventional (nodal (options "OTIS" "perth5") 0 0)) (snd cl) <> 1) compound_unhandled).
  { assert (V : forall x, In x parent_names -> snd (nodal (options "OTIS" "perth5") 0 0 x) = factor0 x) by exact values0.
    revert V. generalize (nodal (options "OTIS" "perth5") 0 0). intros val V.
    unfold compound_unhandled.
    repeat (apply Forall_cons;
      [cbn [snd factor]; name_cbv;
       rewrite ?V by (apply in_compute; reflexivity);
       lazy beta iota zeta delta [factor0 assoc find fst snd String.eqb Ascii.eqb Bool.eqb];
       cbn [snd Z.abs_nat]; unfold Pos.to_nat; cbn [Pos.iter_op Nat.add pow]; lra |]).
    apply Forall_nil. }
  intros c l I. split.
  - intros o n p. rewrite Forall_forall in H. pose proof (H _ I o (mk_env n p)) as R1. cbn [fst] in R1.
    rewrite nodal_unfold, R1. cbn [rule_value]. rewrite atan2_0_1, amp_0_1. reflexivity.
  - rewrite Forall_forall in H'. exists 0, 0. exact (H' _ I).
Qed.
Print Assumptions C14_unhandled_refuted.

(** MSK6 = M2 + S2 + K2 and SNK6 = S2 + N2 + K2 get the angle of M2 - K2. *)
Theorem C14_wrong_sign_refuted : forall c l, In (c, l) compound_wrong_sign ->
  (forall o n p, fst (nodal o n p c) = fst (nodal o n p "m2") - fst (nodal o n p "k2")) /\
  (exists n p, let uf := nodal (options "OTIS" "perth5") n p in fst (uf c) <> angle (conventional uf) l).
Proof.
  intros c l I.
  assert (A : forall o n p, fst (nodal o n p c) = fst (nodal o n p "m2") - fst (nodal o n p "k2")).
  { intros o n p. rewrite nodal_unfold. generalize (nodal o n p) as val. intro val.
    unfold compound_wrong_sign in I; cbn [In] in I.
    destruct I as [E|[E|[]]]; inversion E; subst c l; rule_of; cbn [rule_value combine_parents fst snd]; destruct (val "m2"%string), (val "k2"%string); cbn [fst]; ring. }
  split; [exact A|].
  exists 90, 0. cbv zeta. rewrite A.
  assert (K : fst (nodal (options "OTIS" "perth5") 90 0 "k2") <> 0).
  { rewrite nodal_unfold. rule_of. unfold options. cbn [otis]. 
    lazy beta iota zeta delta [existsb String.eqb Ascii.eqb Bool.eqb orb]. cbn [rule_value fst].
    unfold mk_env; cbn [sinn sin2n cosn cos2n].
    replace (90 * dtr) with (PI / 2) by (unfold dtr; field).
    replace (2 * 90 * dtr) with PI by (unfold dtr; field).
    rewrite sin_PI2, cos_PI2, sin_PI, cos_PI.
    intro Z. pose proof (atan2_sin (- 0.3108 * 1 - 0.0324 * 0) (1 + 0.2852 * 0 + 0.0324 * -1)) as S0.
    match type of Z with ?t = 0 => match type of S0 with context [sin ?s] => replace s with t in S0 end end.
    - rewrite Z, sin_0 in S0. lra.
    - f_equal; lra. }
  revert K. generalize (nodal (options "OTIS" "perth5") 90 0) as val. intros val K.
  unfold compound_wrong_sign in I; cbn [In] in I.
  destruct I as [E|[E|[]]]; inversion E; subst c l; cbn [angle]; name_cbv; cbn [fst]; lra.
Qed.
Print Assumptions C14_wrong_sign_refuted.

(** The tabulated "o2" (2 O1) matches the test [c in ('ko2')], a substring test, and
    gets the corrections of KO2 = K1 + O1. *)
Theorem C14_substring_refuted :
  (forall o n p, nodal o n p "o2" = nodal o n p "ko2") /\
  (exists n p, let uf := nodal (options "OTIS" "perth5") n p in
     snd (uf "o2"%string) <> factor (conventional uf) [("o1"%string, 2%Z)]).
Proof.
  assert (E : forall o n p, nodal o n p "o2" = nodal o n p "ko2").
  { intros o n p. rewrite !nodal_unfold. rule_of. reflexivity. }
  split; [exact E|]. exists 0, 0. cbv zeta.
  rewrite nodal_unfold. rule_of. cbn [factor]; name_cbv.
  cbn [rule_value combine_parents fst snd Z.abs_nat]. unfold Pos.to_nat; cbn [Pos.iter_op Nat.add pow].
  rewrite !values0 by (apply in_compute; reflexivity).
  lazy beta iota zeta delta [factor0 assoc find fst snd String.eqb Ascii.eqb Bool.eqb]. lra.
Qed.
Print Assumptions C14_substring_refuted.

(** Outside OTIS and FES, S2 and P1 have corrections of their own which compounds
    ignore: 2SM2 = 2 S2 - M2 in the GOT scheme. *)
Theorem C14_actual_parents_refuted : exists n p, let uf := nodal (options "GOT" "perth5") n p in
  snd (uf "2sm2"%string) <> factor uf [("s2"%string, 2%Z); ("m2"%string, (-1)%Z)].
Proof.
  exists 0, 0. cbv zeta.
  assert (S2 : snd (nodal (options "GOT" "perth5") 0 0 "s2") = 1.00225).
  { rewrite nodal_unfold, env0. rule_of. unfold options. cbn [otis fes perth3].
    lazy beta iota zeta delta [existsb String.eqb Ascii.eqb Bool.eqb orb]. cbn [rule_value snd sinn cosn].
    match goal with |- sqrt (?a ^ 2 + ?b ^ 2) = ?c =>
       replace a with 0 by lra; replace b with c by lra; apply sqrt_sq; lra end. }
  pose proof (nodal_positive (options "GOT" "perth5") 0 0 "m2") as P.
  rewrite (nodal_unfold _ _ _ "2sm2"). rule_of. cbn [factor]. rewrite S2.
  cbn [rule_value combine_parents fst snd Z.abs_nat]. unfold Pos.to_nat; cbn [Pos.iter_op Nat.add pow].
  revert P. generalize (snd (nodal (options "GOT" "perth5") 0 0 "m2")) as m. intros m P. nra.
Qed.
Print Assumptions C14_actual_parents_refuted.

(** Satisfiability: the tables are not empty. *)
Example C14_compound_case : In ("2mk3", [("m2", 2); ("k1", -1)])%string%Z compound_handled.
Proof. unfold compound_handled. cbn [In]. tauto. Qed.
Example C14_unhandled_case : In ("2(mn)8", [("m2", 2); ("n2", 2)])%string%Z compound_unhandled.
Proof. unfold compound_unhandled. cbn [In]. tauto. Qed.
