(** C77: the lines of the long-period equilibrium tide and the amplitudes of the
    constituents against the tables of the potential. *)
From Coq Require Import String Ascii List Reals ZArith Bool Lia Lra Psatz.
From Verif Require Import PyBase StrBase RBase PiBounds MathModel AstroModel AstroProps NutationModel NutationSpec NutationProps DoodsonModel DoodsonData ArgModel EarthModel LpeSpec LpeProps
  PotentialData PotentialModel PotentialSpec PotentialProps.
Import ListNotations.
Open Scope R_scope.
Open Scope list_scope.

(** ** Single precision numbers as integers over 2^60 *)
Definition fixed (x : Z * Z) : Z := (fst x * 2 ^ (60 + snd x))%Z.
Definition fits (x : Z * Z) : bool := (-60 <=? snd x)%Z.
Lemma fixed_value x : fits x = true -> single_value x = IZR (fixed x) / IZR (2 ^ 60).
Proof.
  unfold fits, fixed, single_value. intros H; apply Z.leb_le in H. rewrite mult_IZR.
  rewrite <- (pow_Z (60 + snd x)) by lia. rewrite powerRZ_add by lra. rewrite (pow_Z 60) by lia.
  field. apply IZR_neq. discriminate.
Qed.
Definition five (ks : list Z) : option (list Z) :=
  match ks with
  | [0%Z; a; b; c; d; e] => if (Z.eqb a 0 && Z.eqb b 0 && Z.eqb c 0 && Z.eqb d 0 && Z.eqb e 0)%bool then None else Some [a; b; c; d; e]
  | _ => None
  end.

(** ** Sums of terms in which the same multiples occur more than once *)
Section Sums.
  Variable g : list Z -> R.
  Definition sum_of (l : list (list Z * Z)) : R := fold_right (fun t acc => IZR (snd t) * g (fst t) + acc) 0 l.
  Definition size_of (l : list (list Z * Z)) : Z := fold_right (fun t acc => (Z.abs (snd t) + acc)%Z) 0%Z l.
  Definition keys_eqb (a b : list Z) : bool := if list_eq_dec Z.eq_dec a b then true else false.
  Fixpoint put (k : list Z) (v : Z) (l : list (list Z * Z)) : list (list Z * Z) :=
    match l with [] => [(k, v)] | (k', v') :: l => if keys_eqb k k' then (k', (v + v')%Z) :: l else (k', v') :: put k v l end.
  Definition gathered (l : list (list Z * Z)) : list (list Z * Z) := fold_right (fun t acc => put (fst t) (snd t) acc) [] l.
  Lemma sum_put k v l : sum_of (put k v l) = IZR v * g k + sum_of l.
  Proof.
    induction l as [|[k' v'] l IH]; cbn [put sum_of fold_right fst snd]; [reflexivity|].
    unfold keys_eqb. destruct (list_eq_dec Z.eq_dec k k') as [->|].
    - cbn [sum_of fold_right fst snd]. rewrite plus_IZR. unfold sum_of. ring.
    - cbn [sum_of fold_right fst snd]. fold (sum_of (put k v l)). rewrite IH. fold (sum_of l). ring.
  Qed.
  Lemma sum_gathered l : sum_of (gathered l) = sum_of l.
  Proof.
    induction l as [|[k v] l IH]; [reflexivity|]. unfold gathered in *; cbn [fold_right fst snd]. rewrite sum_put, IH. reflexivity.
  Qed.
  Lemma sum_bound l : (forall k, Rabs (g k) <= 1) -> Rabs (sum_of l) <= IZR (size_of l).
  Proof.
    intros G. induction l as [|[k v] l IH]; unfold sum_of, size_of in *; cbn [fold_right fst snd]; [rewrite Rabs_R0; lra|].
    rewrite plus_IZR, abs_IZR. eapply Rle_trans; [apply Rabs_triang|]. rewrite Rabs_mult. pose proof (G k). pose proof (Rabs_pos (IZR v)). nra.
  Qed.
  Lemma sum_app a b : sum_of (a ++ b) = sum_of a + sum_of b.
  Proof. induction a as [|t a IH]; unfold sum_of in *; cbn [app fold_right]; [ring|]. rewrite IH. ring. Qed.
End Sums.

Definition at_longitudes (s h p n pp : R) (k : list Z) : R :=
  match k with
  | [a; b; c; d; e] => cos ((IZR a * s + IZR b * h + IZR c * p + IZR d * - n + IZR e * pp) * (PI / 180))
  | _ => 0 end.
Lemma at_bound s h p n pp k : Rabs (at_longitudes s h p n pp k) <= 1.
Proof.
  unfold at_longitudes. destruct k as [|a [|b [|c [|d [|e [|]]]]]]; try (rewrite Rabs_R0; lra). apply Rabs_le. apply COS_bound.
Qed.

(** terms over 10^6 2^60 *)
Definition of_lines (ls : list line) : list (list Z * Z) :=
  map (fun w : line => let '(_, amp, (a, b, c, d, e)) := w in ([a; b; c; d; e], (amp * 2 ^ 60)%Z)) ls.
Definition of_waves (vs : list wave) : list (list Z * Z) :=
  flat_map (fun v => match five (cartwright v) with Some k => [(k, (- (fixed (hs3 v) * 10 ^ 6))%Z)] | None => [] end) vs.

Definition unit_terms : R := IZR (10 ^ 6 * 2 ^ 60).
Lemma unit_pos : 0 < unit_terms.
Proof. unfold unit_terms. apply IZR_lt. reflexivity. Qed.
Lemma sum_lines_of chosen s h p n pp ls : (forall c, chosen c = true) ->
  fold_right (fun (w : line) acc => let '(name, amp, k) := w in
    (if chosen name then IZR amp / 10 ^ 6 * cos (angle k s h p n pp * (PI / 180)) else 0) + acc) 0 ls
  = sum_of (at_longitudes s h p n pp) (of_lines ls) / unit_terms.
Proof.
  pose proof unit_pos as U. intros Hch.
  induction ls as [|[[nm z] [[[[a b] c] d] e]] ls IH]; [unfold of_lines, sum_of; cbn [fold_right map]; unfold Rdiv; ring|].
  cbn [fold_right of_lines map]. fold (of_lines ls). rewrite IH, Hch. unfold sum_of. cbn [fold_right fst snd]. fold (sum_of (at_longitudes s h p n pp) (of_lines ls)).
  unfold angle, at_longitudes. set (C := cos _).
  assert (E : IZR (z * 2 ^ 60) = IZR z / 10 ^ 6 * unit_terms).
  { unfold unit_terms. rewrite !mult_IZR. replace (IZR (10 ^ 6)) with (10 ^ 6) by (rewrite pow_IZR; reflexivity). field. }
  rewrite E. field. lra.
Qed.
Lemma sum_waves_of s h p n pp vs : forallb (fun v => fits (hs3 v)) vs = true ->
  long_period (map (fun v => (cartwright v, single_value (hs3 v))) vs) s h p n pp
  = - sum_of (at_longitudes s h p n pp) (of_waves vs) / unit_terms.
Proof.
  pose proof unit_pos as U.
  induction vs as [|v vs IH]; intros H; [unfold of_waves, sum_of, long_period; cbn [fold_right map flat_map]; unfold Rdiv; ring|].
  cbn [forallb] in H. apply andb_true_iff in H as [H1 H2]. specialize (IH H2).
  cbn [map of_waves flat_map]. fold (of_waves vs). rewrite sum_app. unfold long_period. cbn [fold_right fst snd].
  match goal with |- context [fold_right ?f 0 ?l] => change (fold_right f 0 l) with (long_period l s h p n pp) end. rewrite IH.
  unfold five. destruct (cartwright v) as [|t [|a [|b [|c [|d [|e [|]]]]]]]; try (destruct t; cbn [sum_of fold_right]; field; lra); try (cbn [sum_of fold_right]; field; lra).
  destruct t; try (cbn [sum_of fold_right]; field; lra).
  destruct ((a =? 0) && (b =? 0) && (c =? 0) && (d =? 0) && (e =? 0))%Z eqn:Z0; cbn [sum_of fold_right]; [field; lra|].
  cbn [fst snd]. unfold at_longitudes at 2. set (C := cos _).
  assert (E : IZR (- (fixed (hs3 v) * 10 ^ 6)) = - single_value (hs3 v) * unit_terms).
  { rewrite (fixed_value _ H1). unfold unit_terms. rewrite opp_IZR, !mult_IZR. field. apply IZR_neq. discriminate. }
  rewrite E. field. lra.
Qed.

(** The long-period equilibrium tide is within 10 mm of the response to all terms
    of long period of the table of 1973, at every time and latitude: what the terms
    that are left out and the rounding of the others amount to. *)
Theorem C77_long_period : forall t deltat lat corrections, exists vs x,
  parse_potential ce1973_tab1 = Ok vs /\ equilibrium_tide [(t, deltat)] [lat] corrections Default = Flat [x] /\
  let otis := existsb (String.eqb corrections) ["OTIS"; "ATLAS"; "TMD3"; "netcdf"]%string in
  let mjd := t + 48622 + deltat in
  match spec_raw mjd false (negb otis) with
  | [s; h; p; n] =>
      Rabs (x - (1 + 0.299 - 0.606) * (sqrt (5 / (4 * PI)) * ((3 * sin (lat * (PI / 180)) ^ 2 - 1) / 2))
              * long_period (map (fun v => (cartwright v, single_value (hs3 v))) vs)
                  s h p n (if otis then 282.8 else 282.94 + 1.7192 * ((mjd - 51544.5) / 36525))) <= 0.010
  | _ => False
  end.
Proof.
  intros t dt lat corr. destruct (C49_elementwise [(t, dt)] [lat] corr Default eq_refl) as (l & E & L & H).
  specialize (H 0%nat (t, dt) lat eq_refl eq_refl). destruct l as [|x [|]]; try discriminate. cbn [nth_error] in H.
  apply (f_equal (fun o => match o with Some v => v | None => 0 end)) in H. cbn [fst snd] in H.
  exists waves_1973, x. split; [exact read_1973|]. split; [exact E|]. cbv zeta.
  unfold height_at in H. revert H. set (otis := existsb _ _). set (mjd := t + 48622 + dt).
  assert (EQ : exists s h p n, spec_raw mjd false (negb otis) = [s; h; p; n]) by (destruct otis; repeat eexists).
  destruct EQ as (s & h & p & n & ->). set (pp := if otis then _ else _). intros ->.
  unfold height. rewrite sum_lines_of by reflexivity.
  assert (F : forallb (fun v => fits (hs3 v)) waves_1973 = true) by (vm_compute; reflexivity).
  rewrite (sum_waves_of s h p n pp waves_1973 F). set (g := at_longitudes s h p n pp).
  rewrite <- Rmult_minus_distr_l.
  replace (sum_of g (of_lines lines) / unit_terms - - sum_of g (of_waves waves_1973) / unit_terms)
    with (sum_of g (of_lines lines ++ of_waves waves_1973) / unit_terms) by (rewrite sum_app; field; apply Rgt_not_eq, unit_pos).
  rewrite <- sum_gathered.
  assert (B : (size_of (gathered (of_lines lines ++ of_waves waves_1973)) <= 22350 * 2 ^ 60)%Z) by (vm_compute; discriminate).
  pose proof (sum_bound g (gathered (of_lines lines ++ of_waves waves_1973)) (at_bound s h p n pp)) as K.
  set (X := sum_of g _) in *. apply IZR_le in B. clearbody X. set (sz := IZR (size_of _)) in *. clearbody sz.
  assert (KX : Rabs X <= IZR (22350 * 2 ^ 60)) by lra.
  rewrite Rabs_mult, Rabs_mult, Rabs_mult.
  assert (A1 : Rabs (1 + 0.299 - 0.606) = 0.693) by (rewrite Rabs_pos_eq; lra). rewrite A1.
  assert (A2 : Rabs (sqrt (5 / (4 * PI))) <= 0.631).
  { rewrite Rabs_pos_eq by apply sqrt_pos. pose proof PI_bounds as PB.
    replace 0.631 with (sqrt (0.631 ^ 2)) by (apply sqrt_pow2; lra). apply sqrt_le_1_alt.
    apply Rmult_le_reg_r with (4 * PI); [lra|]. unfold Rdiv. rewrite Rmult_assoc, Rinv_l by lra. nra. }
  assert (A3 : Rabs ((3 * sin (lat * (PI / 180)) ^ 2 - 1) / 2) <= 1).
  { set (w := sin _). assert (0 <= w ^ 2 <= 1) by (unfold w; pose proof (SIN_bound (lat * (PI / 180))); nra). apply Rabs_le. lra. }
  assert (A4 : Rabs (X / unit_terms) <= 0.02235).
  { pose proof unit_pos as U. unfold Rdiv. rewrite Rabs_mult, (Rabs_pos_eq (/ unit_terms)) by (apply Rlt_le, Rinv_0_lt_compat, U).
    apply Rmult_le_reg_r with unit_terms; [exact U|]. rewrite Rmult_assoc, Rinv_l, Rmult_1_r by lra.
    eapply Rle_trans; [exact KX|]. unfold unit_terms. rewrite !mult_IZR. set (b := IZR (2 ^ 60)). assert (0 < b) by (apply IZR_lt; reflexivity). lra. }
  set (x2 := Rabs (sqrt _)) in *. set (x3 := Rabs ((_ - 1) / 2)) in *. set (x4 := Rabs (X / _)) in *.
  assert (0 <= x2) by apply Rabs_pos. assert (0 <= x3) by apply Rabs_pos. assert (0 <= x4) by apply Rabs_pos.
  assert (x2 * x3 <= 0.631) by nra. assert (0 <= x2 * x3) by nra. nra.
Qed.
Print Assumptions C77_long_period.
