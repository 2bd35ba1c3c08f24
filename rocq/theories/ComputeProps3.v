(** C46 for the ocean tides: tide_elevations and tide_currents. *)
From Coq Require Import Reals Lra Lia String List Bool ZArith Arith.
From Verif Require Import PyBase RBase StrBase PredictModel PredictSpec PredictProofs PredictProps
  InferModel InferSpec InferProofs InferProps ComputeModel ComputeSpec ComputeProofs ComputeProps.
Import ListNotations.
Open Scope R_scope.

(** ** Minor tides are inferred point by point *)
Notation mrow := (list (cpx * bool)) (only parsing).
Inductive outcome := KErr (e : exn) | KNone | KArr (g : (R * R) * list (cpx * bool) -> R * bool).
Definition run (k : outcome) (ps : list ((R * R) * list (cpx * bool))) : res dh :=
  match k with KErr e => Err e | KNone => Ok Scalar0 | KArr g => Ok (Arr (map g ps)) end.
Definition mask_from_row (k : outcome) : Prop :=
  match k with KArr g => forall tm row, snd (g (tm, row)) = true -> existsb snd row = true | _ => True end.
Definition kadd (a b : outcome) : outcome :=
  match a, b with
  | KErr e, _ => KErr e
  | _, KErr e => KErr e
  | KNone, x => x
  | x, KNone => x
  | KArr g, KArr h => KArr (fun p => (fst (g p) + fst (h p), snd (g p) || snd (h p)))
  end.
Lemma run_add a b ps : (do x <- run a ps ;; do y <- run b ps ;; Ok (dh_add x y)) = run (kadd a b) ps.
Proof.
  destruct a, b; try reflexivity. cbn [run bind dh_add kadd]. rewrite combine_map, map_map. reflexivity.
Qed.
Lemma mask_add a b : mask_from_row a -> mask_from_row b -> mask_from_row (kadd a b).
Proof.
  destruct a, b; cbn [mask_from_row kadd]; auto. intros H1 H2 tm row. cbn [snd]. rewrite orb_true_iff.
  intros [H|H]; [apply (H1 _ _ H)|apply (H2 _ _ H)].
Qed.

Lemma family_outcome cindex need names contrib cs nc minor raise :
  (forall tm cols row k, snd (contrib tm cols row k) = true -> existsb snd row = true) ->
  exists k, mask_from_row k /\ forall ts rows ps, pairs ts rows = Ok ps ->
    family cindex need names contrib cs nc rows ts minor raise = run k ps.
Proof.
  intros M. unfold family. destruct (mapM (lookup cs nc) cindex) as [cols|e]; cbn [bind]; [|exists (KErr e); split; [exact I|reflexivity]].
  destruct (found cols <? need)%nat.
  { destruct raise; [exists (KErr OtherError)|exists KNone]; (split; [exact I|reflexivity]). }
  destruct (negb _); [exists KNone; split; [exact I|reflexivity]|].
  eexists (KArr _). split; cycle 1.
  - intros ts rows ps H. rewrite H. cbn [bind run]. reflexivity.
  - cbn [mask_from_row]. intros tm row. rewrite sum_minor_eq. cbn [fst snd orb]. rewrite existsb_exists.
    intros (k & _ & H). apply (M _ _ _ _ H).
Qed.
Lemma pick_mask row o s : snd (InferModel.pick row o s) = true -> existsb snd row = true.
Proof.
  destruct o as [j|]; cbn [InferModel.pick]; [|discriminate].
  destruct (nth j row ((0, 0), false)) as [z m] eqn:E. cbn [snd]. intros ->.
  apply existsb_exists. exists (z, true). split; [|reflexivity]. rewrite <- E.
  destruct (Nat.lt_ge_cases j (List.length row)) as [L|L]; [apply nth_In, L|].
  rewrite nth_overflow in E by exact L. discriminate.
Qed.
Lemma pivot_mask A freq gamf majors names amaj amin Ainv tm cols row k :
  snd (pivot_contrib A freq gamf majors names amaj amin Linear Ainv tm cols row k) = true -> existsb snd row = true.
Proof.
  unfold pivot_contrib, lin_interp. cbv zeta. cbn [snd].
  destruct (if Rlt_dec _ _ then _ else _); cbn [snd]; rewrite orb_true_iff; intros [H|H]; apply (pick_mask _ _ _ H).
Qed.
Lemma minor_outcome A B freq gam corr cs nc minor :
  exists k, mask_from_row k /\ forall ts rows ps, pairs ts rows = Ok ps ->
    infer_minor A B freq gam corr "linear" cs nc rows ts minor false = run k ps.
Proof.
  unfold infer_minor.
  assert (L : exists k, mask_from_row k /\ forall ts rows ps, pairs ts rows = Ok ps ->
    infer_long_period A freq cs nc rows ts minor false = run k ps).
  { apply family_outcome. intros tm cols row j. apply pivot_mask. }
  assert (Q : exists k, mask_from_row k /\ forall ts rows ps, pairs ts rows = Ok ps ->
    (if String.eqb corr "GOT"
     then do a <- infer_semi_diurnal A freq "linear" cs nc rows ts minor false ;;
          do b <- infer_diurnal A freq gam "linear" cs nc rows ts minor false ;;
          Ok (dh_add (dh_add Scalar0 a) b)
     else do a <- infer_short_period B corr cs nc rows ts minor false ;;
          Ok (dh_add Scalar0 a)) = run k ps).
  { destruct (String.eqb corr "GOT").
    - destruct (family_outcome sd_majors 3 sd_minors (pivot_contrib A freq (fun _ => 1) sd_majors sd_minors sd_amaj sd_amin Linear sd_Ainv) cs nc minor false) as (k1 & M1 & E1).
      { intros. eapply pivot_mask; eassumption. }
      destruct (family_outcome di_majors 3 di_minors (pivot_contrib A freq gam di_majors di_minors di_amaj di_amin Linear di_Ainv) cs nc minor false) as (k2 & M2 & E2).
      { intros. eapply pivot_mask; eassumption. }
      exists (kadd k1 k2). split; [apply mask_add; assumption|]. intros ts rows ps H.
      unfold infer_semi_diurnal, infer_diurnal. change (parse_method "linear") with (Ok Linear). cbn [bind].
      rewrite (E1 _ _ _ H), (E2 _ _ _ H). apply run_add.
    - destruct (family_outcome sp_majors 6 sp_minors (sp_contrib B corr) cs nc minor false) as (k1 & M1 & E1).
      { intros tm cols row j. unfold sp_contrib. cbv zeta. cbn [snd]. discriminate. }
      exists k1. split; [exact M1|]. intros ts rows ps H. unfold infer_short_period. rewrite (E1 _ _ _ H). destruct k1; reflexivity. }
  destruct L as (k1 & M1 & E1), Q as (k2 & M2 & E2).
  exists (kadd k2 k1). split; [apply mask_add; assumption|]. intros ts rows ps H.
  rewrite (E1 _ _ _ H), (E2 _ _ _ H). apply run_add.
Qed.

(** ** Requests *)
Lemma pairs_one_time tm rows : pairs [tm] rows = Ok (map (fun row => (tm, row)) rows).
Proof. destruct rows as [|r [|r' rows]]; reflexivity. Qed.
Lemma pairs_one_row ts row : ts <> [] -> pairs ts [row] = Ok (map (fun tm => (tm, row)) ts).
Proof. destruct ts; [congruence|reflexivity]. Qed.
Lemma pairs_drift {X} (t : X -> R * R) (r : X -> mrow) l : l <> [] -> pairs (map t l) (map r l) = Ok (map (fun a => (t a, r a)) l).
Proof.
  intros N. transitivity (Ok (combine (map t l) (map r l))); [|rewrite combine_map; reflexivity].
  destruct l as [|a [|b l]]; [congruence|reflexivity|]. cbn [map pairs List.length]. rewrite !map_length, Nat.eqb_refl. reflexivity.
Qed.
Lemma cycle_all (m : list bool) n : n = List.length m -> m <> [] -> cycle n m = m.
Proof.
  intros -> N. unfold cycle. transitivity (map (fun i => nth i m false) (seq 0 (List.length m))).
  - apply map_ext_in. intros i Hi. apply in_seq in Hi. rewrite Nat.mod_small by lia. reflexivity.
  - rewrite (map_seq_nth (fun b => b) m false). apply map_id.
Qed.
Lemma mask_row {X} (cs : list X) (row : mrow) : List.length row = List.length cs ->
  existsb (fun p => snd (snd p)) (combine cs row) = existsb snd row.
Proof. revert row. induction cs as [|c cs IH]; intros [|r row] H; try discriminate; [reflexivity|]. cbn in *. rewrite IH by lia. reflexivity. Qed.
Lemma add_masked_map {X} (a b : X -> R * bool) l :
  add_masked (map a l) (map b l) = map (fun x => (fst (a x) + fst (b x), snd (a x) || snd (b x))) l.
Proof. unfold add_masked. rewrite combine_map, map_map. reflexivity. Qed.

Section Tides.
  Variable proj : R * R -> R * R.
  Variable clock : string -> R -> stamp.
  Variable A : tide_args.
  Variable B : minor_args.
  Variable freq : string -> R.
  Variable gam : R -> R.
  Variable corr : string.
  Variable cs : list string.
  Variable minor : option (list string).
  Variable infer : bool.
  Variable H : R * R -> list (cpx * bool).
  Hypothesis Hlen : forall p, List.length (H p) = List.length cs.
  Hypothesis Hknown : check_known A cs = Ok tt.
  Variable g : (R * R) * list (cpx * bool) -> R * bool.
  Hypothesis Hg : if infer
    then (forall tm row, snd (g (tm, row)) = true -> existsb snd row = true) /\
         forall ts rows ps, pairs ts rows = Ok ps ->
           minor_values A B freq gam corr cs (List.length cs) rows ts minor = Ok (map g ps)
    else g = fun _ => (0, false).

  Definition major (tm : R * R) (row : list (cpx * bool)) : R * bool :=
    (rsum (map (fun p => component (a_f A tm (fst p)) (theta A corr tm (fst p)) (fst (snd p))) (combine cs row)), existsb snd row).
  Lemma point_major tm p : point A corr tm cs (H p) = Ok (major tm (H p)).
  Proof. rewrite point_sum by (rewrite Hlen; lia). unfold major. rewrite mask_row by apply Hlen. reflexivity. Qed.
  Lemma g_mask tm row : existsb snd row || snd (g (tm, row)) = existsb snd row.
  Proof.
    destruct (snd (g (tm, row))) eqn:E; [|apply orb_false_r]. destruct infer.
    - destruct Hg as [M _]. rewrite (M _ _ E). reflexivity.
    - rewrite Hg in E. discriminate.
  Qed.

  Definition tide_one (st : stamp) (p : R * R) : option R * bool :=
    let tm := tide_time corr st in
    fill (fst (major tm (H p)) + fst (g (tm, H p)), existsb snd (H p)).

  Lemma minor_part ts rows ps : pairs ts rows = Ok ps ->
    (if infer then minor_values A B freq gam corr cs (List.length cs) rows ts minor else Ok (map (fun _ => (0, false)) ps)) = Ok (map g ps).
  Proof. intros E. destruct infer; [apply Hg, E|]. rewrite Hg. reflexivity. Qed.

  Lemma hd_length (l : list (R * R)) : l <> [] -> List.length (hd [] (map H l)) = List.length cs.
  Proof. destruct l as [|p l]; [congruence|]. intros _. cbn. apply Hlen. Qed.

  Lemma values_grid T X nx (P : list (list (R * R))) sts : lower T = "grid"%string ->
    shape2 X = Ok (List.length P, nx) -> Forall (fun r => List.length r = nx) P -> concat P <> [] ->
    tide_values A B freq gam corr cs minor infer T X (map H (map proj (concat P))) sts
    = Ok (A3 (map (map (fun p => map (fun st => tide_one st (proj p)) sts)) P)).
  Proof.
    intros L Q F N. unfold tide_values. rewrite L. cbn [String.eqb Ascii.eqb Bool.eqb]. rewrite Q. cbn [bind fst snd].
    rewrite hd_length by (apply map_nonempty, N). cbv zeta.
    rewrite (grid_layers (Some 0, false) nx P _ _ (fun tm p => fill (fst (major tm (H (proj p))) + fst (g (tm, H (proj p))), existsb snd (H (proj p))))); [|exact F|].
    - do 2 f_equal. apply map_ext. intros row. apply map_ext. intros p. rewrite map_map. reflexivity.
    - intros tm _. unfold predict_map. rewrite Hknown. cbn [bind].
      rewrite map_map, mapM_map, (mapM_ok _ (fun p => major tm (H (proj p)))) by (intros; apply point_major). cbn [bind].
      pose proof (minor_part _ _ _ (pairs_one_time tm (map (fun p => H (proj p)) (concat P)))) as E.
      rewrite !(map_map _ (fun row => (tm, row))), !(map_map _ (fun _ => (0, false))) in E. rewrite !(map_map _ (fun _ => (0, false))).
      rewrite E. cbn [bind]. rewrite map_map, add_masked_map, map_map.
      rewrite reshape_layer by exact F. f_equal. f_equal. apply map_ext. intros p. cbn [major fst snd]. rewrite g_mask. reflexivity.
  Qed.
  Lemma values_drift T X (pts : list (R * R * R)) TIME : lower T = "drift"%string -> pts <> [] ->
    tide_values A B freq gam corr cs minor infer T X (map H (map (fun p => proj (fst p)) pts)) (map (fun p => clock TIME (snd p)) pts)
    = Ok (A1 (map (fun p => tide_one (clock TIME (snd p)) (proj (fst p))) pts)).
  Proof.
    intros L N. unfold tide_values. rewrite L. cbn [String.eqb Ascii.eqb Bool.eqb].
    rewrite hd_length by (apply map_nonempty, N). cbv zeta. rewrite !map_map.
    rewrite drift_eq by (rewrite !map_length; reflexivity). rewrite Hknown. cbn [bind]. rewrite combine_map, mapM_map. cbn [fst snd].
    rewrite (mapM_ok _ (fun p => major (tide_time corr (clock TIME (snd p))) (H (proj (fst p))))) by (intros; apply point_major). cbn [bind].
    rewrite cycle_all by (rewrite ?map_length; try reflexivity; apply map_nonempty, N).
    assert (D : (if infer
      then do mn <- minor_values A B freq gam corr cs (List.length cs) (map (fun x => H (proj (fst x))) pts) (map (fun x => tide_time corr (clock TIME (snd x))) pts) minor ;;
           Ok (map (fun p => fst (fst p) + fst (snd p)) (combine (map (fun p => major (tide_time corr (clock TIME (snd p))) (H (proj (fst p)))) pts) mn))
      else Ok (map fst (map (fun p => major (tide_time corr (clock TIME (snd p))) (H (proj (fst p)))) pts)))
      = Ok (map (fun p => fst (major (tide_time corr (clock TIME (snd p))) (H (proj (fst p)))) + fst (g (tide_time corr (clock TIME (snd p)), H (proj (fst p))))) pts)).
    { pose proof (minor_part _ _ _ (pairs_drift (fun x : R * R * R => tide_time corr (clock TIME (snd x))) (fun x => H (proj (fst x))) pts N)) as E.
      destruct infer.
      - rewrite E. cbn [bind]. rewrite map_map, combine_map, map_map. reflexivity.
      - rewrite map_map, Hg. f_equal. apply map_ext. intros p. cbn [fst]. ring. }
    rewrite D. cbn [bind]. rewrite combine_map, map_map. reflexivity.
  Qed.
  Lemma values_station T X ps ts TIME : lower T = "time series"%string -> ts <> [] -> ps <> [] -> len X = List.length ps ->
    tide_values A B freq gam corr cs minor infer T X (map H (map proj ps)) (map (clock TIME) ts)
    = Ok (A2 (map (fun p => map (fun t => tide_one (clock TIME t) (proj p)) ts) ps)).
  Proof.
    intros L N NP LX. unfold tide_values. rewrite L. cbn [String.eqb Ascii.eqb Bool.eqb].
    rewrite hd_length by (apply map_nonempty, NP). cbv zeta. rewrite LX.
    rewrite (mapM_item _ (fun p => map (fun t => tide_one (clock TIME t) (proj p)) ts)); [reflexivity|].
    intros s p Hp. cbn [Nat.add]. rewrite !map_map. rewrite (item_nth _ _ _ (map_nth_error _ _ _ Hp)). cbn [bind].
    rewrite time_series_eq, Hknown. cbn [bind]. rewrite mapM_map.
    rewrite (mapM_ok _ (fun t => major (tide_time corr (clock TIME t)) (H (proj p)))) by (intros; apply point_major). cbn [bind].
    pose proof (minor_part _ _ _ (pairs_one_row (map (fun t => tide_time corr (clock TIME t)) ts) (H (proj p)) (map_nonempty _ _ N))) as E.
    rewrite !(map_map _ (fun tm => (tm, H (proj p)))), !(map_map _ (fun _ => (0, false))) in E. rewrite !(map_map _ (fun _ => (0, false))).
    rewrite E. cbn [bind]. rewrite map_map, add_masked_map, map_map. f_equal. apply map_ext. intros t.
    cbn [major fst snd]. rewrite g_mask. reflexivity.
  Qed.

  Lemma values_one (F : string -> coords -> coords -> list R -> res (out (option R * bool))) TIME :
    (forall T x y t, F T x y t = do q <- prepare proj clock (Some T) TIME x y t ;;
       let '(T', x', ll, sts) := q in tide_values A B freq gam corr cs minor infer T' x' (map H ll) sts) ->
    one_value_per_point in_any_case F (fun x y t => tide_one (clock TIME t) (proj (x, y))).
  Proof.
    intros HF. split; [|split; [split|]].
    - intros T pts L N. rewrite HF, prepare_drift by exact L. cbn [bind]. rewrite values_drift by assumption.
      do 2 f_equal. apply map_ext. intros [[x y] t]. reflexivity.
    - intros T pts ts L N NT. rewrite HF, prepare_series by exact L. cbn [bind].
      rewrite values_station; [|assumption..|cbn [len]; apply map_length]. do 2 f_equal. apply map_ext. intros [x y]. reflexivity.
    - intros T x y ts L N. rewrite HF, prepare_station by exact L. cbn [bind].
      exact (values_station T (C1 [x]) [(x, y)] ts TIME L N ltac:(discriminate) eq_refl).
    - intros T x y P ts L G N. rewrite HF. destruct (prepare_grid proj clock T TIME x y P ts L G) as (nx & X & -> & Q & F' & NP).
      cbn [bind]. rewrite (values_grid T (C2 X) nx P _ L Q F' NP). do 2 f_equal. apply map_ext. intros row. apply map_ext. intros [a b].
      rewrite map_map. reflexivity.
  Qed.
End Tides.

(** ** From one request to all requests *)
Section Model.
  Variable proj : R * R -> R * R.
  Variable clock : string -> R -> stamp.
  Variable A : tide_args.
  Variable B : minor_args.
  Variable freq : string -> R.
  Variable gam : R -> R.

  (** If the request for one point succeeds, so do the checks and the inference *)
  Lemma one_request corr cs minor infer (H : R * R -> list (cpx * bool)) p st v :
    (forall p, List.length (H p) = List.length cs) ->
    tide_values A B freq gam corr cs minor infer "drift" (C1 [fst p]) [H p] [st] = Ok v ->
    check_known A cs = Ok tt /\ exists g, if infer
      then (forall tm row, snd (g (tm, row)) = true -> existsb snd row = true) /\
           forall ts rows ps, pairs ts rows = Ok ps ->
             minor_values A B freq gam corr cs (List.length cs) rows ts minor = Ok (map g ps)
      else g = fun _ => (0, false).
  Proof.
    intros HL. unfold tide_values. change (lower "drift") with "drift"%string. cbn [String.eqb Ascii.eqb Bool.eqb].
    cbv zeta. cbn [hd map]. rewrite HL. unfold predict_drift.
    destruct (check_known A cs) as [[]|] eqn:K; cbn [bind]; [|discriminate].
    intros E. split; [reflexivity|].
    destruct (minor_outcome A B freq gam corr cs (List.length cs) minor) as (k & MK & RK).
    destruct infer; [|eexists; reflexivity].
    revert E. destruct (mapM _ _) as [TIDE|]; cbn [bind]; [|discriminate].
    unfold minor_values at 1. rewrite (RK [tide_time corr st] [H p] _ eq_refl).
    destruct k as [e| |g]; cbn [run bind]; try discriminate. intros _.
    exists g. split; [exact MK|]. intros ts rows ps HP. unfold minor_values. rewrite (RK _ _ _ HP). reflexivity.
  Qed.

  Lemma row_length m p : (forall p, List.length (tm_constants m p) = List.length (tm_names m)) ->
    List.length (map oscillation (tm_constants m p)) = List.length (tm_names m).
  Proof. intros H. rewrite map_length. apply H. Qed.
  Lemma osc_mask l : existsb snd (map oscillation l) = existsb snd l.
  Proof. induction l as [|a l IH]; [reflexivity|]. cbn. rewrite IH. reflexivity. Qed.
  Lemma osc_sum corr tm cs l : List.length l = List.length cs ->
    rsum (map (fun p => component (a_f A tm (fst p)) (theta A corr tm (fst p)) (fst (snd p))) (combine cs (map oscillation l)))
    = rsum (map (fun p => a_f A tm (fst p) * fst (fst (snd p)) * cos (argument A corr (fst tm) (snd tm) (fst p) - snd (fst (snd p)) * PI / 180)) (combine cs l)).
  Proof.
    revert l. induction cs as [|c cs IH]; intros [|[[a ph] m] l] HL; try discriminate; [reflexivity|].
    cbn [map combine rsum fst snd oscillation]. cbn in HL. rewrite IH by lia. f_equal.
    rewrite <- theta_argument. unfold component, cscale, cexp, cre, cim. cbn [fst snd].
    rewrite cos_minus. replace (- ph * PI / 180) with (- (ph * PI / 180)) by field. rewrite cos_neg, sin_neg. ring.
  Qed.
End Model.

(** A model gives one amplitude, phase and mask for each constituent at every
    location.  If the request for one point and time succeeds then every request
    does, in any spelling of the type keyword, and there is one value for each
    location and time: masked exactly where a constant is masked, otherwise,
    without inference, the sum of the cosines of the constituents at the time of
    the clock (with TT - UT1 for the models not of the OTIS family). *)
Definition harmonic_tide (A : tide_args) (m : tide_model) (corr : string) (st : stamp) (p : R * R) : R :=
  let dt := if in_dec string_dec corr ["OTIS"; "ATLAS"; "TMD3"; "netcdf"]%string then 0 else st_tt_ut1 st in
  rsum (map (fun q => a_f A (st_tide st, dt) (fst q) * fst (fst (snd q)) *
                      cos (argument A corr (st_tide st) dt (fst q) - snd (fst (snd q)) * PI / 180))
            (combine (tm_names m) (tm_constants m p))).
Definition corrections_of (CORRECTIONS : option string) (m : tide_model) : string :=
  match CORRECTIONS with Some s => if string_dec s "" then tm_corrections m else s | None => tm_corrections m end.

Lemma or_string_spec o m : or_string o (tm_corrections m) = corrections_of o m.
Proof. destruct o as [[|]|]; reflexivity. Qed.
Lemma harmonic_major A corr m st p : (forall p, List.length (tm_constants m p) = List.length (tm_names m)) ->
  fst (major A corr (tm_names m) (tide_time corr st) (map oscillation (tm_constants m p))) = harmonic_tide A m corr st p.
Proof.
  intros HL. unfold major, harmonic_tide. cbn [fst]. rewrite osc_sum by apply HL.
  assert (E : tide_time corr st = (st_tide st, if in_dec string_dec corr ["OTIS"; "ATLAS"; "TMD3"; "netcdf"]%string then 0 else st_tt_ut1 st)).
  { unfold tide_time. f_equal. destruct (mem_str corr _) eqn:Q; destruct (in_dec _ _ _) as [I|I]; try reflexivity.
    - apply mem_str_In in Q. contradiction.
    - apply mem_str_In in I. congruence. }
  rewrite E. reflexivity.
Qed.

Theorem C46_tide_elevations proj clock A B freq gam m METHOD TIME CORRECTIONS INFER_MINOR MINOR x0 y0 t0 v :
  (forall p, List.length (tm_constants m p) = List.length (tm_names m)) ->
  tide_elevations proj clock A B freq gam m true METHOD TIME CORRECTIONS INFER_MINOR MINOR (Some "drift"%string) (C1 [x0]) (C1 [y0]) [t0] = Ok v ->
  exists f,
    one_value_per_point in_any_case (fun T => tide_elevations proj clock A B freq gam m true METHOD TIME CORRECTIONS INFER_MINOR MINOR (Some T)) f /\
    (forall x y t, snd (f x y t) = existsb snd (tm_constants m (proj (x, y)))) /\
    (forall x y t, fst (f x y t) = None <-> snd (f x y t) = true) /\
    (INFER_MINOR = false -> forall x y t h, fst (f x y t) = Some h -> h = harmonic_tide A m (corrections_of CORRECTIONS m) (clock TIME t) (proj (x, y))).
Proof.
  intros HL HV. unfold tide_elevations in *. cbn [negb] in *.
  destruct (mem_str (lower TIME) time_names); cbn [check bind] in *; [|discriminate].
  destruct (mem_str (lower METHOD) method_names); cbn [check bind] in *; [|discriminate].
  pose proof (prepare_drift proj clock "drift" TIME [(x0, y0, t0)] eq_refl) as P. cbn [map fst snd] in P.
  rewrite P in HV. cbn [bind map fst snd] in HV.
  pose proof (fun p => row_length m p HL) as HR.
  destruct (one_request A B freq gam _ _ _ _ (fun p => map oscillation (tm_constants m p)) (proj (x0, y0)) _ _ HR HV) as (K & g & Hg).
  eexists. split; [|split; [|split]].
  - apply (values_one proj clock A B freq gam (or_string CORRECTIONS (tm_corrections m)) (tm_names m) (or_list MINOR (tm_minor m)) INFER_MINOR
      (fun p => map oscillation (tm_constants m p)) HR K g Hg). intros T x y t. reflexivity.
  - intros x y t. cbv beta. unfold tide_one, fill. cbn [snd]. apply osc_mask.
  - intros x y t. cbv beta. unfold tide_one, fill. cbn [fst snd]. destruct (existsb _ _); split; congruence.
  - intros -> x y t h. cbv beta. unfold tide_one, fill. cbn [fst snd]. destruct (existsb _ _); [discriminate|].
    intros E. injection E as <-. cbv beta iota in Hg. rewrite Hg. cbn [fst]. rewrite Rplus_0_r, or_string_spec. apply harmonic_major, HL.
Qed.
Print Assumptions C46_tide_elevations.

(** Currents: each component is the elevation request of its own model. *)
Theorem C46_tide_currents proj clock A B freq gam components exists_ METHOD TIME CORRECTIONS INFER_MINOR MINOR TYPE x y t :
  components <> [] ->
  tide_currents proj clock A B freq gam components exists_ METHOD TIME CORRECTIONS INFER_MINOR MINOR TYPE x y t
  = mapM (fun c => do v <- tide_elevations proj clock A B freq gam (snd c) exists_ METHOD TIME CORRECTIONS INFER_MINOR MINOR TYPE x y t ;;
                   Ok (fst c, v)) components.
Proof.
  intros N. unfold tide_currents, tide_elevations.
  destruct exists_; cbn [negb]; [|destruct components; [congruence|reflexivity]].
  destruct (check _); cbn [bind]; [|destruct components; [congruence|reflexivity]].
  destruct (check _); cbn [bind]; [|destruct components; [congruence|reflexivity]].
  destruct (prepare _ _ _ _ _ _ _) as [[[[T x'] ll] sts]|]; cbn [bind]; [|destruct components; [congruence|reflexivity]].
  reflexivity.
Qed.
Print Assumptions C46_tide_currents.

(** With the default INFER_MINOR=True a model with too few constituents makes
    every request fail: infer_minor returns the number 0.0, which has no mask. *)
Theorem C46_few_constituents_refuted proj clock A B freq gam m METHOD TIME CORRECTIONS MINOR x0 y0 t0 :
  (forall p, List.length (tm_constants m p) = List.length (tm_names m)) ->
  NoDup (map lower (tm_names m)) -> (forall c, In c (tm_names m) -> a_known A c = true) ->
  (n_present (tm_names m) ["q1"; "o1"; "p1"; "k1"; "n2"; "m2"; "s2"; "k2"; "2n2"]%string < 6)%nat ->
  (n_present (tm_names m) ["n2"; "m2"; "s2"]%string < 3)%nat ->
  (n_present (tm_names m) ["q1"; "o1"; "k1"]%string < 3)%nat ->
  (n_present (tm_names m) ["node"; "mm"; "mf"]%string < 3)%nat ->
  In (lower TIME) ["gps"; "loran"; "tai"; "utc"; "datetime"]%string -> In (lower METHOD) ["bilinear"; "spline"; "linear"; "nearest"]%string ->
  tide_elevations proj clock A B freq gam m true METHOD TIME CORRECTIONS true MINOR (Some "drift"%string) (C1 [x0]) (C1 [y0]) [t0] = Err AttributeError /\
  exists h, tide_elevations proj clock A B freq gam m true METHOD TIME CORRECTIONS false MINOR (Some "drift"%string) (C1 [x0]) (C1 [y0]) [t0] = Ok h.
Proof.
  intros HL ND KN H1 H2 H3 H4 HT HM. apply mem_str_In in HT, HM.
  change (mem_str (lower TIME) time_names = true) in HT. change (mem_str (lower METHOD) method_names = true) in HM.
  unfold tide_elevations. rewrite HT, HM. cbn [negb check bind].
  pose proof (prepare_drift proj clock "drift" TIME [(x0, y0, t0)] eq_refl) as P. cbn [map fst snd] in P. rewrite P. cbn [bind map].
  assert (K : check_known A (tm_names m) = Ok tt).
  { unfold check_known. replace (forallb (a_known A) (tm_names m)) with true; [reflexivity|]. symmetry. apply forallb_forall, KN. }
  unfold tide_values. change (lower "drift") with "drift"%string. cbn [String.eqb Ascii.eqb Bool.eqb]. cbv zeta. cbn [hd map].
  unfold predict_drift. rewrite K. cbn [bind mapM].
  rewrite point_sum by (rewrite map_length, HL; lia). cbn [bind]. split; [|eexists; reflexivity].
  unfold minor_values. rewrite map_length, HL.
  rewrite C09_no_majors_no_minor_tide by (assumption || lia || reflexivity). reflexivity.
Qed.
Print Assumptions C46_few_constituents_refuted.
Example C46_few_constituents_case :
  let m := TM (fun _ => [(1, 30, false); (1/2, 60, false)]) ["m2"; "s2"]%string "OTIS" None in
  (forall p, List.length (tm_constants m p) = List.length (tm_names m)) /\ NoDup (map lower (tm_names m)) /\
  (n_present (tm_names m) ["q1"; "o1"; "p1"; "k1"; "n2"; "m2"; "s2"; "k2"; "2n2"]%string < 6)%nat /\
  (n_present (tm_names m) ["n2"; "m2"; "s2"]%string < 3)%nat /\
  (n_present (tm_names m) ["q1"; "o1"; "k1"]%string < 3)%nat /\
  (n_present (tm_names m) ["node"; "mm"; "mf"]%string < 3)%nat.
Proof. cbv zeta. split; [reflexivity|]. split; [repeat constructor; cbn; intuition discriminate|]. vm_compute. repeat split; lia. Qed.

(** A request that succeeds: two constituents, no inference *)
Example C46_tide_case :
  let m := TM (fun _ => [(1, 30, false); (1/2, 60, false)]) ["m2"; "k1"]%string "OTIS" None in
  exists v, tide_elevations (fun p => p) (fun _ t => Stamp t 0 t) toy (Build_minor_args (fun _ _ => 0) (fun _ _ => 1) (fun _ _ => 0)) (fun _ => 0) (fun _ => 1)
    m true "spline" "UTC" None false None (Some "drift"%string) (C1 [10]) (C1 [20]) [0] = Ok v.
Proof.
  cbv zeta. unfold tide_elevations. cbn [negb].
  change (check (mem_str (lower "UTC") time_names)) with (Ok tt). change (check (mem_str (lower "spline") method_names)) with (Ok tt). cbn [bind].
  pose proof (prepare_drift (fun p => p) (fun _ t => Stamp t 0 t) "drift" "UTC" [(10, 20, 0)] eq_refl) as P. cbn [map fst snd] in P. rewrite P. cbn [bind map].
  unfold tide_values. change (lower "drift") with "drift"%string. cbn [String.eqb Ascii.eqb Bool.eqb]. cbv zeta. cbn [hd map].
  unfold predict_drift, check_known. cbn [tm_names forallb]. change (a_known toy "m2") with true. change (a_known toy "k1") with true. cbn [andb bind mapM].
  rewrite point_sum by (cbn; lia). cbn [bind]. eexists. reflexivity.
Qed.
