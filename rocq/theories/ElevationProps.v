(** C78: what tide_elevations returns for the constants extracted at its points. *)
From Coq Require Import String Reals Lra Lia List Bool ZArith Arith.
From Verif Require Import PyBase RBase StrBase PredictModel PredictSpec PredictProofs PredictProps InferModel
  ComputeModel ComputeSpec ComputeProofs ComputeProps3 ElevationModel ElevationSpec ElevationProofs.
Import ListNotations.
Open Scope R_scope.
Open Scope list_scope.

(** the corrections used: those asked for, or those of the model *)
Definition corrected (CORRECTIONS : option string) (m : batch_model) : string :=
  match CORRECTIONS with Some s => if string_dec s "" then bm_corrections m else s | None => bm_corrections m end.
(** TT - UT1 with which the tide is predicted: none for the OTIS family *)
Definition delta (corr : string) (st : stamp) : R :=
  if in_dec string_dec corr ["OTIS"; "ATLAS"; "TMD3"; "netcdf"]%string then 0 else st_tt_ut1 st.

Lemma predicted_cosines A corr names st row : List.length row = List.length names ->
  predicted A corr names st row = cosines (a_f A (st_tide st, delta corr st)) (argument A corr (st_tide st) (delta corr st)) names row.
Proof.
  unfold predicted. cbv zeta. change (tide_stamp corr st) with (st_tide st, delta corr st). cbn [fst snd].
  revert row. induction names as [|c names IH]; intros [|[[a p]|] row] E; try discriminate; [reflexivity| |reflexivity].
  cbn [existsb gone orb map masked combine fst snd rsum cosines]. cbn in E. rewrite <- IH by lia. destruct (existsb gone row); reflexivity.
Qed.

Section Requests.
  Variable proj : R * R -> R * R.
  Variable clock : string -> R -> stamp.
  Variable A : tide_args.
  Variable B : minor_args.
  Variable freq : string -> R.
  Variable gam : R -> R.
  Variable m : batch_model.
  Variables METHOD TIME : string.
  Variable CORRECTIONS : option string.
  Variable MINOR : option (list string).
  Hypothesis HT : In (lower TIME) time_names.
  Hypothesis HM : In (lower METHOD) method_names.
  Hypothesis Hk : forall c, In c (bm_names m) -> a_known A c = true.
  Notation run := (elevations proj clock A B freq gam m true METHOD TIME CORRECTIONS false MINOR) (only parsing).
  Notation value := (fun t row => flagged (predicted A (corrected CORRECTIONS m) (bm_names m) (clock TIME t) row)) (only parsing).

  Lemma enters T x y ts T' x' ll sts : prepare proj clock (Some T) TIME x y ts = Ok (T', x', ll, sts) ->
    run (Some T) x y ts = do rows <- bm_extract m METHOD ll ;;
      tide_values A B freq gam (corrected CORRECTIONS m) (bm_names m) (or_list MINOR (bm_minor m)) false T' x' (map (fun r => map (fun o => oscillation (masked o)) r) rows) sts.
  Proof.
    intros E. unfold elevations. cbn [negb]. rewrite (proj2 (mem_str_In _ _) HT), (proj2 (mem_str_In _ _) HM). cbn [check bind]. rewrite E. cbn [bind].
    replace (or_string CORRECTIONS (bm_corrections m)) with (corrected CORRECTIONS m) by (destruct CORRECTIONS as [[|]|]; reflexivity). reflexivity.
  Qed.

  Variable pts : list (R * R).
  Variable rows : list (list (option (R * R))).
  Hypothesis Np : pts <> [].
  Hypothesis Er : bm_extract m METHOD (map proj pts) = Ok rows.
  Hypothesis Lr : List.length rows = List.length pts.
  Hypothesis Hr : forall row, In row rows -> List.length row = List.length (bm_names m).
  Lemma rows_some : rows <> [].
  Proof. destruct rows; [|discriminate]. destruct pts; [congruence|discriminate Lr]. Qed.

  Lemma run_drift T ts : lower T = "drift"%string -> List.length pts = List.length ts ->
    run (Some T) (C1 (map fst pts)) (C1 (map snd pts)) ts = Ok (A1 (map (fun q => value (fst q) (snd q)) (combine ts rows))).
  Proof.
    intros L E. pose proof (prepare_drift proj clock T TIME (combine pts ts) L) as P.
    assert (E1 : map fst (combine pts ts) = pts).
    { clear - E. revert ts E. induction pts as [|p l IH]; intros [|t ts] E; try discriminate; [reflexivity|]. cbn. f_equal. apply IH. now injection E. }
    assert (E2 : map snd (combine pts ts) = ts).
    { clear - E. revert ts E. induction pts as [|p l IH]; intros [|t ts] E; try discriminate; [reflexivity|]. cbn. f_equal. apply IH. now injection E. }
    rewrite <- (map_map fst fst), <- (map_map fst snd), <- (map_map fst proj), <- (map_map snd (clock TIME)), E1, E2 in P.
    rewrite (enters _ _ _ _ _ _ _ _ P), Er. cbn [bind].
    rewrite (rows_drift clock A B freq gam (corrected CORRECTIONS m) (bm_names m) (or_list MINOR (bm_minor m)) Hk rows Hr T); [reflexivity|exact L|exact rows_some|congruence].
  Qed.
  Lemma run_series T ts : lower T = "time series"%string -> ts <> [] ->
    run (Some T) (C1 (map fst pts)) (C1 (map snd pts)) ts = Ok (A2 (map (fun row => map (fun t => value t row) ts) rows)).
  Proof.
    intros L N. rewrite (enters _ _ _ _ _ _ _ _ (prepare_series proj clock T TIME pts ts L)), Er. cbn [bind].
    rewrite (rows_series clock A B freq gam (corrected CORRECTIONS m) (bm_names m) (or_list MINOR (bm_minor m)) Hk rows Hr T);
      [reflexivity|exact L|exact rows_some|exact N|cbn [len]; rewrite map_length; congruence].
  Qed.
  Lemma run_grid T x y P ts : lower T = "grid"%string -> grid_of x y P -> pts = concat P ->
    exists L, run (Some T) x y ts = Ok (A3 (map (map (fun row => map (fun t => value t row) ts)) L)) /\ concat L = rows /\ map (@List.length _) L = map (@List.length _) P.
  Proof.
    intros L G E. destruct (prepare_grid proj clock T TIME x y P ts L G) as (nx & X & EP & Q & F & NP).
    exists (chunks (List.length P) nx rows).
    assert (LP : List.length rows = (List.length P * nx)%nat) by (rewrite Lr, E; now apply concat_length).
    assert (K : forall (ny : nat) (l : list (list (option (R * R)))), List.length l = (ny * nx)%nat ->
      concat (chunks ny nx l) = l /\ List.length (chunks ny nx l) = ny /\ Forall (fun r => List.length r = nx) (chunks ny nx l)).
    { induction ny as [|ny IH]; intros l El; [destruct l; [repeat split; constructor|discriminate]|]. cbn [chunks concat List.length].
      destruct (IH (skipn nx l)) as (I1 & I2 & I3); [rewrite skipn_length; lia|]. rewrite I1, I2. split; [apply firstn_skipn|]. split; [reflexivity|].
      constructor; [|exact I3]. rewrite firstn_length. lia. }
    destruct (K _ _ LP) as (K1 & K2 & K3). split; [|split; [exact K1|]].
    2:{ clear - K2 K3 F. revert K2 K3. generalize (chunks (List.length P) nx rows). induction F as [|r P Hn F IH]; intros [|c l] K2 K3; try discriminate; [reflexivity|].
        inversion K3; subst. cbn. f_equal; [congruence|]. apply IH; [now injection K2|assumption]. }
    rewrite (enters _ _ _ _ _ _ _ _ EP), <- E, Er. cbn [bind]. rewrite <- K1 at 1. rewrite <- K2 in Q.
    rewrite (rows_grid clock A B freq gam (corrected CORRECTIONS m) (bm_names m) (or_list MINOR (bm_minor m)) Hk T (C2 X) TIME ts nx _ L); [reflexivity| |exact Q|exact K3|rewrite K1; exact rows_some].
    intros r row I1 I2. apply Hr. rewrite <- K1. apply in_concat. eauto.
  Qed.
End Requests.

Lemma pos_of {X} (l : list X) n : (n < List.length l)%nat -> exists a, nth_error l n = Some a.
Proof. intros H. destruct (nth_error l n) eqn:E; [eauto|]. apply nth_error_None in E. lia. Qed.

(** For any type of request: if the constants of the points can be extracted, there is
    one value for every point and time with which it is paired, and it is the sum of
    the cosines of the constants extracted at that point; masked where one is missing *)
Theorem C78_request : forall proj clock A B freq gam m METHOD TIME CORRECTIONS MINOR T x y ts pts rows,
  In (lower TIME) time_names -> In (lower METHOD) method_names -> (forall c, In c (bm_names m) -> a_known A c = true) ->
  asks T x y ts pts -> pts <> [] -> ts <> [] ->
  bm_extract m METHOD (map proj pts) = Ok rows -> List.length rows = List.length pts ->
  (forall row, In row rows -> List.length row = List.length (bm_names m)) ->
  exists v, elevations proj clock A B freq gam m true METHOD TIME CORRECTIONS false MINOR (Some T) x y ts = Ok v /\
    arranged T x y ts pts v /\
    (forall n t, (n < List.length pts)%nat -> paired T ts n t -> exists w, shows T x y ts v pts n t w) /\
    forall n t w row, shows T x y ts v pts n t w -> nth_error rows n = Some row ->
      let st := clock TIME t in let corr := corrected CORRECTIONS m in
      w = flagged (cosines (a_f A (st_tide st, delta corr st)) (argument A corr (st_tide st) (delta corr st)) (bm_names m) row).
Proof.
  intros proj clock A B freq gam m METHOD TIME CORRECTIONS MINOR T x y ts pts rows HT HM Hk HA Np Nt Er Lr Hr.
  assert (V : forall v n t w row, elevations proj clock A B freq gam m true METHOD TIME CORRECTIONS false MINOR (Some T) x y ts = Ok v ->
    shows T x y ts v pts n t w -> nth_error rows n = Some row ->
    w = flagged (cosines (a_f A (st_tide (clock TIME t), delta (corrected CORRECTIONS m) (clock TIME t)))
      (argument A (corrected CORRECTIONS m) (st_tide (clock TIME t)) (delta (corrected CORRECTIONS m) (clock TIME t))) (bm_names m) row)).
  { intros v n t w row Ev Sh Hn. rewrite <- predicted_cosines by (apply Hr; eapply nth_error_In; eauto).
    destruct Sh as [vs L -> -> E -> Et Ew|rs r k L -> -> -> Eb Et Ew|P rs r k L G E -> Eb Et Ew].
    - rewrite (run_drift proj clock A B freq gam m METHOD TIME CORRECTIONS MINOR HT HM Hk pts rows Np Er Lr Hr T ts L E) in Ev. injection Ev as <-.
      rewrite nth_error_map in Ew. destruct (nth_error (combine ts rows) n) as [[t' row']|] eqn:Ec; [|discriminate]. cbn in Ew. injection Ew as <-.
      assert (t' = t /\ row' = row) as [-> ->]; [|reflexivity].
      clear - Ec Et Hn. revert rows n Ec Et Hn. induction ts as [|a ts IH]; intros [|b rows] [|n] Ec Et Hn; try discriminate; cbn in *; [split; congruence|eauto].
    - rewrite (run_series proj clock A B freq gam m METHOD TIME CORRECTIONS MINOR HT HM Hk pts rows Np Er Lr Hr T ts L Nt) in Ev. injection Ev as <-.
      rewrite nth_error_map, Hn in Eb. cbn in Eb. injection Eb as <-. rewrite nth_error_map, Et in Ew. cbn in Ew. now injection Ew.
    - destruct (run_grid proj clock A B freq gam m METHOD TIME CORRECTIONS MINOR HT HM Hk pts rows Np Er Lr Hr T x y P ts L G E) as (l & El & Ec & Em).
      rewrite El in Ev. injection Ev as <-. rewrite concat_map, Ec, nth_error_map, Hn in Eb. cbn in Eb. injection Eb as <-. rewrite nth_error_map, Et in Ew. cbn in Ew. now injection Ew. }
  assert (X : exists v, elevations proj clock A B freq gam m true METHOD TIME CORRECTIONS false MINOR (Some T) x y ts = Ok v /\ arranged T x y ts pts v /\
    forall n t, (n < List.length pts)%nat -> paired T ts n t -> exists w, shows T x y ts v pts n t w).
  { destruct HA as [L -> -> E|L -> ->|P L G E].
    - eexists. split; [apply (run_drift proj clock A B freq gam m METHOD TIME CORRECTIONS MINOR HT HM Hk pts rows Np Er Lr Hr T ts L E)|]. split.
      { eapply arranged_drift; [exact L|reflexivity|]. rewrite map_length, combine_length. lia. }
      intros n t Hn Ht. unfold paired in Ht. rewrite L in Ht. cbn in Ht.
      match goal with |- exists w, shows _ _ _ _ (A1 ?l) _ _ _ _ => destruct (pos_of l n) as [w Hw]; [rewrite map_length, combine_length; lia|] end.
      exists w. eapply shows_drift; eauto.
    - eexists. split; [apply (run_series proj clock A B freq gam m METHOD TIME CORRECTIONS MINOR HT HM Hk pts rows Np Er Lr Hr T ts L Nt)|]. split.
      { eapply arranged_series; [exact L|reflexivity|rewrite map_length; lia|]. intros row I. apply in_map_iff in I as (r & <- & _). apply map_length. }
      intros n t Hn Ht. unfold paired in Ht. rewrite L in Ht. cbn in Ht. apply In_nth_error in Ht as [k Ht]. destruct (pos_of rows n) as [row Hrow]; [lia|].
      eexists. eapply shows_series; [exact L|reflexivity|reflexivity|reflexivity|rewrite nth_error_map, Hrow; reflexivity|exact Ht|rewrite nth_error_map, Ht; reflexivity].
    - destruct (run_grid proj clock A B freq gam m METHOD TIME CORRECTIONS MINOR HT HM Hk pts rows Np Er Lr Hr T x y P ts L G E) as (l & El & Ec & Em).
      eexists. split; [exact El|]. split.
      { eapply arranged_grid; [exact L|exact G|exact E|reflexivity|rewrite map_map; etransitivity; [|exact Em]; apply map_ext; intros r; apply map_length|].
        intros r row I1 I2. apply in_map_iff in I1 as (r0 & <- & _). apply in_map_iff in I2 as (row0 & <- & _). apply map_length. }
      intros n t Hn Ht. unfold paired in Ht. rewrite L in Ht. cbn in Ht. apply In_nth_error in Ht as [k Ht]. destruct (pos_of rows n) as [row Hrow]; [lia|].
      eexists. eapply shows_grid; [exact L|exact G|exact E|reflexivity|rewrite concat_map, Ec, nth_error_map, Hrow; reflexivity|exact Ht|rewrite nth_error_map, Ht; reflexivity]. }
  destruct X as (v & Ev & Ha & Hs). exists v. split; [exact Ev|]. split; [exact Ha|]. split; [exact Hs|]. intros n t w row Sh Hn. cbv zeta. eapply V; eauto.
Qed.
Print Assumptions C78_request.

(** If they cannot be extracted the request fails the same way *)
Theorem C78_refused : forall proj clock A B freq gam m METHOD TIME CORRECTIONS INFER MINOR T x y ts pts e,
  In (lower TIME) time_names -> In (lower METHOD) method_names -> asks T x y ts pts -> bm_extract m METHOD (map proj pts) = Err e ->
  elevations proj clock A B freq gam m true METHOD TIME CORRECTIONS INFER MINOR (Some T) x y ts = Err e.
Proof.
  intros proj clock A B freq gam m METHOD TIME CORRECTIONS INFER MINOR T x y ts pts e HT HM HA Er.
  unfold elevations. cbn [negb]. rewrite (proj2 (mem_str_In _ _) HT), (proj2 (mem_str_In _ _) HM). cbn [check bind].
  assert (Q : exists T' x' sts, prepare proj clock (Some T) TIME x y ts = Ok (T', x', map proj pts, sts)).
  { destruct HA as [L -> -> E|L -> ->|P L G ->].
    - pose proof (prepare_drift proj clock T TIME (combine pts ts) L) as P.
      assert (E1 : map fst (combine pts ts) = pts).
      { clear - E. revert ts E. induction pts as [|p l IH]; intros [|t ts] E; try discriminate; [reflexivity|]. cbn. f_equal. apply IH. now injection E. }
      assert (E2 : map snd (combine pts ts) = ts).
      { clear - E. revert ts E. induction pts as [|p l IH]; intros [|t ts] E; try discriminate; [reflexivity|]. cbn. f_equal. apply IH. now injection E. }
      rewrite <- (map_map fst fst), <- (map_map fst snd), <- (map_map fst proj), <- (map_map snd (clock TIME)), E1, E2 in P. eauto.
    - pose proof (prepare_series proj clock T TIME pts ts L). eauto.
    - destruct (prepare_grid proj clock T TIME x y P ts L G) as (nx & X & EP & _). eauto. }
  destruct Q as (T' & x' & sts & ->). cbn [bind]. rewrite Er. reflexivity.
Qed.
Print Assumptions C78_refused.
