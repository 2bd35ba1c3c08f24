(** Lemmas for C78: the tide of a request from rows of constants. *)
From Coq Require Import String Reals Lra Lia List Bool ZArith Arith.
From Verif Require Import PyBase RBase StrBase PredictModel PredictSpec PredictProofs PredictProps InferModel InferProps
  ComputeModel ComputeSpec ComputeProofs ComputeProps ComputeProps3 ElevationModel ElevationSpec.
Import ListNotations.
Open Scope R_scope.
Open Scope list_scope.

Definition gone {X} (o : option X) : bool := match o with None => true | Some _ => false end.
Definition tide_stamp (corr : string) (st : stamp) : R * R :=
  (st_tide st, if in_dec string_dec corr ["OTIS"; "ATLAS"; "TMD3"; "netcdf"]%string then 0 else st_tt_ut1 st).
Lemma tide_stamp_eq corr st : tide_time corr st = tide_stamp corr st.
Proof.
  unfold tide_time, tide_stamp. f_equal. destruct (mem_str corr _) eqn:Q; destruct (in_dec _ _ _) as [I|I]; try reflexivity.
  - apply mem_str_In in Q. contradiction.
  - apply mem_str_In in I. congruence.
Qed.
(** the value for a row of constants *)
Definition predicted (A : tide_args) (corr : string) (names : list string) (st : stamp) (row : list (option (R * R))) : option R :=
  let tm := tide_stamp corr st in
  if existsb gone row then None
  else Some (rsum (map (fun q => a_f A tm (fst q) * fst (fst (snd q)) * cos (argument A corr (fst tm) (snd tm) (fst q) - snd (fst (snd q)) * PI / 180))
                       (combine names (map masked row)))).
Notation osc := (map (fun o => oscillation (masked o))) (only parsing).

Lemma masked_mask row : existsb snd (map masked row) = existsb gone row.
Proof. induction row as [|[[a p]|] row IH]; [reflexivity| |reflexivity]. cbn. exact IH. Qed.
Lemma osc_gone (row : list (option (R * R))) : existsb snd (osc row) = existsb gone row.
Proof. rewrite <- masked_mask, <- (osc_mask (map masked row)), map_map. reflexivity. Qed.

Lemma idx_INR n : Z.to_nat (up (INR n) - 1) = n.
Proof.
  rewrite <- (tech_up (INR n) (Z.of_nat n + 1)); [lia| |]; rewrite plus_IZR, <- INR_IZR_INZ; lra.
Qed.

Section Values.
  Variable clock : string -> R -> stamp.
  Variable A : tide_args.
  Variable B : minor_args.
  Variable freq : string -> R.
  Variable gam : R -> R.
  Variable corr : string.
  Variable names : list string.
  Variable minor : option (list string).
  Hypothesis Hk : forall c, In c names -> a_known A c = true.
  Lemma known_ok : check_known A names = Ok tt.
  Proof. unfold check_known. replace (forallb (a_known A) names) with true; [reflexivity|]. symmetry. apply forallb_forall, Hk. Qed.

  Section Rows.
    Variable rows : list (list (option (R * R))).
    Hypothesis Hr : forall row, In row rows -> List.length row = List.length names.
    Definition row_at (p : R * R) : list (option (R * R)) := nth (Z.to_nat (up (fst p) - 1)) rows (map (fun _ => None) names).
    Definition H (p : R * R) := osc (row_at p).
    Lemma row_len p : List.length (row_at p) = List.length names.
    Proof. unfold row_at. destruct (nth_in_or_default (Z.to_nat (up (fst p) - 1)) rows (map (fun _ => None) names)) as [I| ->]; [auto|apply map_length]. Qed.
    Lemma H_len p : List.length (H p) = List.length names.
    Proof. unfold H. rewrite map_length. apply row_len. Qed.
    Definition place (k : nat) : R * R := (INR k, 0).
    Lemma row_place k : row_at (place k) = nth k rows (map (fun _ => None) names).
    Proof. unfold row_at, place. cbn [fst]. now rewrite idx_INR. Qed.
    Lemma rows_place : map (fun k => row_at (place k)) (seq 0 (List.length rows)) = rows.
    Proof.
      transitivity (map (fun r : list (option (R * R)) => r) rows); [|apply map_id].
      rewrite <- (map_seq_nth (fun r : list (option (R * R)) => r) rows (map (fun _ => None) names)).
      apply map_ext. intros k. apply row_place.
    Qed.
    Lemma one st p : tide_one A corr names H (fun _ => (0, false)) st p = flagged (predicted A corr names st (row_at p)).
    Proof.
      unfold tide_one, fill, flagged, predicted. cbn [fst snd]. rewrite Rplus_0_r, tide_stamp_eq. unfold H at 1. rewrite osc_gone.
      destruct (existsb gone (row_at p)) eqn:E; [f_equal; unfold H; rewrite osc_gone; exact E|].
      f_equal; [|unfold H; rewrite osc_gone; exact E]. f_equal. unfold H, major. cbn [fst].
      rewrite <- (map_map masked oscillation). rewrite osc_sum by (rewrite map_length; apply row_len). reflexivity.
    Qed.

    Lemma rows_drift T X TIME ts : lower T = "drift"%string -> rows <> [] -> List.length rows = List.length ts ->
      tide_values A B freq gam corr names minor false T X (map (fun r => osc r) rows) (map (clock TIME) ts)
      = Ok (A1 (map (fun q => flagged (predicted A corr names (clock TIME (fst q)) (snd q))) (combine ts rows))).
    Proof.
      intros L N E.
      pose proof (values_drift (fun p => p) clock A B freq gam corr names minor false H H_len known_ok (fun _ => (0, false)) eq_refl T X
        (map (fun k => (place k, nth k ts 0)) (seq 0 (List.length rows))) TIME L) as V.
      rewrite !map_map in V. cbn [fst snd] in V. unfold H in V at 1.
      assert (E1 : map (fun x : nat => osc (row_at (place x))) (seq 0 (List.length rows)) = map (fun r => osc r) rows).
      { rewrite <- (map_map (fun k => row_at (place k)) (fun r => osc r)). now rewrite rows_place. }
      assert (E2 : map (fun x : nat => clock TIME (nth x ts 0)) (seq 0 (List.length rows)) = map (clock TIME) ts).
      { rewrite E. apply (map_seq_nth (clock TIME) ts 0). }
      rewrite E1, E2 in V. rewrite V by (destruct rows; [congruence|discriminate]). do 2 f_equal.
      transitivity (map (fun k => flagged (predicted A corr names (clock TIME (nth k ts 0)) (row_at (place k)))) (seq 0 (List.length rows))).
      { apply map_ext. intros k. apply one. }
      transitivity (map (fun q => flagged (predicted A corr names (clock TIME (fst q)) (snd q))) (map (fun k => (nth k ts 0, row_at (place k))) (seq 0 (List.length rows)))).
      { now rewrite map_map. }
      f_equal. transitivity (combine (map (fun k => nth k ts 0) (seq 0 (List.length rows))) (map (fun k => row_at (place k)) (seq 0 (List.length rows)))).
      { rewrite combine_map. reflexivity. }
      rewrite rows_place, E, (map_seq_nth (fun t : R => t) ts 0), map_id. reflexivity.
    Qed.
    Lemma rows_series T X TIME ts : lower T = "time series"%string -> rows <> [] -> ts <> [] -> len X = List.length rows ->
      tide_values A B freq gam corr names minor false T X (map (fun r => osc r) rows) (map (clock TIME) ts)
      = Ok (A2 (map (fun row => map (fun t => flagged (predicted A corr names (clock TIME t) row)) ts) rows)).
    Proof.
      intros L N NT E.
      pose proof (values_station (fun p => p) clock A B freq gam corr names minor false H H_len known_ok (fun _ => (0, false)) eq_refl T X
        (map place (seq 0 (List.length rows))) ts TIME L NT) as V.
      rewrite !map_map in V. unfold H in V at 1.
      assert (E1 : map (fun x : nat => osc (row_at (place x))) (seq 0 (List.length rows)) = map (fun r => osc r) rows).
      { rewrite <- (map_map (fun k => row_at (place k)) (fun r => osc r)). now rewrite rows_place. }
      rewrite E1 in V. rewrite V; [|destruct rows; [congruence|discriminate]|rewrite map_length, seq_length; exact E]. do 2 f_equal.
      rewrite <- rows_place at 2. rewrite map_map. apply map_ext. intros k. apply map_ext. intros t. apply one.
    Qed.
  End Rows.

  Lemma rows_grid T X TIME ts nx (L : list (list (list (option (R * R))))) : lower T = "grid"%string ->
    (forall r row, In r L -> In row r -> List.length row = List.length names) ->
    shape2 X = Ok (List.length L, nx) -> Forall (fun r => List.length r = nx) L -> concat L <> [] ->
    tide_values A B freq gam corr names minor false T X (map (fun r => osc r) (concat L)) (map (clock TIME) ts)
    = Ok (A3 (map (map (fun row => map (fun t => flagged (predicted A corr names (clock TIME t) row)) ts)) L)).
  Proof.
    intros LT Hr Q F N.
    assert (Hr' : forall row, In row (concat L) -> List.length row = List.length names).
    { intros row I. apply in_concat in I as (r & I1 & I2). eauto. }
    set (rows := concat L) in *. set (P := chunks (List.length L) nx (map place (seq 0 (List.length rows)))).
    assert (LL : List.length rows = (List.length L * nx)%nat) by (unfold rows; apply concat_length; exact F).
    assert (PH : map (map (row_at rows)) P = L).
    { unfold P. rewrite <- chunks_map, map_map, rows_place. unfold rows. apply chunks_concat, F. }
    assert (PL : List.length P = List.length L) by (rewrite <- PH, map_length; reflexivity).
    assert (PF : Forall (fun r => List.length r = nx) P).
    { apply Forall_forall. intros r I. rewrite Forall_forall in F. rewrite <- (map_length (row_at rows) r). apply F. rewrite <- PH. now apply in_map. }
    assert (PC : map (row_at rows) (concat P) = rows) by (rewrite <- concat_map; rewrite PH; reflexivity).
    pose proof (values_grid (fun p => p) A B freq gam corr names minor false (H rows) (H_len rows Hr') known_ok (fun _ => (0, false)) eq_refl T X nx P (map (clock TIME) ts) LT) as V.
    rewrite PL in V. rewrite map_id in V. unfold H in V at 1. rewrite <- (map_map (row_at rows) (fun r => osc r)), PC in V.
    rewrite V; [|exact Q|exact PF|intros E; rewrite E in PC; cbn in PC; congruence].
    do 2 f_equal. rewrite <- PH at 1. rewrite map_map. apply map_ext. intros r. rewrite map_map. apply map_ext. intros p. rewrite map_map.
    apply map_ext. intros t. apply one, Hr'.
  Qed.
End Values.
