(** C69: cases meeting the hypotheses of the theorems. *)
From Coq Require Import Reals List Bool Arith ZArith Lra Lia.
From Verif Require Import PyBase RBase MathModel GeoModel ConvertProps GridModel InterpModel InterpProps ExtractModel ExtractSpec NodeProps ExtractProofs ExtractProps SplineProps ReturnProps MergeSpec MergeProps SeriesModel SeriesSpec SeriesProofs SeriesProps SeriesProps2 SeriesProps3.
Import ListNotations.
Open Scope R_scope.

(** four columns around the globe and three rows; one value is masked *)
Definition quarter : sheet :=
  Sheet [0; 90; 180; 270] [0; 10; 20]
    [[(Some (2, 4), false); (Some (4, 4), false); (Some (9, 9), false); (Some (1, 1), false)];
     [(Some (2, 4), false); (Some (4, 4), false); (Some (7, 7), true); (Some (5, 0), false)];
     [(Some (3, 4), false); (Some (0, 2), false); (Some (1, 0), false); (Some (8, 8), false)]].
(** three columns of a mixed convention *)
Definition strip : sheet :=
  Sheet [-10; 90; 190] [0; 10] [[(Some (1, 0), false); (Some (2, 0), false); (Some (3, 0), false)]; [(Some (4, 0), false); (Some (5, 0), false); (Some (6, 0), false)]].

Lemma quarter_grid : sheet_grid true 0 90 4 0 10 3 quarter.
Proof.
  unfold sheet_grid, evenly. cbn [slon slat shc quarter length INR].
  repeat split; try lra; try lia; try (intros i Hi; do 4 (destruct i as [|i]; [cbn; lra|]); cbn in Hi; lia).
  - intros i Hi. do 3 (destruct i as [|i]; [cbn; lra|]). lia.
  - intros r Hr. repeat (destruct Hr as [<-|Hr]; [reflexivity|]). destruct Hr.
Qed.
Lemma quarter_frame : framed Eastern (slon quarter).
Proof. split; [exists 270; split; [cbn; tauto|lra]|]. intros a H. cbn in H. repeat (destruct H as [<-|H]; [lra|]). destruct H. Qed.
Lemma quarter_numbers : numbers 3 4 quarter.
Proof. intros j i Hj Hi. do 3 (destruct j as [|j]; [do 4 (destruct i as [|i]; [cbn; discriminate|]); lia|]). lia. Qed.
Lemma quarter_files : forall s, In s [quarter] -> framed Eastern (slon s).
Proof. intros s [<-|[]]. apply quarter_frame. Qed.
Lemma one_point x y : -360 <= x <= 540 -> forall q : R * R, In q [(x, y)] -> -360 <= fst q <= 540.
Proof. intros H q [<-|[]]. exact H. Qed.

Lemma not_close a b : 1 <= Rabs (a - b) -> Rabs b <= 1000 -> ~ ExtractSpec.close a b.
Proof. unfold ExtractSpec.close. intros. lra. Qed.
Lemma abs_ge a b : b <= a \/ b <= - a -> b <= Rabs a.
Proof. intros. unfold Rabs. destruct (Rcase_abs a); lra. Qed.
Lemma abs_le a b : - b <= a <= b -> Rabs a <= b.
Proof. intros. unfold Rabs. destruct (Rcase_abs a); lra. Qed.

Lemma mean4 w1 w2 w3 w4 a b c d o1 o2 o3 o4 v : w1 = 225 -> w2 = 225 -> w3 = 225 -> w4 = 225 -> o1 = Some a -> o2 = Some b -> o3 = Some c -> o4 = Some d -> v = (a + b + c + d) / 4 ->
  mean [(w1, o1); (w2, o2); (w3, o3); (w4, o4)] = Some v.
Proof. intros -> -> -> -> -> -> -> -> ->. unfold mean, weight, total. cbn [map fst snd fold_right]. destruct (Req_EM_T _ 0); [exfalso; lra|]. f_equal. field. Qed.
(** in the middle of a cell: the mean of the four constants is 3 + 4 i *)
Example C69_cell_case : exists p, extract_series FES Bilinear 100 [quarter] [(-315, 5)] = Ok [[Some (500, p)]].
Proof.
  destruct (C69_returns FES Bilinear 100 Eastern [quarter] [(-315, 5)]) as (out & Ho & Lo).
  - discriminate.
  - apply one_point. lra.
  - intros s [<-|[]]. split; [apply quarter_frame|]. exists true, 0, 90, 4%nat, 0, 10, 3%nat. split; [apply quarter_grid|]. intros _ p [<-|[]]. cbn. unfold eastward. destruct (Rlt_dec (-315) 0); lra.
  - assert (Ex : placed Eastern (fst (-315, 5)) = 45) by (cbn; unfold eastward; destruct (Rlt_dec (-315) 0); lra).
    destruct (C69_cell FES 100 Eastern [quarter] [(-315, 5)] out 0 quarter 0 (-315, 5) true 0 90 4 0 10 3 45 5 0%Z 0%nat) as (cs & r & O1 & O2 & O3 & O4); auto.
    + apply quarter_files.
    + apply one_point. lra.
    + apply quarter_grid.
    + cbn. lia.
    + cbn. lia.
    + unfold between_nodes, node_x, node_y. cbn [INR Z.add]. repeat split; lra.
    + intros [[K|K] _]; revert K; apply not_close; unfold node_x; cbn [Z.add]; [apply abs_ge|apply abs_le|apply abs_ge|apply abs_le]; lra.
    + destruct out as [|c [|]]; try discriminate. cbn in O1. injection O1 as ->. destruct cs as [|c [|]]; try discriminate. cbn in O3. injection O3 as ->. rewrite Ho.
      cbn [corners part map fst snd column Z.modulo Z.add] in O4.
      match type of O4 with scaled _ (both (mean ?l1) (mean ?l2)) _ => assert (E1 : mean l1 = Some 3); [|assert (E2 : mean l2 = Some 4)] end.
      * eapply mean4; try (unfold node_x, node_y; cbn [INR]; lra); try reflexivity. cbn [fst snd]. lra.
      * eapply mean4; try (unfold node_x, node_y; cbn [INR]; lra); try reflexivity. cbn [fst snd]. lra.
      * rewrite E1, E2 in O4. cbn [both scaled] in O4. destruct O4 as (a & p & (A1 & A2 & A3 & A4) & ->). cbn [fst snd] in A3, A4. exists p. repeat f_equal.
        assert (a * a = 25). { pose proof (sin2_cos2 (p * PI / 180)) as Q. unfold Rsqr in Q. set (C := cos _) in *. set (Sn := sin _) in *. assert (a * a * (Sn * Sn + C * C) = 25) by (replace (a * a * (Sn * Sn + C * C)) with ((a * C) * (a * C) + (a * Sn) * (a * Sn)) by ring; replace (a * Sn) with (-4) by lra; rewrite <- A3; lra). nra. }
        assert (a = 5) by nra. lra.
Qed.

(** at a node: its constant; here the next one is masked *)
Example C69_node_case : exists p, extract_series GOT Bilinear 1 [quarter] [(270, 10)] = Ok [[Some (5, p)]] /\ extract_series GOT Bilinear 1 [quarter] [(180, 10)] = Ok [[None]].
Proof.
  assert (Go : forall x, x = 270 \/ x = 180 -> exists r, extract_series GOT Bilinear 1 [quarter] [(x, 10)] = Ok [[r]] /\
     scaled 1 (valid (entry (None, true) (shc quarter) 1 (column 4 (if Req_EM_T x 270 then 3 else 2)))) r).
  { intros x Hx'. destruct (C69_returns GOT Bilinear 1 Eastern [quarter] [(x, 10)]) as (out & Ho & Lo).
    - discriminate.
    - apply one_point. lra.
    - intros s [<-|[]]. split; [apply quarter_frame|]. exists true, 0, 90, 4%nat, 0, 10, 3%nat. split; [apply quarter_grid|]. intros _ p [<-|[]]. cbn. unfold eastward. destruct (Rlt_dec x 0); lra.
    - assert (Ex : placed Eastern (fst (x, 10)) = x) by (cbn; unfold eastward; destruct (Rlt_dec x 0); lra).
      set (i := (if Req_EM_T x 270 then 3 else 2)%Z). assert (Ei : node_x Heights 0 90 i = x) by (unfold i, node_x; destruct (Req_EM_T x 270); lra).
      assert (Ei1 : node_x Heights 0 90 (i + 1) = x + 90) by (unfold i, node_x in *; destruct (Req_EM_T x 270); cbn [Z.add Pos.add Pos.succ]; lra).
      destruct (C69_node GOT 1 Eastern [quarter] [(x, 10)] out 0 quarter 0 (x, 10) true 0 90 4 0 10 3 x 10 i 1%nat) as (a & b & cs & r & _ & _ & _ & _ & Eab & O1 & O2 & O3 & O4); auto.
      + apply quarter_files.
      + apply one_point. lra.
      + apply quarter_grid.
      + unfold i. destruct (Req_EM_T x 270); cbn; lia.
      + unfold i. destruct (Req_EM_T x 270); cbn; lia.
      + unfold between_nodes. rewrite Ei, Ei1. unfold node_y. cbn [INR]. repeat split; lra.
      + unfold at_node. rewrite Ei. split; left; [|unfold node_y; cbn [INR]; replace (0 + 1 * 10) with 10 by ring]; unfold ExtractSpec.close; rewrite (Rminus_diag_eq _ _ eq_refl), Rabs_R0; [pose proof (Rabs_pos x)|pose proof (Rabs_pos 10)]; lra.
      + destruct Eab as [-> ->]; [now rewrite Ei|unfold node_y; cbn [INR]; ring|]. exists r. split; auto.
        destruct out as [|c [|]]; try discriminate. cbn in O1. injection O1 as ->. destruct cs as [|c [|]]; try discriminate. cbn in O3. injection O3 as ->. exact Ho. }
  destruct (Go 270 (or_introl eq_refl)) as (r & E1 & S1). destruct (Go 180 (or_intror eq_refl)) as (r' & E2 & S2). rewrite E1, E2.
  destruct (Req_EM_T 270 270); [|congruence]. destruct (Req_EM_T 180 270); [exfalso; lra|]. change (scaled 1 (Some (5, 0)) r) in S1. change (r' = None) in S2. subst r'.
  destruct S1 as (a & p & (A1 & A2 & A3 & A4) & ->). cbn [fst snd] in A3, A4. exists p. split; auto. repeat f_equal.
  assert (a * a = 25). { pose proof (sin2_cos2 (p * PI / 180)) as Q. unfold Rsqr in Q. set (C := cos _) in *. set (Sn := sin _) in *. assert (a * a * (Sn * Sn + C * C) = 25) by (replace (a * a * (Sn * Sn + C * C)) with ((a * C) * (a * C) + (a * Sn) * (a * Sn)) by ring; replace (a * Sn) with 0 by lra; rewrite <- A3; lra). nra. }
  assert (a = 5) by nra. lra.
Qed.

(** splines: the same value where all four nodes are valid, nothing beside a masked one *)
Example C69_spline_case : exists r, extract_series FES Spline 1 [quarter] [(45, 5); (135, 5)] = Ok [[Some r; None]].
Proof.
  set (pts := [(45, 5); (135, 5)]). assert (Hp : forall q, In q pts -> -360 <= fst q <= 540) by (intros q [<-|[<-|[]]]; cbn; lra).
  destruct (C69_returns FES Spline 1 Eastern [quarter] pts) as (out & Ho & Lo); auto.
  - discriminate.
  - intros s [<-|[]]. split; [apply quarter_frame|]. exists true, 0, 90, 4%nat, 0, 10, 3%nat. split; [apply quarter_grid|]. discriminate.
  - assert (E1 : placed Eastern 45 = 45) by (cbn; unfold eastward; destruct (Rlt_dec 45 0); lra). assert (E2 : placed Eastern 135 = 135) by (cbn; unfold eastward; destruct (Rlt_dec 135 0); lra).
    assert (Nw : forall lo hi x, lo <= x <= hi -> nearest_within lo hi x = x) by (intros; unfold nearest_within; rewrite Rmin_right, Rmax_right; lra).
    assert (Nx : forall x, 0 <= x <= 200 -> nearest_within (node_x Heights 0 90 (first_of true)) (node_x Heights 0 90 (last_of (behind FES) true 4)) x = x) by (intros; apply Nw; unfold node_x; cbn [first_of last_of behind]; replace (Z.of_nat 4 + 1 - 1)%Z with 4%Z by reflexivity; lra).
    assert (Ny : nearest_within 0 (0 + INR (3 - 1) * 10) 5 = 5) by (apply Nw; cbn; lra).
    destruct (C69_spline FES 1 Eastern [quarter] pts out 0 quarter 0 (45, 5) true 0 90 4 0 10 3 45 5 0%Z 0%nat) as (cs & r & O1 & O2 & O3 & O4 & _); auto.
    + apply quarter_files.
    + apply quarter_grid.
    + apply quarter_numbers.
    + cbn [fst]. rewrite E1. apply Nx. lra.
    + cbn. lia.
    + cbn. lia.
    + left. unfold node_x. cbn [Z.add]. lra.
    + left. unfold node_y. cbn [INR]. lra.
    + destruct (C69_spline FES 1 Eastern [quarter] pts out 0 quarter 1 (135, 5) true 0 90 4 0 10 3 135 5 1%Z 0%nat) as (cs' & r' & P1 & _ & P3 & _ & P5); auto.
      * apply quarter_files.
      * apply quarter_grid.
      * apply quarter_numbers.
      * cbn [fst]. rewrite E2. apply Nx. lra.
      * cbn. lia.
      * cbn. lia.
      * left. unfold node_x. cbn [Z.add Pos.add]. lra.
      * left. unfold node_y. cbn [INR]. lra.
      * assert (cs' = cs) by congruence. subst cs'. rewrite P5 in P3.
        2:{ intros K. apply (K ((135 - node_x Heights 0 90 1) * (5 - node_y Heights 0 10 0), None)); [right; right; right; left; reflexivity| |reflexivity]. cbn [fst]. unfold node_x, node_y. cbn [INR]. lra. }
        destruct O4 as [N S]. { intros q Hq _. cbn in Hq. destruct Hq as [<-|[<-|[<-|[<-|[]]]]]; cbn; discriminate. }
        match type of S with scaled _ ?zz _ => destruct zz as [z|]; [|congruence] end. destruct S as (a & p & _ & ->).
        destruct out as [|c [|]]; try discriminate. cbn in O1. injection O1 as ->. destruct cs as [|c [|c' [|]]]; try discriminate. cbn in O3, P3. injection O3 as ->. injection P3 as ->. eauto.
Qed.

(** outside of the rows and on the first row nothing is found, with GOT's splines a value *)
Example C69_outside_case : extract_series FES Spline 1 [quarter] [(45, 30)] = Ok [[None]] /\ extract_series GOT Bilinear 1 [quarter] [(45, 0)] = Ok [[None]].
Proof.
  split.
  - destruct (C69_returns FES Spline 1 Eastern [quarter] [(45, 30)]) as (out & Ho & Lo); [discriminate|apply one_point; lra| |].
    { intros s [<-|[]]. split; [apply quarter_frame|]. exists true, 0, 90, 4%nat, 0, 10, 3%nat. split; [apply quarter_grid|]. discriminate. }
    destruct (C69_outside FES Spline 1 Eastern [quarter] [(45, 30)] out 0 quarter 0 (45, 30) true 0 90 4 0 10 3 (placed Eastern 45) 30) as (cs & O1 & O2); auto.
    + apply quarter_files.
    + apply one_point. lra.
    + apply quarter_grid.
    + right. right. right. unfold node_y. cbn. lra.
    + rewrite Ho. destruct out as [|c [|]]; try discriminate. cbn in O1. injection O1 as ->. pose proof (extract_files_nth FES Spline 1 Eastern [quarter] quarter_files [(45, 30)] [cs]) as K.
      destruct K as [_ K]; [apply one_point; lra|exact Ho|]. destruct (K 0%nat quarter eq_refl) as (e & cs' & _ & Em & Ec). injection Ec as <-. apply mapM_len in Em. destruct cs as [|c [|]]; try discriminate. cbn in O2. now injection O2 as ->.
  - destruct (C69_returns GOT Bilinear 1 Eastern [quarter] [(45, 0)]) as (out & Ho & Lo); [discriminate|apply one_point; lra| |].
    { intros s [<-|[]]. split; [apply quarter_frame|]. exists true, 0, 90, 4%nat, 0, 10, 3%nat. split; [apply quarter_grid|]. intros _ p [<-|[]]. cbn. unfold eastward. destruct (Rlt_dec 45 0); lra. }
    destruct (C69_rows_refuted GOT 1 Eastern [quarter] [(45, 0)] out 0 quarter 0 (45, 0) true 0 90 4 0 10 3) as (cs & O1 & O2); auto.
    + apply quarter_files.
    + apply one_point. lra.
    + apply quarter_grid.
    + left. unfold node_y. cbn. ring.
    + rewrite Ho. destruct out as [|c [|]]; try discriminate. cbn in O1. injection O1 as ->. pose proof (extract_files_nth GOT Bilinear 1 Eastern [quarter] quarter_files [(45, 0)] [cs]) as K.
      destruct K as [_ K]; [apply one_point; lra|exact Ho|]. destruct (K 0%nat quarter eq_refl) as (e & cs' & _ & Em & Ec). injection Ec as <-. apply mapM_len in Em. destruct cs as [|c [|]]; try discriminate. cbn in O2. now injection O2 as ->.
Qed.

Lemma strip_grid : sheet_grid false (-10) 100 3 0 10 2 strip.
Proof.
  unfold sheet_grid, evenly. cbn [slon slat shc strip length INR].
  repeat split; try lra; try lia; try (intros i Hi; do 3 (destruct i as [|i]; [cbn; lra|]); lia); try (intros i Hi; do 2 (destruct i as [|i]; [cbn; lra|]); lia).
  - intros r Hr. repeat (destruct Hr as [<-|Hr]; [reflexivity|]). destruct Hr.
  - right. split; auto. apply not_close; cbn; [apply abs_ge|apply abs_le]; lra.
Qed.
Lemma strip_valid : forall j i, (j < 2)%nat -> (i < 3)%nat -> valid (entry (None, true) (shc strip) j i) <> None.
Proof. intros j i Hj Hi. do 2 (destruct j as [|j]; [do 3 (destruct i as [|i]; [cbn; discriminate|]); lia|]). lia. Qed.

(** the same file read twice gives different constants *)
Example C69_alternate_case : forall out, extract_series FES Spline 1 [strip; strip] [(190, 5)] = Ok out -> exists r, out = [[None]; [Some r]].
Proof.
  intros out H. apply (C69_alternate_refuted 1 strip 190 5 false (-10) 100 3 0 10 2 out); auto; try lra.
  - apply strip_grid.
  - apply strip_valid.
  - unfold node_x. cbn [Z.of_nat Z.sub Z.add Z.opp Pos.of_succ_nat Pos.succ Z.pos_sub Pos.pred_double Z.pred_double]. lra.
  - unfold node_x, first_of. lra.
  - cbn. lra.
Qed.

(** a point on the last column *)
Example C69_last_column_case : exists e, extract_series FES Bilinear 1 [quarter] [(360, 5)] = Err e.
Proof.
  apply (C69_last_column_refuted FES 1 Eastern [quarter] [(360, 5)] quarter (360, 5) true 0 90 4 0 10 3).
  - apply quarter_files.
  - apply one_point. lra.
  - now left.
  - apply quarter_grid.
  - now left.
  - cbn [fst placed]. unfold eastward. destruct (Rlt_dec 360 0); [lra|]. unfold node_x. replace (last_of (behind FES) true 4) with 4%Z by reflexivity. lra.
  - unfold node_y. cbn. lra.
Qed.

(** reading and interpolating: the same for a point of the eastern hemisphere, nothing for
    one of the western hemisphere *)
Example C69_read_case : exists t, read_series FES [quarter] = Ok t /\
  interpolate_series FES Bilinear 100 t [(45, 5)] = extract_series FES Bilinear 100 [quarter] [(45, 5)] /\
  forall out cs, interpolate_series FES Bilinear 100 t [(200, 5)] = Ok out -> In cs out -> nth_error cs 0 = Some None.
Proof.
  destruct (C69_read FES Bilinear 100 Eastern [quarter] [(45, 5)] true 0 90 4 0 10 3) as (t & Rt & E).
  - discriminate.
  - intros s [<-|[]]. split; [apply quarter_frame|]. split; [apply quarter_grid|discriminate].
  - apply one_point. lra.
  - right. left. split; auto. right. right. intros p [<-|[]]. cbn. lra.
  - exists t. split; [exact Rt|]. split; [exact E|]. intros out cs Hi Hc.
    apply (C69_read_refuted FES Bilinear 100 [quarter] [(200, 5)] t out quarter 0 (200, 5) 0 90 4 0 10 3); auto.
    + intros s [<-|[]]. apply quarter_grid.
    + now left.
    + lra.
    + intros q [<-|[]]. cbn. lra.
    + cbn. lra.
Qed.
