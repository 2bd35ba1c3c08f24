(** C84: cases meeting the hypotheses of the theorems. *)
From Coq Require Import Reals List Bool Arith ZArith Lra Lia.
From Verif Require Import PyBase RBase MathModel GeoModel ConvertProps GridModel GridProofs InterpModel InterpProps ExtrapProps ExtractModel ExtractSpec NodeProps ExtractProofs ExtractProps SplineProps ReturnProps CaseProps MergeSpec MergeProps SeriesModel SeriesSpec SeriesProofs SeriesProps SeriesProps2 SeriesProps3 SeriesCases RegularModel RegularSpec RegularProofs RegularProps RegularProps2 RegularProps6 CropModel CropSpec CropProofs CropProofs2 CropProps CropProps2 CropProps3 CropProps4 CropCases ShoreModel ShoreSpec ShoreProofs ShoreProps ShoreProps2.
Import ListNotations.
Open Scope R_scope.

(** ten columns (18, 54, ..., 342) and three rows (0, 18, 36) with land; column k has the constant k + 1 *)
Definition isles (sea : nat -> nat -> bool) : sheet :=
  Sheet (steps 18 36 10) (steps 0 18 3) (map (fun j => map (fun k => (Some (INR k + 1, 0), negb (sea j k))) (seq 0 10)) (seq 0 3)).
Lemma isles_grid sea : sheet_grid true 18 36 10 0 18 3 (isles sea).
Proof.
  unfold sheet_grid. cbn [isles slon slat shc]. split; [apply steps_evenly; lra|]. split; [apply steps_evenly; lra|]. split; [lia|]. split; [lia|]. split.
  - split; [reflexivity|]. intros r Hr. cbn [seq map In] in Hr. destruct Hr as [<-|[<-|[<-|[]]]]; reflexivity.
  - left. split; auto. cbn. lra.
Qed.
Lemma isles_entry sea j k : (j < 3)%nat -> (k < 10)%nat -> entry (None, true) (shc (isles sea)) j k = (Some (INR k + 1, 0), negb (sea j k)).
Proof. intros Hj Hk. do 3 (destruct j as [|j]; [do 10 (destruct k as [|k]; [reflexivity|]); lia|]). lia. Qed.
Lemma isles_numbers sea : numbers 3 10 (isles sea).
Proof. intros j i Hj Hi. rewrite isles_entry by auto. discriminate. Qed.
Lemma isles_frame sea : forall s, In s [isles sea] -> framed Eastern (slon s).
Proof.
  intros s [<-|[]]. cbn [isles slon]. split.
  - exists (18 + INR 5 * 36). split; [|cbn; lra]. apply (in_map (fun i => 18 + INR i * 36)). apply in_seq. lia.
  - intros a H. apply in_map_iff in H as (i & <- & _). pose proof (pos_INR i). lra.
Qed.
Lemma isles_valid sea j i : (j < 3)%nat -> (i < 10)%nat -> valid (entry (None, true) (shc (isles sea)) j i) = if sea j i then Some (INR i + 1, 0) else None.
Proof. intros. rewrite isles_entry by auto. unfold valid. cbn [fst snd]. destruct (sea j i); reflexivity. Qed.
Lemma isles_outside src sea x y : -360 <= x <= 540 -> 36 < y -> extract_options src (Regular Linear) 1 false None None None [isles sea] [(x, y)] = Ok [[None]].
Proof.
  intros Hx Hy. rewrite C84_off_regular. destruct (C82_returns src Linear 1 Eastern [isles sea] [(x, y)]) as (out & Ho & Lo); try discriminate.
  - now apply one_point.
  - intros s Hs. split; [now apply (isles_frame sea)|]. destruct Hs as [<-|[]]. eexists _, _, _, _, _, _, _. apply isles_grid.
  - rewrite Ho. destruct (regular_inv src Linear 1 Eastern [isles sea] [(x, y)] out 0 (isles sea) 0 (x, y) true 18 36 10 0 18 3) as (e & cs' & r & _ & _ & _ & _ & P1 & P2 & _ & _); auto; [apply isles_frame | now apply one_point | apply isles_grid |].
    destruct (C82_outside src Linear 1 Eastern [isles sea] [(x, y)] out 0 (isles sea) 0 (x, y) true 18 36 10 0 18 3 (placed Eastern x) y) as (cs & O1 & O2); auto.
    + apply isles_frame.
    + now apply one_point.
    + apply isles_grid.
    + right. right. right. unfold node_y. cbn. lra.
    + rewrite O1 in P1. injection P1 as <-. destruct out as [|c [|]]; try discriminate. cbn in O1. injection O1 as ->. destruct cs as [|c [|]]; try discriminate. cbn in O2. injection O2 as ->. reflexivity.
Qed.
(** beyond the northern row: the constant of the nearest valid node, or none with FES *)
Lemma isles_north src sea x y : -360 <= x <= 540 -> 36 < y ->
  exists r, extract_options src (Regular Linear) 1 false None None (Some None) [isles sea] [(x, y)] = Ok [[r]] /\ (src = FES -> r = None) /\
    let z := fun j i => valid (entry (None, true) (shc (isles sea)) j i) in
    (src = GOT -> (exists j i, nearest_valid None 18 36 10 0 18 3 z (x, y) j i /\ scaled 1 (z j i) r) \/ (~ exists j i, nearby None 18 36 10 0 18 3 z (x, y) j i) /\ r = None).
Proof.
  intros Hx Hy. destruct (options_both src (Regular Linear) 1 false None None None [isles sea] [(x, y)]) as [(out & out0 & E & E0)|(e & _ & E)]; [|rewrite isles_outside in E by auto; discriminate].
  destruct (C84_filled src (Regular Linear) 1 Eastern None None None [isles sea] [(x, y)] out 0 (isles sea) 0 x y true 18 36 10 0 18 3) as (out1 & cs0 & cs & r0 & r & A1 & A2 & A3 & A4 & A5 & A6 & A7 & A8); auto.
  - apply isles_frame.
  - now apply one_point.
  - apply isles_grid.
  - right. apply isles_numbers.
  - destruct (series_inv_options src (Regular Linear) 1 Eastern None None _ [isles sea] [(x, y)] out 0 (isles sea) true 18 36 10 0 18 3 (isles_frame sea) (one_point x y Hx) E eq_refl (isles_grid sea)) as (e & cs' & _ & _ & _ & P1 & P2).
    rewrite A4 in P1. injection P1 as <-. apply file_values_len in P2. cbn [map length] in P2.
    assert (Lo : length out = 1%nat). { unfold extract_options in E. cbn [map amin amax bind] in E. apply (fill_files_nth src (Regular Linear) 1 Eastern None _ _ (isles_frame sea)) in E as [Lo _]; [exact Lo | now apply one_point]. }
    rewrite isles_outside in A1 by auto. apply Ok_inj in A1 as <-. cbn in A2. injection A2 as <-. cbn in A3. injection A3 as <-.
    exists r. rewrite E. destruct out as [|c [|]]; try discriminate. cbn in A4. injection A4 as ->. destruct cs as [|c [|]]; try discriminate. cbn in A5. injection A5 as ->. split; [reflexivity|]. split.
    + intros Es. apply A7; auto. unfold beyond. right. right. right. unfold node_y. cbn. lra.
    + intros z Es. apply A8; auto.
Qed.

(** the nearer of two nodes on the equator *)
Definition two (j k : nat) : bool := Nat.eqb j 0 && (Nat.eqb k 2 || Nat.eqb k 7).
Lemma chord_le p q q' : let '(x, y, z) := on_globe p in let '(a, b, c) := on_globe q in let '(a', b', c') := on_globe q' in
  (x - a) ^ 2 + (y - b) ^ 2 + (z - c) ^ 2 < (x - a') ^ 2 + (y - b') ^ 2 + (z - c') ^ 2 -> chord p q < chord p q'.
Proof. unfold chord. destruct (on_globe p) as [[x y] z], (on_globe q) as [[a b] c], (on_globe q') as [[a' b'] c']. intros H. assert (K : forall u v t, 0 <= u ^ 2 + v ^ 2 + t ^ 2) by (intros u v t; pose proof (pow2_ge_0 u); pose proof (pow2_ge_0 v); pose proof (pow2_ge_0 t); lra). apply sqrt_lt_1; auto. Qed.
Lemma nearer_ninety y : -90 < y < 90 -> chord (126, y) (90, 0) < chord (126, y) (270, 0).
Proof.
  intros Hy. pose proof PI_RGT_0 as P. pose proof (chord_le (126, y) (90, 0) (270, 0)) as C. unfold on_globe in C. cbn [fst snd] in C.
  replace (0 * (PI / 180)) with 0 in C by ring. rewrite sin_0, cos_0 in C.
  replace (90 * (PI / 180)) with (PI / 2) in C by field. replace (270 * (PI / 180)) with (3 * (PI / 2)) in C by field. rewrite cos_PI2, sin_PI2 in C.
  replace (3 * (PI / 2)) with (PI / 2 + PI) in C by field. rewrite neg_cos, neg_sin, cos_PI2, sin_PI2 in C.
  assert (Hn : forall t, -1 <= t <= 1 -> 0 < wgs84_a / sqrt (1 - wgs84_e2 * t ^ 2)).
  { intros t B. apply Rdiv_lt_0_compat; [unfold wgs84_a; lra|]. apply sqrt_lt_R0. unfold wgs84_e2. set (f := 1 / 298.257223563). assert (F : 0 < f < 1 / 100) by (unfold f; lra).
    assert (t ^ 2 <= 1) by nra. assert (0 <= t ^ 2) by nra. assert (f * (2 - f) < 1) by nra. nra. }
  pose proof (Hn 0 ltac:(lra)) as Hv. pose proof (Hn _ (SIN_bound (y * (PI / 180)))) as Hw.
  apply C. clear C. set (v := wgs84_a / sqrt (1 - wgs84_e2 * 0 ^ 2)) in *.
  set (w := wgs84_a / sqrt (1 - wgs84_e2 * sin (y * (PI / 180)) ^ 2)) in *.
  assert (Hs : 0 < sin (126 * (PI / 180))) by (apply sin_gt_0; lra). assert (Q1 : 0 < PI * (90 - y)) by (apply Rmult_lt_0_compat; lra). assert (Q2 : 0 < PI * (y + 90)) by (apply Rmult_lt_0_compat; lra).
  assert (Hc : 0 < cos (y * (PI / 180))) by (apply cos_gt_0; lra).
  clearbody w v. set (X := w * cos (y * (PI / 180)) * cos (126 * (PI / 180))). set (Y := w * cos (y * (PI / 180)) * sin (126 * (PI / 180))). assert (HY : 0 < Y) by (unfold Y; repeat apply Rmult_lt_0_compat; auto).
  clearbody X Y. assert (0 < v * Y) by (apply Rmult_lt_0_compat; auto). nra.
Qed.
Example C84_nearest_case : exists p, extract_options GOT (Regular Linear) 1 false None None (Some None) [isles two] [(126, 45)] = Ok [[Some (3, p)]] /\
  extract_options FES (Regular Linear) 1 false None None (Some None) [isles two] [(126, 45)] = Ok [[None]].
Proof.
  destruct (isles_north GOT two 126 45) as (r & E & _ & N); [lra | lra|]. destruct (isles_north FES two 126 45) as (r' & E' & N' & _); [lra | lra|]. rewrite E'. rewrite N' by auto.
  destruct (N eq_refl) as [(j & i & [(B1 & B2 & B3 & _) Nn] & S)|[No _]].
  - assert (Hj : two j i = true) by (rewrite isles_valid in B3 by auto; destruct (two j i); [auto | congruence]). unfold two in Hj. apply andb_true_iff in Hj as [Hj Hi]. apply Nat.eqb_eq in Hj as ->.
    apply orb_true_iff in Hi as [Hi|Hi]; apply Nat.eqb_eq in Hi as ->.
    + cbn [scaled] in S. rewrite isles_valid in S by auto. cbn [two Nat.eqb andb orb scaled] in S. destruct S as (a & p & A & ->). apply abs_real in A; [|cbn; lra]. exists p. rewrite E. split; [|reflexivity]. replace 3 with (a * 1) by (rewrite A; cbn [INR]; lra). reflexivity.
    + exfalso. specialize (Nn 0%nat 2%nat). assert (K : nearby None 18 36 10 0 18 3 (fun j i => valid (entry (None, true) (shc (isles two)) j i)) (126, 45) 0 2).
      { split; [lia|]. split; [lia|]. split; [|exact I]. rewrite isles_valid by lia. discriminate. }
      specialize (Nn K). pose proof (nearer_ninety 45 ltac:(lra)) as C. unfold node_at in Nn. replace (18 + INR 7 * 36) with 270 in Nn by (cbn; lra). replace (18 + INR 2 * 36) with 90 in Nn by (cbn; lra). replace (0 + INR 0 * 18) with 0 in Nn by (cbn; lra). lra.
  - exfalso. apply No. exists 0%nat, 2%nat. split; [lia|]. split; [lia|]. split; [|exact I]. rewrite isles_valid by lia. discriminate.
Qed.
