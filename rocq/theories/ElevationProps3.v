(** C78 for the models with a file for each constituent: FES, GOT and ATLAS. *)
From Coq Require Import String Reals Lra Lia List Bool ZArith Arith.
From Verif Require Import PyBase RBase StrBase MathModel GeoModel GridModel InterpModel ExtractModel ExtractSpec ExtractProofs ExtractProps
  SeriesModel SeriesSpec SeriesProps AtlasNcModel AtlasNcSpec AtlasNcProps2
  PredictModel PredictSpec PredictProps InferModel ComputeModel ComputeSpec
  ElevationModel ElevationSpec ElevationProofs2 ElevationProps ElevationProps2.
Import ListNotations.
Open Scope R_scope.
Open Scope list_scope.

Lemma by_point_shape npts cs : List.length (by_point npts cs) = npts /\ forall row, In row (by_point npts cs) -> List.length row = List.length cs.
Proof.
  unfold by_point. rewrite map_length, seq_length. split; [reflexivity|]. intros row I. apply in_map_iff in I as (n & <- & _). apply map_length.
Qed.
Lemma by_point_nth npts cs n row : nth_error (by_point npts cs) n = Some row -> row = map (fun c => nth n c None) cs.
Proof.
  unfold by_point. intros H. rewrite nth_error_map in H. destruct (nth_error (seq 0 npts) n) as [k|] eqn:E; [|discriminate]. cbn in H. injection H as <-.
  assert (n < npts)%nat. { rewrite <- (seq_length npts 0). apply nth_error_Some. congruence. }
  apply nth_error_nth with (d := 0%nat) in E. rewrite seq_nth in E by assumption. cbn in E. now subst k.
Qed.
Lemma files_len src me sc files : forall pts out, extract_files src me sc files pts = Ok out -> List.length out = List.length files.
Proof.
  induction files as [|s files IH]; intros pts out H; [apply Ok_inj in H as <-; reflexivity|]. cbn [extract_files] in H.
  destruct (spacing (slon s)); [|discriminate]. cbn [bind] in H. destruct (adjust (slon s) pts) as [pts'|]; [|discriminate]. cbn [bind] in H.
  destruct (extend_sheet src s) as [e|]; [|discriminate]. cbn [bind] in H. destruct (mapM _ pts') as [cs|]; [|discriminate]. cbn [bind] in H.
  destruct (extract_files src me sc files pts') as [o|] eqn:E; [|discriminate]. cbn [bind] in H. apply Ok_inj in H as <-. cbn. f_equal. eauto.
Qed.
Lemma series_len src me sc files pts out : extract_series src me sc files pts = Ok out -> List.length out = List.length files.
Proof. unfold extract_series. destruct (amin (map fst pts)); [|discriminate]. cbn [bind]. apply files_len. Qed.
Lemma atlas_len me t sc g files pts out : extract_atlas me t sc g files pts = Ok out -> List.length (aconst out) = List.length files.
Proof.
  unfold extract_atlas. intros H. destruct (read_netcdf_grid t g) as [[[lon lat] h]|]; [|discriminate]. cbn [bind] in H.
  repeat match type of H with bind ?a _ = _ => let E := fresh "E" in destruct a eqn:E; [|discriminate]; cbn [bind] in H; cbv zeta in H end.
  apply Ok_inj in H as <-. cbn [aconst]. rewrite map_length. exact (mapM_len _ _ _ E6).
Qed.

Section Points.
  Variable proj : R * R -> R * R.
  Variable clock : string -> R -> stamp.
  Variable A : tide_args.
  Variable B : minor_args.
  Variable freq : string -> R.
  Variable gam : R -> R.
  Variable other : string -> list (R * R) -> res (list (list (option (R * R)))).
  Variable names : list string.
  Variable corr : string.
  Variable minor : option (list string).
  Variable TIME : string.
  Variable CORRECTIONS : option string.
  Variable MINOR : option (list string).
  Variable T : string.
  Variables x y : coords.
  Variable ts : list R.
  Hypothesis HT : In (lower TIME) time_names.
  Hypothesis Hk : forall c, In c names -> a_known A c = true.

  Lemma series_point src sc files v pts n p tau w : List.length names = List.length files ->
    let m := series_model src sc files other names corr minor in
    elevations proj clock A B freq gam m true "bilinear" TIME CORRECTIONS false MINOR (Some T) x y ts = Ok v ->
    shows T x y ts v pts n tau w -> nth_error pts n = Some p ->
    exists out, extract_series src Bilinear sc files (map proj pts) = Ok out /\ List.length out = List.length files /\
      let st := clock TIME tau in let co := corrected CORRECTIONS m in
      w = flagged (cosines (a_f A (st_tide st, delta co st)) (argument A co (st_tide st) (delta co st)) names (map (fun c => nth n c None) out)).
  Proof.
    intros Hl m Ev Sh Hp.
    destruct (request_row proj clock A B freq gam m "bilinear" TIME CORRECTIONS MINOR T x y ts pts v n p tau w HT) as (rows & row & Er & Erow & Ew); auto.
    - cbn. tauto.
    - intros ll rows _ H. unfold m, series_model, by_method in H. cbn [bm_extract] in H. change (method_of "bilinear") with (Some Bilinear) in H. cbv beta iota in H.
      destruct (extract_series src Bilinear sc files ll) as [out|] eqn:E; [|discriminate]. cbn [bind] in H. apply Ok_inj in H as <-.
      destruct (by_point_shape (List.length ll) out) as [L1 L2]. split; [exact L1|]. intros row I. rewrite (L2 row I), (series_len _ _ _ _ _ _ E). now symmetry.
    - unfold m, series_model, by_method in Er. cbn [bm_extract] in Er. change (method_of "bilinear") with (Some Bilinear) in Er. cbv beta iota in Er.
      destruct (extract_series src Bilinear sc files (map proj pts)) as [out|] eqn:E; [|discriminate]. cbn [bind] in Er. apply Ok_inj in Er as <-.
      exists out. split; [reflexivity|]. split; [exact (series_len _ _ _ _ _ _ E)|]. apply by_point_nth in Erow. subst row. exact Ew.
  Qed.
  Lemma atlas_point t sc g files v pts n p tau w : List.length names = List.length files ->
    let m := atlas_model t sc g files other names corr minor in
    elevations proj clock A B freq gam m true "bilinear" TIME CORRECTIONS false MINOR (Some T) x y ts = Ok v ->
    shows T x y ts v pts n tau w -> nth_error pts n = Some p ->
    exists out, extract_atlas Bilinear t sc g files (map proj pts) = Ok out /\ List.length (aconst out) = List.length files /\
      let st := clock TIME tau in let co := corrected CORRECTIONS m in
      w = flagged (cosines (a_f A (st_tide st, delta co st)) (argument A co (st_tide st) (delta co st)) names (map (fun c => nth n c None) (aconst out))).
  Proof.
    intros Hl m Ev Sh Hp.
    destruct (request_row proj clock A B freq gam m "bilinear" TIME CORRECTIONS MINOR T x y ts pts v n p tau w HT) as (rows & row & Er & Erow & Ew); auto.
    - cbn. tauto.
    - intros ll rows _ H. unfold m, atlas_model, by_method in H. cbn [bm_extract] in H. change (method_of "bilinear") with (Some Bilinear) in H. cbv beta iota in H.
      destruct (extract_atlas Bilinear t sc g files ll) as [out|] eqn:E; [|discriminate]. cbn [bind] in H. apply Ok_inj in H as <-.
      destruct (by_point_shape (List.length ll) (aconst out)) as [L1 L2]. split; [exact L1|]. intros row I. rewrite (L2 row I), (atlas_len _ _ _ _ _ _ _ E). now symmetry.
    - unfold m, atlas_model, by_method in Er. cbn [bm_extract] in Er. change (method_of "bilinear") with (Some Bilinear) in Er. cbv beta iota in Er.
      destruct (extract_atlas Bilinear t sc g files (map proj pts)) as [out|] eqn:E; [|discriminate]. cbn [bind] in Er. apply Ok_inj in Er as <-.
      exists out. split; [reflexivity|]. split; [exact (atlas_len _ _ _ _ _ _ _ E)|]. apply by_point_nth in Erow. subst row. exact Ew.
  Qed.
End Points.

Lemma scaled_height sc f u names zs row : Forall2 (scaled sc) zs row -> cosines f u names row = option_map (Rmult sc) (height f u names zs).
Proof.
  intros F. apply cosines_height. induction F as [|z r zs row Hz F IH]; constructor; auto. destruct z as [z|]; [|exact Hz].
  destruct Hz as (a & p & HA & ->). exists a, p. split; [exact HA|]. do 2 f_equal. ring.
Qed.
Lemma forall2_columns {X} (P : option (R * R) -> option (R * R) -> Prop) (F : X -> option (R * R)) (l : list X) (out : list (list (option (R * R)))) n :
  List.length out = List.length l ->
  (forall c a, nth_error l c = Some a -> exists cs r, nth_error out c = Some cs /\ nth_error cs n = Some r /\ P (F a) r) ->
  Forall2 P (map F l) (map (fun c => nth n c None) out).
Proof.
  intros E H. apply forall2_tab; [now rewrite map_length|]. intros c a Ha. destruct (H c a Ha) as (cs & r & H1 & H2 & H3).
  exists r. split; [|exact H3]. rewrite nth_error_map, H1. cbn. f_equal. now apply nth_error_nth.
Qed.

(** ** FES and GOT, the files on one grid: at a node *)
Theorem C78_series_node : forall proj clock A B freq gam src sc fr files other names corr minor TIME CORRECTIONS MINOR T x y ts v pts n p tau w around x0 dx nx y0 dy ny X Y i j,
  (forall s, In s files -> framed fr (slon s) /\ sheet_grid around x0 dx nx y0 dy ny s) ->
  In (lower TIME) time_names -> (forall c, In c names -> a_known A c = true) -> List.length names = List.length files ->
  let m := series_model src sc files other names corr minor in
  elevations proj clock A B freq gam m true "bilinear" TIME CORRECTIONS false MINOR (Some T) x y ts = Ok v ->
  shows T x y ts v pts n tau w -> nth_error pts n = Some p ->
  (forall q, In q pts -> -360 <= fst (proj q) <= 540) -> placed fr (fst (proj p)) = X -> snd (proj p) = Y ->
  reached (behind src) around nx i -> reached (behind src) around nx (i + 1) -> (S j < ny)%nat ->
  between_nodes Heights x0 dx y0 dy X Y i j -> X = node_x Heights x0 dx i -> Y = node_y Heights y0 dy j ->
  let st := clock TIME tau in let co := corrected CORRECTIONS m in
  w = flagged (option_map (Rmult sc) (height (a_f A (st_tide st, delta co st)) (argument A co (st_tide st) (delta co st)) names
        (map (fun s => valid (entry (None, true) (shc s) j (column nx i))) files))).
Proof.
  intros proj clock A B freq gam src sc fr files other names corr minor TIME CORRECTIONS MINOR T x y ts v pts n p tau w around x0 dx nx y0 dy ny X Y i j
    Hf HT Hk Hl m Ev Sh Hp Hq Ex Ey Ri Ri1 Hj Bt Nx Ny st co.
  destruct (series_point proj clock A B freq gam other names corr minor TIME CORRECTIONS MINOR T x y ts HT Hk src sc files v pts n p tau w Hl Ev Sh Hp) as (out & Eo & Lo & ->).
  fold m st co. f_equal. apply scaled_height. apply forall2_columns; [exact Lo|]. intros c s Hc.
  assert (A0 : at_node Heights x0 dx y0 dy X Y i j).
  { split; left; [rewrite <- Nx|rewrite <- Ny]; unfold ExtractSpec.close; rewrite Rminus_eq_0, Rabs_R0; match goal with |- 0 <= _ + _ * Rabs ?v => pose proof (Rabs_pos v); lra end. }
  destruct (C69_node src sc fr files (map proj pts) out c s n (proj p) around x0 dx nx y0 dy ny X Y i j) as (a & b & cs & r & _ & _ & _ & _ & Hab & O1 & _ & O2 & O3); auto.
  - intros s' I. now apply Hf.
  - intros q I. apply in_map_iff in I as (q' & <- & I). auto.
  - apply Hf. eapply nth_error_In; eauto.
  - now apply map_nth_error.
  - destruct (Hab Nx Ny) as [-> ->]. exists cs, r. auto.
Qed.
Print Assumptions C78_series_node.

Lemma heights_mean {X} f u names (l : list X) (c1 c2 c3 c4 : R) (z1 z2 z3 z4 : X -> option (R * R)) : names <> [] -> List.length names = List.length l ->
  all_or_none (map z1 l) -> all_or_none (map z2 l) -> all_or_none (map z3 l) -> all_or_none (map z4 l) ->
  height f u names (map (fun a => let z := [(c1, z1 a); (c2, z2 a); (c3, z3 a); (c4, z4 a)] in both (mean (part fst z)) (mean (part snd z))) l)
  = mean [(c1, height f u names (map z1 l)); (c2, height f u names (map z2 l)); (c3, height f u names (map z3 l)); (c4, height f u names (map z4 l))].
Proof.
  intros N Hl H1 H2 H3 H4. set (L := [(c1, map z1 l); (c2, map z2 l); (c3, map z3 l); (c4, map z4 l)]).
  transitivity (mean (whole f u names L)); [|reflexivity]. rewrite <- (height_mean f u names L N).
  - f_equal. rewrite Hl. apply nth_ext with (d := None) (d' := None); [now rewrite !map_length, seq_length|].
    intros c Hc. rewrite map_length in Hc. rewrite nth_tabled by exact Hc. destruct (nth_error l c) as [a|] eqn:E; [|apply nth_error_None in E; lia].
    match goal with |- nth c (map ?F l) None = _ => rewrite (nth_error_nth (map F l) c None (map_nth_error F c l E)) end. cbv zeta.
    unfold L, part_of. cbn [map fst snd].
    rewrite (nth_error_nth (map z1 l) c None (map_nth_error z1 c l E)), (nth_error_nth (map z2 l) c None (map_nth_error z2 c l E)),
      (nth_error_nth (map z3 l) c None (map_nth_error z3 c l E)), (nth_error_nth (map z4 l) c None (map_nth_error z4 c l E)). reflexivity.
  - intros q [<-|[<-|[<-|[<-|[]]]]]; cbn [snd]; (split; [assumption|rewrite map_length; now symmetry]).
Qed.

(** within a cell whose nodes have all of the constants or none: the weighted mean of the
    heights at the nodes *)
Theorem C78_series_heights : forall proj clock A B freq gam src sc fr files other names corr minor TIME CORRECTIONS MINOR T x y ts v pts n p tau w around x0 dx nx y0 dy ny X Y i j,
  (forall s, In s files -> framed fr (slon s) /\ sheet_grid around x0 dx nx y0 dy ny s) ->
  In (lower TIME) time_names -> (forall c, In c names -> a_known A c = true) -> List.length names = List.length files -> names <> [] ->
  let m := series_model src sc files other names corr minor in
  elevations proj clock A B freq gam m true "bilinear" TIME CORRECTIONS false MINOR (Some T) x y ts = Ok v ->
  shows T x y ts v pts n tau w -> nth_error pts n = Some p ->
  (forall q, In q pts -> -360 <= fst (proj q) <= 540) -> placed fr (fst (proj p)) = X -> snd (proj p) = Y ->
  reached (behind src) around nx i -> reached (behind src) around nx (i + 1) -> (S j < ny)%nat ->
  between_nodes Heights x0 dx y0 dy X Y i j -> ~ at_node Heights x0 dx y0 dy X Y i j ->
  let at_ := fun j i => map (fun s => valid (entry (None, true) (shc s) j i)) files in
  (forall j' i', (j' = j \/ j' = S j) -> (i' = i \/ i' = i + 1)%Z -> all_or_none (at_ j' (column nx i'))) ->
  let st := clock TIME tau in let co := corrected CORRECTIONS m in
  w = flagged (option_map (Rmult sc) (mean (corners Heights x0 dx y0 dy nx X Y i j
        (fun j i => height (a_f A (st_tide st, delta co st)) (argument A co (st_tide st) (delta co st)) names (at_ j i))))).
Proof.
  intros proj clock A B freq gam src sc fr files other names corr minor TIME CORRECTIONS MINOR T x y ts v pts n p tau w around x0 dx nx y0 dy ny X Y i j
    Hf HT Hk Hl Nn m Ev Sh Hp Hq Ex Ey Ri Ri1 Hj Bt NA at_ Hall st co.
  destruct (series_point proj clock A B freq gam other names corr minor TIME CORRECTIONS MINOR T x y ts HT Hk src sc files v pts n p tau w Hl Ev Sh Hp) as (out & Eo & Lo & ->).
  fold m st co. f_equal.
  assert (F : Forall2 (scaled sc) (map (fun s => let z := corners Heights x0 dx y0 dy nx X Y i j (fun j i => valid (entry (None, true) (shc s) j i)) in both (mean (part fst z)) (mean (part snd z))) files)
    (map (fun c => nth n c None) out)).
  { apply forall2_columns; [exact Lo|]. intros c s Hc.
    destruct (C69_cell src sc fr files (map proj pts) out c s n (proj p) around x0 dx nx y0 dy ny X Y i j) as (cs & r & O1 & _ & O2 & O3); auto.
    - intros s' I. now apply Hf.
    - intros q I. apply in_map_iff in I as (q' & <- & I). auto.
    - apply Hf. eapply nth_error_In; eauto.
    - now apply map_nth_error.
    - exists cs, r. auto. }
  rewrite (scaled_height _ _ _ _ _ _ F). f_equal. unfold corners. apply heights_mean; auto; apply Hall; auto.
Qed.
Print Assumptions C78_series_heights.

(** ** ATLAS *)
Lemma reported_height t sc depth f u names zs row : zs <> [] -> List.length zs = List.length names -> (depth = None -> forall z, In z zs -> z = None) ->
  Forall2 (reported t sc depth) zs row -> cosines f u names row = option_map (Rmult sc) (per_depth (AtlasNcSpec.velocity t) depth (height f u names zs)).
Proof.
  intros N L Hd F. destruct depth as [d|].
  - assert (D : Forall2 (derived (sc * (if AtlasNcSpec.velocity t then / (d / 100) else 1))) zs row).
    { clear - F. induction F as [|z r zs row Hz F IH]; constructor; auto. destruct z as [z|]; [|exact Hz]. destruct Hz as (a & p & HA & ->). exists a, p. split; [exact HA|]. do 2 f_equal.
      destruct (AtlasNcSpec.velocity t); unfold Rdiv; ring. }
    rewrite (cosines_height _ _ _ _ _ _ D). unfold per_depth. destruct (height f u names zs) as [h|]; destruct (AtlasNcSpec.velocity t); cbn [option_map]; try reflexivity; f_equal; unfold Rdiv; ring.
  - destruct zs as [|z zs]; [congruence|]. inversion F as [|? r ? row' Hz F']; subst. rewrite (Hd eq_refl z) in * by now left. cbn in Hz. subst r. destruct names; [discriminate|].
    cbn [cosines height]. unfold per_depth. now destruct (AtlasNcSpec.velocity t).
Qed.
Lemma forall2_pairs {X Y} (Q : X -> Y -> Prop) l r c a : Forall2 Q l r -> nth_error r c = Some a -> exists b, nth_error l c = Some b /\ Q b a.
Proof.
  intros F. revert c. induction F as [|b a' l r H F IH]; intros [|c] E; try discriminate; [injection E as <-; exists b; split; [reflexivity|exact H]|]. apply (IH c E).
Qed.
Lemma forall2_size {X Y} (Q : X -> Y -> Prop) l r : Forall2 Q l r -> List.length l = List.length r.
Proof. induction 1; cbn; auto. Qed.

Theorem C78_atlas_node : forall proj clock A B freq gam t sc fr g nd files pas other names corr minor TIME CORRECTIONS MINOR T x y ts v pts n p tau w around x0 dx nx y0 dy ny X Y i j,
  nodes_for g t nd -> fny g = ny -> nodes_grid around x0 dx nx y0 dy ny nd -> framed fr (nlon nd) ->
  Forall2 (fun f pa => parts_for f t (Some pa) /\ file_grid nx ny f pa) files pas ->
  In (lower TIME) time_names -> (forall c, In c names -> a_known A c = true) -> List.length names = List.length files -> names <> [] ->
  let m := atlas_model t sc g files other names corr minor in
  elevations proj clock A B freq gam m true "bilinear" TIME CORRECTIONS false MINOR (Some T) x y ts = Ok v ->
  shows T x y ts v pts n tau w -> nth_error pts n = Some p -> placed fr (fst (proj p)) = X -> snd (proj p) = Y ->
  reached 1 around nx i -> reached 1 around nx (i + 1) -> (S j < ny)%nat ->
  between_nodes Heights x0 dx y0 dy X Y i j -> X = node_x Heights x0 dx i -> Y = node_y Heights y0 dy j ->
  let st := clock TIME tau in let co := corrected CORRECTIONS m in
  w = flagged (option_map (Rmult sc) (per_depth (AtlasNcSpec.velocity t) (depth_of nd j (column nx i))
        (height (a_f A (st_tide st, delta co st)) (argument A co (st_tide st) (delta co st)) names (map (fun pa => constant_of nd pa j (column nx i)) pas)))).
Proof.
  intros proj clock A B freq gam t sc fr g nd files pas other names corr minor TIME CORRECTIONS MINOR T x y ts v pts n p tau w around x0 dx nx y0 dy ny X Y i j
    Hnd Hny G Fr Hpas HT Hk Hl Nn m Ev Sh Hp Ex Ey Ri Ri1 Hj Bt Nx Ny st co.
  destruct (atlas_point proj clock A B freq gam other names corr minor TIME CORRECTIONS MINOR T x y ts HT Hk t sc g files v pts n p tau w Hl Ev Sh Hp) as (out & Eo & Lo & ->).
  pose proof (forall2_size _ _ _ Hpas) as Lp.
  fold m st co. f_equal. apply reported_height.
  - destruct pas; [destruct files; [destruct names; [congruence|discriminate]|discriminate]|discriminate].
  - rewrite map_length. congruence.
  - intros Hd z I. apply in_map_iff in I as (pa & <- & _). unfold constant_of. now rewrite Hd.
  - apply forall2_columns; [congruence|]. intros c pa Hc. destruct (forall2_pairs _ _ _ _ _ Hpas Hc) as (f & Hf & P1 & P2).
    assert (A0 : at_node Heights x0 dx y0 dy X Y i j).
    { split; left; [rewrite <- Nx|rewrite <- Ny]; unfold ExtractSpec.close; rewrite Rminus_eq_0, Rabs_R0; match goal with |- 0 <= _ + _ * Rabs ?v => pose proof (Rabs_pos v); lra end. }
    destruct (C71_node t sc fr g nd files (map proj pts) out c f pa n (proj p) around x0 dx nx y0 dy ny X Y i j) as (a & b & D & cs & r & _ & _ & _ & _ & Hab & _ & _ & _ & _ & O1 & _ & O2 & O3); auto.
    + now apply map_nth_error.
    + destruct (Hab Nx Ny) as [-> ->]. exists cs, r. auto.
Qed.
Print Assumptions C78_atlas_node.

Theorem C78_atlas_heights : forall proj clock A B freq gam t sc fr g nd files pas other names corr minor TIME CORRECTIONS MINOR T x y ts v pts n p tau w around x0 dx nx y0 dy ny X Y i j,
  nodes_for g t nd -> fny g = ny -> nodes_grid around x0 dx nx y0 dy ny nd -> framed fr (nlon nd) ->
  Forall2 (fun f pa => parts_for f t (Some pa) /\ file_grid nx ny f pa) files pas ->
  In (lower TIME) time_names -> (forall c, In c names -> a_known A c = true) -> List.length names = List.length files -> names <> [] ->
  let m := atlas_model t sc g files other names corr minor in
  elevations proj clock A B freq gam m true "bilinear" TIME CORRECTIONS false MINOR (Some T) x y ts = Ok v ->
  shows T x y ts v pts n tau w -> nth_error pts n = Some p -> placed fr (fst (proj p)) = X -> snd (proj p) = Y ->
  reached 1 around nx i -> reached 1 around nx (i + 1) -> (S j < ny)%nat ->
  between_nodes Heights x0 dx y0 dy X Y i j -> ~ at_node Heights x0 dx y0 dy X Y i j ->
  let at_ := fun j i => map (fun pa => constant_of nd pa j i) pas in
  (forall j' i', (j' = j \/ j' = S j) -> (i' = i \/ i' = i + 1)%Z -> all_or_none (at_ j' (column nx i'))) ->
  let st := clock TIME tau in let co := corrected CORRECTIONS m in
  w = flagged (option_map (Rmult sc) (per_depth (AtlasNcSpec.velocity t) (mean (corners Heights x0 dx y0 dy nx X Y i j (depth_of nd)))
        (mean (corners Heights x0 dx y0 dy nx X Y i j
          (fun j i => height (a_f A (st_tide st, delta co st)) (argument A co (st_tide st) (delta co st)) names (at_ j i)))))).
Proof.
  intros proj clock A B freq gam t sc fr g nd files pas other names corr minor TIME CORRECTIONS MINOR T x y ts v pts n p tau w around x0 dx nx y0 dy ny X Y i j
    Hnd Hny G Fr Hpas HT Hk Hl Nn m Ev Sh Hp Ex Ey Ri Ri1 Hj Bt NA at_ Hall st co.
  destruct (atlas_point proj clock A B freq gam other names corr minor TIME CORRECTIONS MINOR T x y ts HT Hk t sc g files v pts n p tau w Hl Ev Sh Hp) as (out & Eo & Lo & ->).
  pose proof (forall2_size _ _ _ Hpas) as Lp. fold m st co. f_equal.
  set (depth := mean (corners Heights x0 dx y0 dy nx X Y i j (depth_of nd))).
  assert (F : Forall2 (reported t sc depth) (map (fun pa => let z := corners Heights x0 dx y0 dy nx X Y i j (constant_of nd pa) in both (mean (part fst z)) (mean (part snd z))) pas)
    (map (fun c => nth n c None) (aconst out))).
  { apply forall2_columns; [congruence|]. intros c pa Hc. destruct (forall2_pairs _ _ _ _ _ Hpas Hc) as (f & Hf & P1 & P2).
    destruct (C71_cell t sc fr g nd files (map proj pts) out c f pa n (proj p) around x0 dx nx y0 dy ny X Y i j) as (D & cs & r & _ & _ & _ & _ & O1 & _ & O2 & O3); auto.
    - now apply map_nth_error.
    - exists cs, r. auto. }
  rewrite (reported_height t sc depth _ _ names _ _) with (4 := F).
  - do 2 f_equal. unfold corners. apply heights_mean; auto; try congruence; apply Hall; auto.
  - destruct pas; [destruct files; [destruct names; [congruence|discriminate]|discriminate]|discriminate].
  - rewrite map_length. congruence.
  - intros Hd z I. apply in_map_iff in I as (pa & <- & _). cbv zeta. unfold depth, mean in Hd. unfold mean. rewrite !weight_part.
    destruct (Req_EM_T (weight (corners Heights x0 dx y0 dy nx X Y i j (depth_of nd))) 0) as [W|]; [|discriminate].
    destruct Bt as (B1 & B2 & _).
    assert (P1 : 0 <= (node_x Heights x0 dx (i + 1) - X) * (node_y Heights y0 dy (S j) - Y)) by (apply Rmult_le_pos; lra).
    assert (P2 : 0 <= (X - node_x Heights x0 dx i) * (node_y Heights y0 dy (S j) - Y)) by (apply Rmult_le_pos; lra).
    assert (P3 : 0 <= (node_x Heights x0 dx (i + 1) - X) * (Y - node_y Heights y0 dy j)) by (apply Rmult_le_pos; lra).
    assert (P4 : 0 <= (X - node_x Heights x0 dx i) * (Y - node_y Heights y0 dy j)) by (apply Rmult_le_pos; lra).
    assert (W1 : weight (corners Heights x0 dx y0 dy nx X Y i j (constant_of nd pa)) = 0).
    { apply Rle_antisym; [rewrite <- W|]; unfold weight, corners, constant_of; cbn [map fold_right fst snd].
      - repeat apply Rplus_le_compat; try apply Rle_refl; (destruct (depth_of nd _ _) as [d|]; [destruct (number_of _ _ _); [apply Rle_refl|assumption]|apply Rle_refl]).
      - repeat apply Rplus_le_le_0_compat; try apply Rle_refl; (destruct (depth_of nd _ _); [destruct (number_of _ _ _); [assumption|apply Rle_refl]|apply Rle_refl]). }
    rewrite W1. destruct (Req_EM_T 0 0); [reflexivity|congruence].
Qed.
Print Assumptions C78_atlas_heights.
