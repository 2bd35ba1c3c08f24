(** C78 for the OTIS models: from the arrays of the files to the height of the tide. *)
From Coq Require Import String Reals Lra Lia List Bool ZArith Arith.
From Verif Require Import PyBase RBase StrBase MathModel GeoModel GridModel InterpModel ExtractModel ExtractSpec ExtractProofs ExtractProps ReadProps ReturnProps
  PredictModel PredictSpec PredictProps InferModel ComputeModel ComputeSpec
  ElevationModel ElevationSpec ElevationProofs2 ElevationProps.
Import ListNotations.
Open Scope R_scope.
Open Scope list_scope.

Lemma shows_asks {X} T x y ts (v : out X) pts n t w : shows T x y ts v pts n t w -> asks T x y ts pts /\ ts <> [].
Proof.
  intros [vs L -> -> E _ Et _|rs r k L -> -> _ _ Et _|P rs r k L G E _ _ Et _]; (split; [|intros ->; destruct n; try discriminate; destruct k; discriminate]).
  - now apply asks_drift.
  - now apply asks_series.
  - now apply (asks_grid _ _ _ _ _ P).
Qed.

(** the value of a point of a request, from the constants extracted there *)
Lemma request_row proj clock A B freq gam m METHOD TIME CORRECTIONS MINOR T x y ts pts v n p t w :
  In (lower TIME) time_names -> In (lower METHOD) method_names -> (forall c, In c (bm_names m) -> a_known A c = true) ->
  (forall ll rows, ll <> [] -> bm_extract m METHOD ll = Ok rows -> List.length rows = List.length ll /\ forall row, In row rows -> List.length row = List.length (bm_names m)) ->
  elevations proj clock A B freq gam m true METHOD TIME CORRECTIONS false MINOR (Some T) x y ts = Ok v ->
  shows T x y ts v pts n t w -> nth_error pts n = Some p ->
  exists rows row, bm_extract m METHOD (map proj pts) = Ok rows /\ nth_error rows n = Some row /\
    let st := clock TIME t in let corr := corrected CORRECTIONS m in
    w = flagged (cosines (a_f A (st_tide st, delta corr st)) (argument A corr (st_tide st) (delta corr st)) (bm_names m) row).
Proof.
  intros HT HM Hk Hl Ev Sh Hn. destruct (shows_asks _ _ _ _ _ _ _ _ _ Sh) as [HA Nt].
  assert (Np : pts <> []) by (intros ->; destruct n; discriminate).
  destruct (bm_extract m METHOD (map proj pts)) as [rows|e] eqn:Er; [|rewrite (C78_refused proj clock A B freq gam m METHOD TIME CORRECTIONS false MINOR T x y ts pts e HT HM HA Er) in Ev; discriminate].
  destruct (Hl (map proj pts) rows) as [L1 L2]; [destruct pts; [congruence|discriminate]|exact Er|]. rewrite map_length in L1.
  destruct (C78_request proj clock A B freq gam m METHOD TIME CORRECTIONS MINOR T x y ts pts rows HT HM Hk HA Np Nt Er L1 L2) as (v' & Ev' & _ & _ & V).
  rewrite Ev in Ev'. injection Ev' as <-. destruct (pos_of rows n) as [row Hrow]; [rewrite L1; apply nth_error_Some; congruence|].
  exists rows, row. split; [reflexivity|]. split; [exact Hrow|]. exact (V n t w row Sh Hrow).
Qed.

Lemma otis_rows fwd geo around me t k x0 dx nx y0 dy ny g hcs ll out :
  model_grid geo around x0 dx nx y0 dy ny g hcs -> kind_of t = Some k -> extract_constants fwd geo me t g hcs ll = Ok out ->
  List.length (map snd out) = List.length ll /\ forall row, In row (map snd out) -> List.length row = List.length hcs.
Proof.
  intros M Hk H. destruct (extract_inv0 _ _ _ _ _ _ _ _ _ _ _ _ _ _ _ _ M Hk H) as (xe & xi & yi & b & fs & qs & _ & _ & _ & _ & _ & Ef & _ & _ & Eb & L & V).
  pose proof (batch_len _ _ _ _ _ Eb) as L'. rewrite map_length in L'. rewrite map_length.
  split; [rewrite <- L'; exact L|].
  intros row I. apply in_map_iff in I as ([D cs] & <- & I). apply In_nth_error in I as [n Hn]. destruct (nth_error qs n) as [q|] eqn:Eq.
  - destruct (V n q Eq) as (D' & inv & cs' & O1 & _ & _ & O4). pose proof (eq_trans (eq_sym O1) Hn) as Q. injection Q as -> ->. cbn [snd]. rewrite (mapM_len _ _ _ O4). apply (mapM_len _ _ _ Ef).
  - apply nth_error_None in Eq. assert (n < List.length qs)%nat by (rewrite <- L; apply nth_error_Some; intros K; pose proof (eq_trans (eq_sym K) Hn); discriminate). lia.
Qed.

(** the height, or the velocity: the transport divided by the depth in hundreds *)
Definition per_depth (velocity : bool) (depth h : option R) : option R :=
  if velocity then match depth, h with Some d, Some h => Some (h / (d / 100)) | _, _ => None end else h.

Lemma returned_height vel depth f u names zs row : zs <> [] -> List.length zs = List.length names -> (depth = None -> forall z, In z zs -> z = None) ->
  Forall2 (returned vel depth) zs row -> cosines f u names row = per_depth vel depth (height f u names zs).
Proof.
  intros N L Hd F. destruct vel; cbn [per_depth].
  - destruct depth as [d|].
    + assert (D : Forall2 (derived (/ (d / 100))) zs row).
      { clear - F. induction F as [|z r zs row Hz F IH]; constructor; auto. destruct z as [z|]; [|exact Hz]. destruct Hz as (a & p & HA & ->). exists a, p. split; [exact HA|]. do 2 f_equal. unfold Rdiv. ring. }
      rewrite (cosines_height _ _ _ _ _ _ D). destruct (height f u names zs); [|reflexivity]. cbn. f_equal. unfold Rdiv. ring.
    + destruct zs as [|z zs]; [congruence|]. inversion F as [|? r ? row' Hz F']; subst. rewrite (Hd eq_refl z) in Hz by now left. cbn in Hz. subst r. destruct names; reflexivity.
  - assert (D : Forall2 (derived 1) zs row).
    { clear - F. induction F as [|z r zs row Hz F IH]; constructor; auto. destruct z as [z|]; [|exact Hz]. destruct Hz as (a & p & HA & ->). exists a, p. split; [exact HA|]. do 2 f_equal. ring. }
    rewrite (cosines_height _ _ _ _ _ _ D). destruct (height f u names zs); [|reflexivity]. cbn. f_equal. ring.
Qed.
Lemma forall2_tab {X Y Z} (P : Y -> Z -> Prop) (F : X -> Y) (l : list X) (r : list Z) : List.length r = List.length l ->
  (forall c a, nth_error l c = Some a -> exists b, nth_error r c = Some b /\ P (F a) b) -> Forall2 P (map F l) r.
Proof.
  revert r. induction l as [|a l IH]; intros [|b r] E H; try discriminate; [constructor|]. cbn [map]. constructor.
  - destruct (H 0%nat a eq_refl) as (b' & Hb & Hp). injection Hb as <-. exact Hp.
  - apply IH; [now injection E|]. intros c a' Ha. exact (H (S c) a' Ha).
Qed.

Section Otis.
  Variable proj : R * R -> R * R.
  Variable clock : string -> R -> stamp.
  Variable A : tide_args.
  Variable B : minor_args.
  Variable freq : string -> R.
  Variable gam : R -> R.
  Variable fwd : R * R -> R * R.
  Variable geo around : bool.
  Variable t : variable.
  Variable k : kind.
  Variables (x0 dx : R) (nx : nat) (y0 dy : R) (ny : nat).
  Variable g : grid.
  Variable hcs : list field.
  Variable other : string -> list (R * R) -> res (list (list (option (R * R)))).
  Variable names : list string.
  Variable corr : string.
  Variable minor : option (list string).
  Variable TIME : string.
  Variable CORRECTIONS : option string.
  Variable MINOR : option (list string).
  Variable T : string.
  Variables x y : coords.
  Variable ts : list R.
  Notation m := (otis_model fwd geo t g hcs other names corr minor).
  Notation run := (elevations proj clock A B freq gam m true "bilinear" TIME CORRECTIONS false MINOR (Some T) x y ts).

  Lemma otis_point v pts n p tau w :
    model_grid geo around x0 dx nx y0 dy ny g hcs -> kind_of t = Some k ->
    In (lower TIME) time_names -> (forall c, In c names -> a_known A c = true) -> List.length names = List.length hcs ->
    run = Ok v -> shows T x y ts v pts n tau w -> nth_error pts n = Some p ->
    exists out D cs, extract_constants fwd geo Bilinear t g hcs (map proj pts) = Ok out /\ nth_error out n = Some (D, cs) /\
      let st := clock TIME tau in let co := corrected CORRECTIONS m in
      w = flagged (cosines (a_f A (st_tide st, delta co st)) (argument A co (st_tide st) (delta co st)) names cs).
  Proof.
    intros M Hk HT Hn Hl Ev Sh Hp.
    destruct (request_row proj clock A B freq gam m "bilinear" TIME CORRECTIONS MINOR T x y ts pts v n p tau w HT) as (rows & row & Er & Erow & Ew); auto.
    - cbn. tauto.
    - intros ll rows _ H. cbn [bm_extract] in H. unfold otis_model, by_method in H. cbn [bm_extract method_of String.eqb Ascii.eqb Bool.eqb] in H.
      change (method_of "bilinear") with (Some Bilinear) in H. cbv beta iota in H.
      destruct (extract_constants fwd geo Bilinear t g hcs ll) as [out|] eqn:E; [|discriminate]. cbn [bind] in H. apply Ok_inj in H as <-.
      destruct (otis_rows _ _ _ _ _ _ _ _ _ _ _ _ _ _ _ _ M Hk E) as [L1 L2]. split; [exact L1|]. intros row I. rewrite (L2 row I). now symmetry.
    - unfold otis_model, by_method in Er. cbn [bm_extract] in Er. change (method_of "bilinear") with (Some Bilinear) in Er. cbv beta iota in Er.
      destruct (extract_constants fwd geo Bilinear t g hcs (map proj pts)) as [out|] eqn:E; [|discriminate]. cbn [bind] in Er. apply Ok_inj in Er as <-.
      assert (Q : exists r, nth_error out n = Some r /\ snd r = row).
      { clear - Erow. revert n Erow. induction out as [|a l IH]; intros [|n] Erow; try discriminate; [injection Erow as <-; exists a; split; reflexivity|exact (IH n Erow)]. }
      destruct Q as ([D cs] & Eo & <-).
      exists out, D, cs. split; [reflexivity|]. split; [exact Eo|exact Ew].
  Qed.
End Otis.

(** At a node of the grid the height is the sum over the constituents of the real part
    of f z exp(i u), with the complex constants z of the files at that node; none where
    the node is land or a constant is missing (or exactly zero).  Velocities: divided by
    the depth at that node. *)
Theorem C78_node : forall proj clock A B freq gam fwd geo around t k x0 dx nx y0 dy ny g hcs other names corr minor TIME CORRECTIONS MINOR T x y ts v pts n p tau w X Y i j,
  model_grid geo around x0 dx nx y0 dy ny g hcs -> kind_of t = Some k ->
  In (lower TIME) time_names -> (forall c, In c names -> a_known A c = true) -> List.length names = List.length hcs -> names <> [] ->
  let m := otis_model fwd geo t g hcs other names corr minor in
  elevations proj clock A B freq gam m true "bilinear" TIME CORRECTIONS false MINOR (Some T) x y ts = Ok v ->
  shows T x y ts v pts n tau w -> nth_error pts n = Some p ->
  convention geo x0 (x0 + INR (nx - 1) * dx) (map (fun p => fst (fwd (proj p))) pts) (fst (fwd (proj p))) X -> snd (fwd (proj p)) = Y ->
  reach around x0 dx nx X -> in_rows y0 dy ny (X, Y) ->
  columns around nx i -> columns around nx (i + 1) -> (S j < ny)%nat ->
  between_nodes k x0 dx y0 dy X Y i j -> X = node_x k x0 dx i -> Y = node_y k y0 dy j ->
  (k = Zonal -> around = true \/ (0 < i)%Z) ->
  let depth := water (entry 0 (ghz g)) (entry 0%Z (gmz g)) around nx k j (column nx i) in
  let st := clock TIME tau in let co := corrected CORRECTIONS m in
  w = flagged (per_depth (velocity t) depth
        (height (a_f A (st_tide st, delta co st)) (argument A co (st_tide st) (delta co st)) names
           (map (fun hc => tide depth (entry (None, true) hc j (column nx i))) hcs))).
Proof.
  intros proj clock A B freq gam fwd geo around t k x0 dx nx y0 dy ny g hcs other names corr minor TIME CORRECTIONS MINOR T x y ts v pts n p tau w X Y i j
    M Hk HT Hn Hl Nn m Ev Sh Hp Hc Hy Hr Hrow Ci Ci1 Hj Bt Ex Ey HZ depth st co.
  destruct (otis_point proj clock A B freq gam fwd geo around t k x0 dx nx y0 dy ny g hcs other names corr minor TIME CORRECTIONS MINOR T x y ts v pts n p tau w M Hk HT Hn Hl Ev Sh Hp)
    as (out & D & cs & Eo & En & Ew).
  assert (A0 : at_node k x0 dx y0 dy X Y i j).
  { split; left; [rewrite <- Ex|rewrite <- Ey]; unfold ExtractSpec.close; rewrite Rminus_eq_0, Rabs_R0; match goal with |- 0 <= _ + _ * Rabs ?v => pose proof (Rabs_pos v); lra end. }
  destruct (C68_node fwd geo around t k x0 dx nx y0 dy ny g hcs (map proj pts) out n (proj p) X Y i j M Hk Eo) as (a & b & cs' & _ & _ & _ & _ & Hab & O & Lc & V); auto.
  { now apply map_nth_error. } { now rewrite map_map. }
  destruct (Hab Ex Ey) as [-> ->]. clear Hab. fold depth in O, V. pose proof (eq_trans (eq_sym O) En) as Q. injection Q as <- ->.
  rewrite Ew. f_equal. apply returned_height.
  - destruct hcs; [destruct names; [congruence|discriminate]|discriminate].
  - rewrite map_length. now symmetry.
  - intros -> z I. apply in_map_iff in I as (hc & <- & _). reflexivity.
  - apply forall2_tab; [exact Lc|]. intros c hc Hcn. destruct (V c hc Hcn) as (r & Er & Hret). exists r. split; assumption.
Qed.
Print Assumptions C78_node.

(** Within a cell: the same sum with the weighted means of the constants of the four
    nodes, each over the nodes where there is one *)
Theorem C78_constants : forall proj clock A B freq gam fwd geo around t k x0 dx nx y0 dy ny g hcs other names corr minor TIME CORRECTIONS MINOR T x y ts v pts n p tau w X Y i j,
  model_grid geo around x0 dx nx y0 dy ny g hcs -> kind_of t = Some k ->
  In (lower TIME) time_names -> (forall c, In c names -> a_known A c = true) -> List.length names = List.length hcs -> names <> [] ->
  let m := otis_model fwd geo t g hcs other names corr minor in
  elevations proj clock A B freq gam m true "bilinear" TIME CORRECTIONS false MINOR (Some T) x y ts = Ok v ->
  shows T x y ts v pts n tau w -> nth_error pts n = Some p ->
  convention geo x0 (x0 + INR (nx - 1) * dx) (map (fun p => fst (fwd (proj p))) pts) (fst (fwd (proj p))) X -> snd (fwd (proj p)) = Y ->
  reach around x0 dx nx X -> in_rows y0 dy ny (X, Y) ->
  columns around nx i -> columns around nx (i + 1) -> (S j < ny)%nat ->
  between_nodes k x0 dx y0 dy X Y i j -> ~ at_node k x0 dx y0 dy X Y i j ->
  (k = Zonal -> around = true \/ (0 < i)%Z) ->
  let wet := water (entry 0 (ghz g)) (entry 0%Z (gmz g)) around nx k in
  let depth := mean (corners k x0 dx y0 dy nx X Y i j wet) in
  let st := clock TIME tau in let co := corrected CORRECTIONS m in
  w = flagged (per_depth (velocity t) depth
        (height (a_f A (st_tide st, delta co st)) (argument A co (st_tide st) (delta co st)) names
           (map (fun hc => let z := corners k x0 dx y0 dy nx X Y i j (fun j i => tide (wet j i) (entry (None, true) hc j i)) in
                           both (mean (part fst z)) (mean (part snd z))) hcs))).
Proof.
  intros proj clock A B freq gam fwd geo around t k x0 dx nx y0 dy ny g hcs other names corr minor TIME CORRECTIONS MINOR T x y ts v pts n p tau w X Y i j
    M Hk HT Hn Hl Nn m Ev Sh Hp Hc Hy Hr Hrow Ci Ci1 Hj Bt NA HZ wet depth st co.
  destruct (otis_point proj clock A B freq gam fwd geo around t k x0 dx nx y0 dy ny g hcs other names corr minor TIME CORRECTIONS MINOR T x y ts v pts n p tau w M Hk HT Hn Hl Ev Sh Hp)
    as (out & D & cs & Eo & En & Ew).
  destruct (C68_cell_partial fwd geo around t k x0 dx nx y0 dy ny g hcs (map proj pts) out n (proj p) X Y i j M Hk Eo) as (cs' & O & Lc & V); auto.
  { now apply map_nth_error. } { now rewrite map_map. }
  fold wet in O, V. fold depth in O, V. pose proof (eq_trans (eq_sym O) En) as Q. injection Q as <- ->.
  rewrite Ew. f_equal. apply returned_height.
  - destruct hcs; [destruct names; [congruence|discriminate]|discriminate].
  - rewrite map_length. now symmetry.
  - intros Hd z I. apply in_map_iff in I as (hc & <- & _). cbv zeta. unfold depth, mean in Hd. unfold mean. rewrite !weight_part.
    destruct (Req_EM_T (weight (corners k x0 dx y0 dy nx X Y i j wet)) 0) as [W|]; [|discriminate].
    destruct Bt as (B1 & B2 & _).
    assert (P1 : 0 <= (node_x k x0 dx (i + 1) - X) * (node_y k y0 dy (S j) - Y)) by (apply Rmult_le_pos; lra).
    assert (P2 : 0 <= (X - node_x k x0 dx i) * (node_y k y0 dy (S j) - Y)) by (apply Rmult_le_pos; lra).
    assert (P3 : 0 <= (node_x k x0 dx (i + 1) - X) * (Y - node_y k y0 dy j)) by (apply Rmult_le_pos; lra).
    assert (P4 : 0 <= (X - node_x k x0 dx i) * (Y - node_y k y0 dy j)) by (apply Rmult_le_pos; lra).
    assert (W1 : weight (corners k x0 dx y0 dy nx X Y i j (fun j i => tide (wet j i) (entry (None, true) hc j i))) = 0).
    { apply Rle_antisym; [rewrite <- W|]; unfold weight, corners; cbn [map fold_right fst snd].
      - repeat apply Rplus_le_compat; try apply Rle_refl; (destruct (wet _ _) as [d|]; [destruct (tide _ _); [apply Rle_refl|assumption]|apply Rle_refl]).
      - repeat apply Rplus_le_le_0_compat; try apply Rle_refl; (destruct (tide _ _); [assumption|apply Rle_refl]). }
    rewrite W1. destruct (Req_EM_T 0 0); [reflexivity|congruence].
  - apply forall2_tab; [exact Lc|]. intros c hc Hcn. destruct (V c hc Hcn) as (r & Er & Hret). exists r. split; assumption.
Qed.
Print Assumptions C78_constants.

(** If each of the four nodes has all of the constants or none, the height is the
    weighted mean of the heights at the nodes *)
Theorem C78_heights : forall proj clock A B freq gam fwd geo around t k x0 dx nx y0 dy ny g hcs other names corr minor TIME CORRECTIONS MINOR T x y ts v pts n p tau w X Y i j,
  model_grid geo around x0 dx nx y0 dy ny g hcs -> kind_of t = Some k ->
  In (lower TIME) time_names -> (forall c, In c names -> a_known A c = true) -> List.length names = List.length hcs -> names <> [] ->
  let m := otis_model fwd geo t g hcs other names corr minor in
  elevations proj clock A B freq gam m true "bilinear" TIME CORRECTIONS false MINOR (Some T) x y ts = Ok v ->
  shows T x y ts v pts n tau w -> nth_error pts n = Some p ->
  convention geo x0 (x0 + INR (nx - 1) * dx) (map (fun p => fst (fwd (proj p))) pts) (fst (fwd (proj p))) X -> snd (fwd (proj p)) = Y ->
  reach around x0 dx nx X -> in_rows y0 dy ny (X, Y) ->
  columns around nx i -> columns around nx (i + 1) -> (S j < ny)%nat ->
  between_nodes k x0 dx y0 dy X Y i j -> ~ at_node k x0 dx y0 dy X Y i j ->
  (k = Zonal -> around = true \/ (0 < i)%Z) ->
  let wet := water (entry 0 (ghz g)) (entry 0%Z (gmz g)) around nx k in
  let at_ := fun j i => map (fun hc => tide (wet j i) (entry (None, true) hc j i)) hcs in
  (forall j' i', (j' = j \/ j' = S j) -> (i' = i \/ i' = i + 1)%Z -> all_or_none (at_ j' (column nx i'))) ->
  let depth := mean (corners k x0 dx y0 dy nx X Y i j wet) in
  let st := clock TIME tau in let co := corrected CORRECTIONS m in
  w = flagged (per_depth (velocity t) depth
        (mean (corners k x0 dx y0 dy nx X Y i j
           (fun j i => height (a_f A (st_tide st, delta co st)) (argument A co (st_tide st) (delta co st)) names (at_ j i))))).
Proof.
  intros proj clock A B freq gam fwd geo around t k x0 dx nx y0 dy ny g hcs other names corr minor TIME CORRECTIONS MINOR T x y ts v pts n p tau w X Y i j
    M Hk HT Hn Hl Nn m Ev Sh Hp Hc Hy Hr Hrow Ci Ci1 Hj Bt NA HZ wet at_ Hall depth st co.
  rewrite (C78_constants proj clock A B freq gam fwd geo around t k x0 dx nx y0 dy ny g hcs other names corr minor TIME CORRECTIONS MINOR T x y ts v pts n p tau w X Y i j
    M Hk HT Hn Hl Nn Ev Sh Hp Hc Hy Hr Hrow Ci Ci1 Hj Bt NA HZ). fold m st co wet. do 2 f_equal.
  set (L := [((node_x k x0 dx (i + 1) - X) * (node_y k y0 dy (S j) - Y), at_ j (column nx i)); ((X - node_x k x0 dx i) * (node_y k y0 dy (S j) - Y), at_ j (column nx (i + 1)));
    ((node_x k x0 dx (i + 1) - X) * (Y - node_y k y0 dy j), at_ (S j) (column nx i)); ((X - node_x k x0 dx i) * (Y - node_y k y0 dy j), at_ (S j) (column nx (i + 1)))]).
  set (f := a_f A (st_tide st, delta co st)). set (u := argument A co (st_tide st) (delta co st)).
  transitivity (mean (whole f u names L)); [|reflexivity].
  rewrite <- (height_mean f u names L Nn).
  - f_equal. rewrite Hl. clear - L. 
    transitivity (map (fun c => both (mean (part fst (part_of c L))) (mean (part snd (part_of c L)))) (seq 0 (List.length hcs))); [|reflexivity].
    apply nth_ext with (d := None) (d' := None); [now rewrite !map_length, seq_length|].
    intros c Hc. rewrite map_length in Hc. rewrite nth_tabled by exact Hc. destruct (nth_error hcs c) as [hc|] eqn:E; [|apply nth_error_None in E; exfalso; apply (Nat.lt_irrefl c); eapply Nat.lt_le_trans; [exact Hc|exact E]].
    match goal with |- nth c (map ?F hcs) None = _ => rewrite (nth_error_nth (map F hcs) c None (map_nth_error F c hcs E)) end. cbv zeta.
    assert (Q : forall j i, nth c (at_ j i) None = tide (wet j i) (entry (None, true) hc j i)).
    { intros j' i'. unfold at_. apply nth_error_nth. exact (map_nth_error (fun hc : field => tide (wet j' i') (entry (None, true) hc j' i')) c hcs E). }
    unfold L, part_of. cbn [map fst snd]. rewrite !Q. reflexivity.
  - intros q [<-|[<-|[<-|[<-|[]]]]]; cbn [snd]; (split; [apply Hall; auto|unfold at_; rewrite map_length; now symmetry]).
Qed.
Print Assumptions C78_heights.

(** ** Every request returns, unless a point is exactly on the last column of nodes *)
Theorem C78_returns : forall proj clock A B freq gam fwd geo around t k x0 dx nx y0 dy ny g hcs other names corr minor TIME CORRECTIONS MINOR T x y ts pts,
  model_grid geo around x0 dx nx y0 dy ny g hcs -> kind_of t = Some k ->
  In (lower TIME) time_names -> (forall c, In c names -> a_known A c = true) -> List.length names = List.length hcs ->
  asks T x y ts pts -> pts <> [] -> ts <> [] ->
  (forall p X, In p pts -> convention geo x0 (x0 + INR (nx - 1) * dx) (map (fun p => fst (fwd (proj p))) pts) (fst (fwd (proj p))) X ->
    X <> node_x k x0 dx (last_column around nx)) ->
  exists v, elevations proj clock A B freq gam (otis_model fwd geo t g hcs other names corr minor) true "bilinear" TIME CORRECTIONS false MINOR (Some T) x y ts = Ok v /\ arranged T x y ts pts v /\
    forall n tau, (n < List.length pts)%nat -> paired T ts n tau -> exists w, shows T x y ts v pts n tau w.
Proof.
  intros proj clock A B freq gam fwd geo around t k x0 dx nx y0 dy ny g hcs other names corr minor TIME CORRECTIONS MINOR T x y ts pts M Hk HT Hn Hl HA Np Nt Hc.
  destruct (C68_returns fwd geo around Bilinear t k x0 dx nx y0 dy ny g hcs (map proj pts) M Hk) as (out & Eo & _).
  { destruct pts; [congruence|discriminate]. }
  { intros _ p X I C. apply in_map_iff in I as (q & <- & I). rewrite map_map in C. eauto. }
  destruct (otis_rows _ _ _ _ _ _ _ _ _ _ _ _ _ _ _ _ M Hk Eo) as [L1 L2]. rewrite map_length in L1 at 1. rewrite (map_length proj) in L1.
  destruct (C78_request proj clock A B freq gam (otis_model fwd geo t g hcs other names corr minor) "bilinear" TIME CORRECTIONS MINOR T x y ts pts (map snd out)) as (v & Ev & Ha & Hv & _); auto.
  - cbn. tauto.
  - unfold otis_model, by_method. cbn [bm_extract]. change (method_of "bilinear") with (Some Bilinear). cbv beta iota. rewrite Eo. reflexivity.
  - rewrite map_length. exact L1.
  - intros row I. cbn [bm_names otis_model]. rewrite (L2 row I). now symmetry.
  - eauto.
Qed.
Print Assumptions C78_returns.
Theorem C78_last_column_refuted : forall proj clock A B freq gam fwd geo around t k x0 dx nx y0 dy ny g hcs other names corr minor TIME CORRECTIONS INFER MINOR T x y ts pts p,
  model_grid geo around x0 dx nx y0 dy ny g hcs -> kind_of t = Some k -> In (lower TIME) time_names -> asks T x y ts pts -> In p pts ->
  convention geo x0 (x0 + INR (nx - 1) * dx) (map (fun p => fst (fwd (proj p))) pts) (fst (fwd (proj p))) (node_x k x0 dx (last_column around nx)) ->
  node_y k y0 dy 0 < snd (fwd (proj p)) < node_y k y0 dy (ny - 1) ->
  exists e, elevations proj clock A B freq gam (otis_model fwd geo t g hcs other names corr minor) true "bilinear" TIME CORRECTIONS INFER MINOR (Some T) x y ts = Err e.
Proof.
  intros proj clock A B freq gam fwd geo around t k x0 dx nx y0 dy ny g hcs other names corr minor TIME CORRECTIONS INFER MINOR T x y ts pts p M Hk HT HA Hp C Hy.
  destruct (C68_last_column_refuted fwd geo around t k x0 dx nx y0 dy ny g hcs (map proj pts) (proj p) M Hk) as (e & Ee); auto; [now apply in_map|now rewrite map_map|].
  exists e. apply (C78_refused proj clock A B freq gam _ "bilinear" TIME CORRECTIONS INFER MINOR T x y ts pts e HT); auto; [cbn; tauto|].
  unfold otis_model, by_method. cbn [bm_extract]. change (method_of "bilinear") with (Some Bilinear). cbv beta iota. rewrite Ee. reflexivity.
Qed.
Print Assumptions C78_last_column_refuted.

Lemma all_gone f u names cs : names <> [] -> List.length cs = List.length names -> (forall c r, nth_error cs c = Some r -> r = None) -> cosines f u names cs = None.
Proof. intros N L H. destruct names; [congruence|]. destruct cs as [|r cs]; [discriminate|]. rewrite (H 0%nat r eq_refl). reflexivity. Qed.
(** ** Outside of the model every value is masked *)
Theorem C78_outside : forall proj clock A B freq gam fwd geo around t k x0 dx nx y0 dy ny g hcs other names corr minor TIME CORRECTIONS MINOR T x y ts v pts n p tau w X,
  model_grid geo around x0 dx nx y0 dy ny g hcs -> kind_of t = Some k ->
  In (lower TIME) time_names -> (forall c, In c names -> a_known A c = true) -> List.length names = List.length hcs -> names <> [] ->
  elevations proj clock A B freq gam (otis_model fwd geo t g hcs other names corr minor) true "bilinear" TIME CORRECTIONS false MINOR (Some T) x y ts = Ok v ->
  shows T x y ts v pts n tau w -> nth_error pts n = Some p ->
  convention geo x0 (x0 + INR (nx - 1) * dx) (map (fun p => fst (fwd (proj p))) pts) (fst (fwd (proj p))) X ->
  ~ in_rows y0 dy ny (fwd (proj p)) \/ ~ reach around x0 dx nx X -> w = (None, true).
Proof.
  intros proj clock A B freq gam fwd geo around t k x0 dx nx y0 dy ny g hcs other names corr minor TIME CORRECTIONS MINOR T x y ts v pts n p tau w X
    M Hk HT Hn Hl Nn Ev Sh Hp Hc Ho.
  destruct (otis_point proj clock A B freq gam fwd geo around t k x0 dx nx y0 dy ny g hcs other names corr minor TIME CORRECTIONS MINOR T x y ts v pts n p tau w M Hk HT Hn Hl Ev Sh Hp)
    as (out & D & cs & Eo & En & Ew).
  destruct (C68_outside fwd geo around Bilinear t k x0 dx nx y0 dy ny g hcs (map proj pts) out n (proj p) X M Hk Eo) as (D' & cs' & O & L & V); auto.
  { now apply map_nth_error. } { now rewrite map_map. }
  pose proof (eq_trans (eq_sym O) En) as Q. injection Q as -> ->. rewrite Ew. rewrite all_gone; [reflexivity|exact Nn|rewrite L; now symmetry|exact V].
Qed.
Print Assumptions C78_outside.

(** ** The heights of a point depend on the other points of the request: in a regional
    model of eastern longitudes one point beyond its eastern edge masks all of them *)
Theorem C78_points_refuted : forall proj clock A B freq gam fwd t k x0 dx nx y0 dy ny g hcs other names corr minor TIME CORRECTIONS MINOR T x y ts v pts n tau w far,
  model_grid true false x0 dx nx y0 dy ny g hcs -> kind_of t = Some k -> 180 < x0 -> x0 + INR (nx - 1) * dx < 540 ->
  In (lower TIME) time_names -> (forall c, In c names -> a_known A c = true) -> List.length names = List.length hcs -> names <> [] ->
  (forall p, In p pts -> 0 <= fst (fwd (proj p)) < 540) -> In far pts -> x0 + INR (nx - 1) * dx < fst (fwd (proj far)) ->
  elevations proj clock A B freq gam (otis_model fwd true t g hcs other names corr minor) true "bilinear" TIME CORRECTIONS false MINOR (Some T) x y ts = Ok v ->
  (n < List.length pts)%nat -> shows T x y ts v pts n tau w -> w = (None, true).
Proof.
  intros proj clock A B freq gam fwd t k x0 dx nx y0 dy ny g hcs other names corr minor TIME CORRECTIONS MINOR T x y ts v pts n tau w far
    M Hk Hx0 Hhi HT Hn Hl Nn Hp Hf Hfar Ev Hlt Sh. destruct (pos_of pts n Hlt) as [p Ep].
  destruct (otis_point proj clock A B freq gam fwd true false t k x0 dx nx y0 dy ny g hcs other names corr minor TIME CORRECTIONS MINOR T x y ts v pts n p tau w M Hk HT Hn Hl Ev Sh Ep)
    as (out & D & cs & Eo & En & Ew).
  destruct (C68_points_refuted fwd Bilinear t k x0 dx nx y0 dy ny g hcs (map proj pts) out (proj far) M Hk Hx0 Hhi) with (n := n) (p := proj p) as (D' & cs' & O & V); auto.
  { intros q I. apply in_map_iff in I as (q' & <- & I). auto. } { now apply in_map. } { now apply map_nth_error. }
  destruct (otis_rows _ _ _ _ _ _ _ _ _ _ _ _ _ _ _ _ M Hk Eo) as [_ L2].
  pose proof (eq_trans (eq_sym O) En) as Q. injection Q as -> ->. rewrite Ew. rewrite all_gone; [reflexivity|exact Nn| |exact V].
  rewrite Hl. apply L2. apply nth_error_In in En. apply (in_map snd) in En. exact En.
Qed.
Print Assumptions C78_points_refuted.
