(** C84: extrapolation from cropped models. *)
From Coq Require Import Reals List Bool Arith ZArith Lra Lia.
From Verif Require Import PyBase RBase MathModel GeoModel ConvertProps GridModel GridProofs InterpModel InterpProps ExtrapProps ExtractModel ExtractSpec NodeProps ExtractProofs ExtractProps SplineProps ReturnProps MergeSpec MergeProps SeriesModel SeriesSpec SeriesProofs SeriesProps SeriesProps2 SeriesProps3 RegularModel RegularSpec RegularProofs RegularProps RegularProps2 CropModel CropSpec CropProofs CropProofs2 CropProps CropProps2 CropProps3 CropProps4 ShoreModel ShoreSpec ShoreProofs ShoreProps.
Import ListNotations.
Open Scope R_scope.

Lemma fill_cropped_nth src w sc b buffer ex pts : some_limit b -> forall files out, fill_files src w sc b buffer ex files pts = Ok out ->
  forall c s, nth_error files c = Some s -> exists d t e cs, spacing (slon s) = Ok d /\
    crop_sheet b (buffer_of buffer (match src with FES => d | GOT => Rabs d end)) s = Ok t /\ extend_cut src (match src with FES => d | GOT => Rabs d end) t = Ok e /\
    file_values src w sc ex e pts = Ok cs /\ nth_error out c = Some cs.
Proof.
  intros Hb. induction files as [|s files IH]; intros out H c s' Hc.
  - destruct c; discriminate.
  - cbn [fill_files] in H. rewrite any_limit_t in H by auto. destruct (spacing (slon s)) as [d|] eqn:Ed; [|discriminate]. cbn [bind] in H.
    match type of H with bind ?x _ = _ => destruct x as [t|] eqn:Et; [|discriminate] end. cbn [bind] in H.
    match type of H with bind ?x _ = _ => destruct x as [e|] eqn:Ee; [|discriminate] end. cbn [bind] in H.
    destruct (file_values src w sc ex e pts) as [cs|] eqn:Ec; [|discriminate]. cbn [bind] in H.
    destruct (fill_files src w sc b buffer ex files pts) as [out'|] eqn:Eo; [|discriminate]. cbn [bind] in H. apply Ok_inj in H as <-.
    destruct c as [|c]; cbn [nth_error] in *; [|now apply (IH out' eq_refl)].
    injection Hc as <-. exists d, t, e, cs. auto.
Qed.
Lemma fill_cropped_inv src w sc bounds buffer ex b files pts out c s : for_points bounds pts b -> some_limit b -> extract_options src w sc true bounds buffer ex files pts = Ok out ->
  nth_error files c = Some s -> exists d t e cs, spacing (slon s) = Ok d /\
    crop_sheet b (buffer_of buffer (match src with FES => d | GOT => Rabs d end)) s = Ok t /\ extend_cut src (match src with FES => d | GOT => Rabs d end) t = Ok e /\
    file_values src w sc ex e pts = Ok cs /\ nth_error out c = Some cs.
Proof.
  intros Hb Sb H Hc. unfold extract_options in H.
  destruct (amin (map fst pts)) as [xl|] eqn:E1; [|discriminate]. cbn [bind] in H. destruct (amax (map fst pts)) as [xh|] eqn:E2; [|discriminate]. cbn [bind] in H.
  destruct (amin (map snd pts)) as [yl|] eqn:E3; [|discriminate]. cbn [bind] in H. destruct (amax (map snd pts)) as [yh|] eqn:E4; [|discriminate]. cbn [bind] in H.
  replace (match bounds with Some b => b | None => Limits xl xh yl yh end) with b in H.
  - now apply (fill_cropped_nth src w sc b buffer ex pts Sb files out H).
  - unfold for_points in Hb. destruct bounds; auto. destruct Hb as [B1 B2]. apply extremes_min in B1 as [B1 B1']. apply extremes_min in B2 as [B2 B2'].
    rewrite B1 in E1. rewrite B1' in E2. rewrite B2 in E3. rewrite B2' in E4. apply Ok_inj in E1, E2, E3, E4. destruct b; cbn in *. now subst.
Qed.
Lemma not_around_less dx nx na : INR nx * dx <= 360 -> 1 / 200 < dx -> (na < nx)%nat -> (1 <= na)%nat -> isclose (INR (na - 1) * dx) (360 - dx) = false.
Proof.
  intros E Hd L1 L2. apply not_true_is_false. intros K. apply isclose_close in K. unfold ExtractSpec.close in K.
  assert (B : INR na + 1 <= INR nx) by (rewrite <- S_INR; apply le_INR; lia). rewrite minus_INR in K by lia. cbn [INR] in K.
  assert (T : (INR na - 1) * dx <= 360 - 2 * dx) by nra. assert (B2 : 2 <= INR nx) by (apply (le_INR 2); lia).
  rewrite (Rabs_left1 ((INR na - 1) * dx - (360 - dx))) in K by lra. rewrite (Rabs_pos_eq (360 - dx)) in K by nra. nra.
Qed.
(** a point beyond the columns and rows that are kept *)
Definition beyond_kept (b : limits) (m : R) (src : series) (around : bool) (x0 dx : R) (nx : nat) (y0 dy : R) (ny : nat) (f : Z) (x y : R) : Prop :=
  (forall k, column_available b m src around x0 dx nx f k -> x < node_x Heights x0 dx k) \/
  (forall k, column_available b m src around x0 dx nx f k -> node_x Heights x0 dx k < x) \/
  (forall k, (k < ny)%nat -> row_stays b m y0 dy k -> y < node_y Heights y0 dy k) \/
  (forall k, (k < ny)%nat -> row_stays b m y0 dy k -> node_y Heights y0 dy k < y).
(** the nodes that are kept *)
Definition kept_node (b : limits) (m x0 dx : R) (nx : nat) (y0 dy : R) (ny : nat) (f : Z) (j : nat) (i : Z) : Prop :=
  (j < ny)%nat /\ row_stays b m y0 dy j /\ (f <= i < f + Z.of_nat nx)%Z /\ stays (x_min b) (x_max b) m (node_x Heights x0 dx i).
Theorem C84_cropped : forall src w sc bounds buffer cutoff b m files pts out c s n x y around x0 dx nx y0 dy ny f i j,
  match cutoff with Some d => 0 <= d | None => True end ->
  extract_options src w sc true bounds buffer (Some cutoff) files pts = Ok out ->
  for_points bounds pts b -> some_limit b -> margin buffer dx m ->
  nth_error files c = Some s -> sheet_grid around x0 dx nx y0 dy ny s -> INR nx * dx <= 360 -> w = Quick Bilinear \/ numbers ny nx s ->
  window x0 dx nx (x_min b) (x_max b) f -> 1 / 200 < dx -> f = 0%Z \/ around = true ->
  nth_error pts n = Some (x, y) ->
  column_available b m src around x0 dx nx f i -> column_available b m src around x0 dx nx f (i + 1) ->
  (S j < ny)%nat -> row_stays b m y0 dy j -> row_stays b m y0 dy (S j) ->
  let z := fun j i => valid (entry (None, true) (shc s) j (column nx i)) in
  let kept := kept_node b m x0 dx nx y0 dy ny f in
  exists out0 cs0 cs r0 r,
    extract_cropped src w sc bounds buffer files pts = Ok out0 /\
    nth_error out0 c = Some cs0 /\ nth_error cs0 n = Some r0 /\ nth_error out c = Some cs /\ nth_error cs n = Some r /\
    (r0 <> None -> r = r0) /\
    (src = FES -> beyond_kept b m src around x0 dx nx y0 dy ny f x y -> r = None) /\
    (src = GOT \/ ~ beyond_kept b m src around x0 dx nx y0 dy ny f x y -> r0 = None ->
       (exists j i, nearest_kept kept cutoff x0 dx y0 dy z (x, y) j i /\ scaled sc (z j i) r) \/
       (~ exists j i, nearby_kept kept cutoff x0 dx y0 dy z (x, y) j i) /\ r = None).
Proof.
  intros src w sc bounds buffer cutoff b m files pts out c s n x y around x0 dx nx y0 dy ny f i j Hcut H Hb Sb Hm Hc G Hw Nw W Hd Hf Hn Ai Ai1 Hj Rj Rj1 z kept.
  destruct (options_both src w sc true bounds buffer cutoff files pts) as [(o & out0 & E & E0)|(e & E & _)]; [|congruence]. rewrite H in E. apply Ok_inj in E as <-.
  destruct (fill_cropped_inv _ _ _ _ _ _ _ _ _ _ _ _ Hb Sb H Hc) as (d & u & e & cs & D1 & D2 & D3 & D4 & D5).
  destruct (fill_cropped_inv _ _ _ _ _ _ _ _ _ _ _ _ Hb Sb E0 Hc) as (d' & u' & e' & cs0 & D1' & D2' & D3' & D4' & D5').
  rewrite D1 in D1'. apply Ok_inj in D1' as <-. rewrite D2 in D2'. apply Ok_inj in D2' as <-. rewrite D3 in D3'. apply Ok_inj in D3' as <-. rewrite C84_off in E0.
  assert (Hf' : f = 0%Z \/ around = true /\ 1 / 10000 < dx) by (destruct Hf; [left; auto | right; split; [auto | lra]]).
  destruct (crop_exists _ _ _ _ _ _ _ _ _ _ _ _ _ _ G W Hf' Ai Ai1 Hj Rj Rj1) as (glob & a & na & j0 & k & u' & e' & X1 & X2 & Ge & V & Rows & Hk & Hnum & Fa & Fb & Cols & Eg).
  pose proof G as (Ex & Ey & Hx & Hy & Rs & Ga). rewrite (evenly_spacing x0 dx nx) in D1 by auto. apply Ok_inj in D1 as <-.
  assert (Hdx : 0 < dx) by apply Ex.
  replace (match src with FES => dx | GOT => Rabs dx end) with dx in * by (destruct src; auto; now rewrite Rabs_pos_eq by lra).
  rewrite (buffer_is _ _ _ Hm), X1 in D2. apply Ok_inj in D2 as <-. rewrite X2 in D3. apply Ok_inj in D3 as <-.
  pose proof Ge as (Hxe & Hye & Nx & Ny & Rh & _).
  assert (Whole : glob = true -> around = true /\ na = nx /\ a = f).
  { intros ->. assert (Ena : na = nx) by (destruct (le_lt_dec nx na); [lia|rewrite (not_around_less dx nx na Hw Hd) in Eg by lia; discriminate]). split; [|split; [auto|lia]].
    subst na. destruct Ga as [[Ga _]|[_ Ga]]; [auto|]. exfalso. apply Ga. apply isclose_close. auto. }
  assert (Round : glob = true -> INR na * dx = 360).
  { intros K. destruct (Whole K) as (Ka & -> & _). destruct Ga as [[_ Ga]|[Ga _]]; [auto | congruence]. }
  assert (Nw' : w = Quick Bilinear \/ numbers k na u') by (destruct Nw; auto).
  destruct (file_filled src glob _ dx _ dy na k u' e' Ge Round w sc cutoff _ cs n _ Hcut Nw' D4 Hn) as (inv & r0 & r & V1 & V2 & V3 & V4 & V5 & V6).
  rewrite file_values_none in D4'. destruct (mapM_nth _ _ _ n _ D4' Hn) as (r0' & R1 & R2). rewrite V2 in R1. apply Ok_inj in R1 as <-.
  exists out0, cs0, cs, r0, r. split; [exact E0|]. split; [exact D5'|]. split; [exact R2|]. split; [exact D5|]. split; [exact V3|]. split; [exact V5|].
  assert (C1 : column_available b m src around x0 dx nx f (a + first_of glob)).
  { destruct glob.
    - destruct (Whole eq_refl) as (Ka & -> & ->). right. split; auto. unfold first_of. split; [apply Cols; lia|]. split; [apply Cols; lia|]. destruct src; unfold behind; lia.
    - left. unfold first_of. split; [lia|]. apply Cols; lia. }
  assert (C2 : column_available b m src around x0 dx nx f (a + last_of (behind src) glob na)).
  { destruct glob.
    - destruct (Whole eq_refl) as (Ka & -> & ->). right. split; auto. unfold last_of. split; [apply Cols; lia|]. split; [apply Cols; lia|]. destruct src; unfold behind; lia.
    - left. unfold last_of. split; [lia|]. apply Cols; lia. }
  assert (M1 : node_x Heights (node_x Heights x0 dx a) dx (first_of glob) = node_x Heights x0 dx (a + first_of glob)) by (unfold node_x; rewrite plus_IZR; ring).
  assert (M2 : node_x Heights (node_x Heights x0 dx a) dx (last_of (behind src) glob na) = node_x Heights x0 dx (a + last_of (behind src) glob na)) by (unfold node_x; rewrite plus_IZR; ring).
  assert (M3 : node_y Heights (node_y Heights y0 dy j0) dy 0 = node_y Heights y0 dy j0) by (unfold node_y; change (INR 0) with 0; ring).
  assert (M4 : node_y Heights (node_y Heights y0 dy j0) dy (k - 1) = node_y Heights y0 dy (j0 + (k - 1))) by (unfold node_y; rewrite plus_INR; ring).
  assert (S0 : row_stays b m y0 dy j0) by (apply Rows; lia). assert (Sk : row_stays b m y0 dy (j0 + (k - 1))) by (apply Rows; lia).
  destruct (outside_beyond src glob (node_x Heights x0 dx a) dx na (node_y Heights y0 dy j0) dy k _ _ _ _ inv Hxe Hye Nx Ny V1) as (B1 & B2 & B3).
  unfold beyond in B2, B3. rewrite M1, M2, M3, M4 in B2, B3.
  assert (Hdy : 0 < dy) by apply Ey.
  assert (Left : forall i', column_available b m src around x0 dx nx f i' -> node_x Heights x0 dx (a + first_of glob) <= node_x Heights x0 dx i' <= node_x Heights x0 dx (a + last_of (behind src) glob na)).
  { intros i' Ai'. destruct (V i' Ai') as [Rch _]. assert (Q : (a + first_of glob <= i' <= a + last_of (behind src) glob na)%Z) by (unfold reached, first_of, last_of in *; destruct glob; lia).
    unfold node_x. destruct Q as [Q1 Q2]. apply IZR_le in Q1, Q2. split; nra. }
  assert (Low : forall j', (j' < ny)%nat -> row_stays b m y0 dy j' -> node_y Heights y0 dy j0 <= node_y Heights y0 dy j' <= node_y Heights y0 dy (j0 + (k - 1))).
  { intros j' Hj' Sj'. apply Rows in Sj'; auto. assert (Q1 : (j0 <= j')%nat) by lia. assert (Q2 : (j' <= j0 + (k - 1))%nat) by lia. apply le_INR in Q1, Q2. unfold node_y. split; nra. }
  split.
  - intros Es B. apply V4. apply B2; auto. destruct B as [B|[B|[B|B]]].
    + left. exact (B _ C1).
    + right. left. exact (B _ C2).
    + right. right. left. apply B; auto. lia.
    + right. right. right. apply B; auto. lia.
  - intros B F. assert (Ei : inv = false).
    { destruct B as [B|B]; auto. apply B3. intros K. apply B. destruct K as [K|[K|[K|K]]].
      - left. intros i' Ai'. destruct (Left i' Ai'). lra.
      - right. left. intros i' Ai'. destruct (Left i' Ai'). lra.
      - right. right. left. intros j' Hj' Sj'. destruct (Low j' Hj' Sj'). lra.
      - right. right. right. intros j' Hj' Sj'. destruct (Low j' Hj' Sj'). lra. }
    specialize (V6 Ei F). cbv zeta in V6.
    assert (Pos : forall j' i', node_at (node_x Heights x0 dx a) dx (node_y Heights y0 dy j0) dy j' i' = (x0 + IZR (a + Z.of_nat i') * dx, y0 + INR (j0 + j') * dy)).
    { intros j' i'. unfold node_at, node_x, node_y. rewrite plus_IZR, plus_INR, <- INR_IZR_INZ. f_equal; ring. }
    assert (Val : forall j' i', (j' < k)%nat -> (i' < na)%nat -> kept (j0 + j')%nat (a + Z.of_nat i')%Z /\ z (j0 + j')%nat (a + Z.of_nat i')%Z = valid (entry (None, true) (shc u') j' i')).
    { intros j' i' Hj' Hi'. assert (Sx : stays (x_min b) (x_max b) m (node_x Heights x0 dx (a + Z.of_nat i'))) by (apply Cols; lia). split.
      - split; [lia|]. split; [apply Rows; lia|]. split; [lia|auto].
      - destruct (V (a + Z.of_nat i')%Z) as [_ Ve]; [left; split; [lia|auto]|]. specialize (Ve (j0 + j')%nat ltac:(lia)). unfold z. rewrite <- Ve. do 2 f_equal; [lia|]. unfold column. rewrite Z.mod_small by lia. lia. }
    assert (Back : forall j' i', nearby_kept kept cutoff x0 dx y0 dy z (x, y) j' i' -> exists j1 i1, j' = (j0 + j1)%nat /\ i' = (a + Z.of_nat i1)%Z /\
      nearby cutoff (node_x Heights x0 dx a) dx na (node_y Heights y0 dy j0) dy k (fun j i => valid (entry (None, true) (shc u') j i)) (x, y) j1 i1).
    { intros j' i' ((K1 & K2 & K3 & K4) & K5 & K6). apply Rows in K2; auto. apply Cols in K4; auto. exists (j' - j0)%nat, (Z.to_nat (i' - a)).
      assert (Q1 : j' = (j0 + (j' - j0))%nat) by lia. assert (Q2 : i' = (a + Z.of_nat (Z.to_nat (i' - a)))%Z) by lia. split; [exact Q1|]. split; [exact Q2|].
      split; [lia|]. split; [lia|]. destruct (Val (j' - j0)%nat (Z.to_nat (i' - a)) ltac:(lia) ltac:(lia)) as [_ Ev]. rewrite <- Q1, <- Q2 in Ev. rewrite Pos, <- Q1, <- Q2. split; [|exact K6].
      intros Kn. apply K5. rewrite Ev. exact Kn. }
    assert (Forth : forall j1 i1, nearby cutoff (node_x Heights x0 dx a) dx na (node_y Heights y0 dy j0) dy k (fun j i => valid (entry (None, true) (shc u') j i)) (x, y) j1 i1 ->
      nearby_kept kept cutoff x0 dx y0 dy z (x, y) (j0 + j1) (a + Z.of_nat i1)).
    { intros j1 i1 (K1 & K2 & K3 & K4). destruct (Val j1 i1 K1 K2) as [Kk Kv]. split; [exact Kk|]. split; [rewrite Kv; exact K3|]. rewrite <- Pos. exact K4. }
    destruct V6 as [(j1 & i1 & [A1 A2] & A3)|[A1 A2]].
    + left. exists (j0 + j1)%nat, (a + Z.of_nat i1)%Z. destruct A1 as (Q1 & Q2 & Q3 & Q4). destruct (Val j1 i1 Q1 Q2) as [_ Kv]. split; [split|].
      * apply Forth. split; auto.
      * intros j' i' Kn. destruct (Back j' i' Kn) as (j2 & i2 & -> & -> & Kb). rewrite <- !Pos. apply A2. exact Kb.
      * rewrite Kv. exact A3.
    + right. split; [|exact A2]. intros (j' & i' & Kn). apply A1. destruct (Back j' i' Kn) as (j2 & i2 & _ & _ & Kb). eauto.
Qed.
Print Assumptions C84_cropped.
