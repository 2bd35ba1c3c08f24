(** C83: cropped models, when extraction succeeds and what is lost. *)
From Coq Require Import Reals List Bool Arith ZArith Lra Lia.
From Verif Require Import PyBase RBase MathModel GeoModel ConvertProps GridModel GridProofs InterpModel InterpProps ExtractModel ExtractSpec NodeProps ExtractProofs ExtractProps SplineProps ReturnProps MergeSpec MergeProps SeriesModel SeriesSpec SeriesProofs SeriesProps SeriesProps2 SeriesProps3 RegularModel RegularSpec RegularProofs RegularProps RegularProps2 CropModel CropSpec CropProofs CropProofs2 CropProps.
Import ListNotations.
Open Scope R_scope.

(** ** C83: without bounds and buffer given, every point has the nodes around it, unless
    they are on either side of the place where the model is cut *)
Lemma four_columns b m src around x0 dx nx f i x : (f <= i < f + Z.of_nat nx)%Z -> x_min b <= x <= x_max b -> 0 < dx <= m ->
  node_x Heights x0 dx i - dx <= x <= node_x Heights x0 dx i + dx -> column_available b m src around x0 dx nx f i.
Proof. intros Hi Hx Hd Hn. left. split; auto. unfold stays. lra. Qed.
Theorem C83_default_spline : forall src sc files pts out c s n x y around x0 dx nx y0 dy ny f i j lo hi,
  extract_cropped src (Quick Spline) sc None None files pts = Ok out ->
  (exists q, In q pts /\ q <> (0, 0)) ->
  nth_error files c = Some s -> sheet_grid around x0 dx nx y0 dy ny s -> numbers ny nx s -> dy <= 4 * dx ->
  extremes (map fst pts) lo hi -> window x0 dx nx lo hi f -> f = 0%Z \/ around = true /\ 1 / 10000 < dx ->
  nth_error pts n = Some (x, y) ->
  (f <= i < f + Z.of_nat nx - 1)%Z -> (S j < ny)%nat ->
  node_x Heights x0 dx i <= x < node_x Heights x0 dx (i + 1) ->
  bracket (S (S j) = ny) (node_y Heights y0 dy j) (node_y Heights y0 dy (S j)) y ->
  let z := corners Heights x0 dx y0 dy nx x y i j (fun j i => valid (entry (None, true) (shc s) j i)) in
  exists cs r, nth_error out c = Some cs /\ length cs = length pts /\ nth_error cs n = Some r /\
    (complete z -> both (mean (part fst z)) (mean (part snd z)) <> None /\ scaled sc (both (mean (part fst z)) (mean (part snd z))) r) /\ (~ complete z -> r = None).
Proof.
  intros src sc files pts out c s n x y around x0 dx nx y0 dy ny f i j lo hi H Hq Hc G Hv Hs He W Hf Hn Hi Hj Bx By z.
  assert (Ey : exists ylo yhi, extremes (map snd pts) ylo yhi).
  { destruct (amin (map snd pts)) as [ylo|] eqn:E1; [|destruct pts; [destruct n; discriminate|discriminate]]. destruct (amax (map snd pts)) as [yhi|] eqn:E2; [|destruct pts; discriminate].
    apply amin_least in E1 as [E1 E1']. apply amax_most in E2 as [E2 E2']. exists ylo, yhi. split; auto. }
  destruct Ey as (ylo & yhi & Ey). assert (Hin : In (x, y) pts) by now apply nth_error_In in Hn.
  destruct He as (He1 & He2 & He3) eqn:Ee. clear Ee. pose proof Ey as (Ey1 & Ey2 & Ey3).
  assert (Ix : lo <= x <= hi) by (apply He3; apply (in_map fst _ _ Hin)). assert (Iy : ylo <= y <= yhi) by (apply Ey3; apply (in_map snd _ _ Hin)).
  assert (Hdx : 0 < dx) by apply G. assert (Hdy : 0 < dy) by apply G. destruct (bracket_le _ _ _ _ By) as [By1 By2].
  assert (Nx : node_x Heights x0 dx (i + 1) = node_x Heights x0 dx i + dx) by (unfold node_x; rewrite plus_IZR; ring).
  assert (Ny : node_y Heights y0 dy (S j) = node_y Heights y0 dy j + dy) by (unfold node_y; rewrite S_INR; ring).
  apply (C83_spline src sc None None (Limits lo hi ylo yhi) (4 * dx) files pts out c s n x y around x0 dx nx y0 dy ny f i j); cbn [x_min x_max y_min y_max]; auto.
  - split; cbn [x_min x_max y_min y_max]; [repeat split; auto; apply He3; auto|auto].
  - intros (Z1 & Z2 & Z3 & Z4). cbn [x_min x_max y_min y_max] in *. destruct Hq as ([qx qy] & Q1 & Q2). apply Q2.
    pose proof (He3 _ (in_map fst _ _ Q1)). pose proof (Ey3 _ (in_map snd _ _ Q1)). cbn [fst snd] in *. f_equal; lra.
  - reflexivity.
  - apply (four_columns _ _ _ _ _ _ _ _ _ x); cbn [x_min x_max]; auto; [lia|lra|lra].
  - apply (four_columns _ _ _ _ _ _ _ _ _ x); cbn [x_min x_max]; auto; [lia|lra|lra].
  - unfold row_stays, stays. cbn [y_min y_max]. lra.
  - unfold row_stays, stays. cbn [y_min y_max]. lra.
Qed.
Print Assumptions C83_default_spline.

(** ** C83: outside of the columns and rows that are kept there is nothing, except with the
    spline and bilinear methods of GOT *)
Lemma not_around dx nx na : INR nx * dx = 360 -> 1 / 200 < dx -> (na < nx)%nat -> (1 <= na)%nat -> isclose (INR (na - 1) * dx) (360 - dx) = false.
Proof.
  intros E Hd Hn H1. apply not_true_is_false. rewrite <- close_isclose. unfold ExtractSpec.close. intros K.
  assert (INR na + 1 <= INR nx) by (rewrite <- S_INR; apply le_INR; lia). assert (1 <= INR na) by (change 1 with (INR 1); apply le_INR; lia).
  rewrite minus_INR in K by lia. change (INR 1) with 1 in K. assert (INR na * dx <= 360 - dx) by nra. assert (dx <= 180) by nra.
  rewrite (Rabs_left1 ((INR na - 1) * dx - (360 - dx))) in K by lra. rewrite (Rabs_pos_eq (360 - dx)) in K by lra. lra.
Qed.
Theorem C83_outside : forall src w sc bounds buffer b m files pts out c s n x y x0 dx nx y0 dy ny f i j,
  extract_cropped src w sc bounds buffer files pts = Ok out ->
  for_points bounds pts b -> some_limit b -> margin buffer dx m ->
  nth_error files c = Some s -> sheet_grid true x0 dx nx y0 dy ny s ->
  window x0 dx nx (x_min b) (x_max b) f -> 1 / 200 < dx ->
  nth_error pts n = Some (x, y) ->
  column_available b m src true x0 dx nx f i -> column_available b m src true x0 dx nx f (i + 1) ->
  (S j < ny)%nat -> row_stays b m y0 dy j -> row_stays b m y0 dy (S j) ->
  (forall k, column_available b m src true x0 dx nx f k -> x < node_x Heights x0 dx k) \/
  (forall k, column_available b m src true x0 dx nx f k -> node_x Heights x0 dx k < x) \/
  (forall k, (k < ny)%nat -> row_stays b m y0 dy k -> y < node_y Heights y0 dy k) \/
  (forall k, (k < ny)%nat -> row_stays b m y0 dy k -> node_y Heights y0 dy k < y) ->
  src = FES \/ (exists me, w = Regular me) ->
  exists cs, nth_error out c = Some cs /\ nth_error cs n = Some None.
Proof.
  intros src w sc bounds buffer b m files pts out c s n x y x0 dx nx y0 dy ny f i j H Hb Sb Hm Hc G W Hd Hn Ai Ai1 Hj Rj Rj1 Ho Hw.
  assert (Hd' : 1 / 10000 < dx) by lra.
  destruct (crop_inv _ _ _ _ _ _ _ _ _ _ _ _ _ _ _ _ _ _ _ _ _ _ _ _ Hb Sb Hm H Hc G W (or_intror (conj eq_refl Hd')) Hn Ai Ai1 Hj Rj Rj1) as (glob & a & na & j0 & k & u & e & cs & r & Ge & V & Rows & Hk & _ & Fa & Fb & Cols & Eg & O1 & O2 & O3 & O4).
  exists cs. split; auto. rewrite O3. f_equal. pose proof Ge as (Hx & Hy & Nx & Ny & Rh & _). assert (Hdx : 0 < dx) by lra. assert (Hdy : 0 < dy) by apply G.
  destruct (st_axes (bef glob) (aft src glob) na k _ dx _ dy (slon e) (slat e) Hx Hy Nx Ny) as [A1 A2].
  assert (Ga : INR nx * dx = 360) by (destruct G as (_ & _ & _ & _ & _ & [[_ E]|[E _]]); [exact E|discriminate]).
  assert (Gnx : (2 <= nx)%nat) by apply G.
  assert (Nb : ~ boxed (slon e) (slat e) (x, y)).
  { rewrite (sheet_boxed src glob _ dx na _ dy k (slon e) (slat e) x y Hx Hy Nx Ny).
    assert (C1 : column_available b m src true x0 dx nx f (a + first_of glob)).
    { destruct glob.
      - assert (na = nx) by (destruct (le_lt_dec nx na); [lia|rewrite (not_around dx nx na Ga Hd) in Eg by lia; discriminate]). subst na. right. split; auto. unfold first_of. replace a with f in * by lia.
        split; [apply Cols; lia|]. split; [apply Cols; lia|]. destruct src; unfold behind; lia.
      - left. unfold first_of. split; [lia|]. apply Cols; lia. }
    assert (C2 : column_available b m src true x0 dx nx f (a + last_of (behind src) glob na)).
    { destruct glob.
      - assert (na = nx) by (destruct (le_lt_dec nx na); [lia|rewrite (not_around dx nx na Ga Hd) in Eg by lia; discriminate]). subst na. right. split; auto. unfold last_of. replace a with f in * by lia.
        split; [apply Cols; lia|]. split; [apply Cols; lia|]. destruct src; unfold behind; lia.
      - left. unfold last_of. split; [lia|]. apply Cols; lia. }
    assert (M1 : node_x Heights (node_x Heights x0 dx a) dx (first_of glob) = node_x Heights x0 dx (a + first_of glob)) by (unfold node_x; rewrite plus_IZR; ring).
    assert (M2 : node_x Heights (node_x Heights x0 dx a) dx (last_of (behind src) glob na) = node_x Heights x0 dx (a + last_of (behind src) glob na)) by (unfold node_x; rewrite plus_IZR; ring).
    rewrite M1, M2.
    assert (M3 : node_y Heights (node_y Heights y0 dy j0) dy 0 = node_y Heights y0 dy j0) by (unfold node_y; change (INR 0) with 0; ring).
    assert (M4 : node_y Heights (node_y Heights y0 dy j0) dy (k - 1) = node_y Heights y0 dy (j0 + (k - 1))) by (unfold node_y; rewrite plus_INR; ring).
    rewrite M3, M4. destruct Ho as [Ho|[Ho|[Ho|Ho]]].
    - specialize (Ho _ C1). lra.
    - specialize (Ho _ C2). lra.
    - specialize (Ho j0 ltac:(lia) (proj1 (Rows j0 ltac:(lia)) ltac:(lia))). lra.
    - specialize (Ho (j0 + (k - 1))%nat ltac:(lia) (proj1 (Rows (j0 + (k - 1))%nat ltac:(lia)) ltac:(lia))). lra. }
  destruct w as [me|me]; cbn [sheet_value] in O4.
  - destruct Hw as [->|[? ?]]; [|discriminate]. unfold sheet_constant, outside_sheet in O4. rewrite (outside_unboxed _ _ _ A1 A2 Nb) in O4. cbn [bind] in O4.
    match type of O4 with bind ?h _ = _ => destruct h; [|discriminate] end. cbn [bind] in O4. apply Ok_inj in O4 as <-. unfold settled. now rewrite orb_true_r.
  - unfold sheet_regular in O4. match type of O4 with bind ?h _ = _ => destruct h; [|discriminate] end. cbn [bind] in O4.
    destruct me; unfold cregular in O4.
    + rewrite regular_outside in O4 by (auto; discriminate). cbn [bind] in O4. now apply Ok_inj in O4 as <-.
    + rewrite regular_outside in O4 by (auto; discriminate). cbn [bind] in O4. now apply Ok_inj in O4 as <-.
    + exfalso. unfold gregular_point in O4. destruct (negb _); [discriminate|]. destruct (outside_axes _ _ _); discriminate.
Qed.
Print Assumptions C83_outside.

(** ** C83: bounds that are all zero are not taken as bounds *)
Lemma extend_cut_same src s d : spacing (slon s) = Ok d -> extend_cut src (match src with FES => d | GOT => Rabs d end) s = extend_sheet src s.
Proof. intros E. unfold extend_sheet. rewrite E. reflexivity. Qed.
Theorem C83_zero : forall src me sc buffer files pts,
  extract_cropped src (Quick me) sc (Some (Limits 0 0 0 0)) buffer files pts = extract_series src me sc files pts.
Proof.
  intros src me sc buffer files pts. unfold extract_cropped, extract_series. destruct pts as [|q t]; [reflexivity|]. cbn [map amin amax bind].
  generalize (q :: t). induction files as [|s files IH]; intros pts; [reflexivity|]. cbn [crop_files extract_files].
  replace (any_limit (Limits 0 0 0 0)) with false by (unfold any_limit; cbn [x_min x_max y_min y_max]; now rewrite req_t).
  destruct (spacing (slon s)) as [d|] eqn:Ed; [|reflexivity]. cbn [bind]. destruct (adjust (slon s) pts) as [pts'|]; [|reflexivity]. cbn [bind].
  rewrite extend_cut_same by auto. destruct (extend_sheet src s) as [e|]; [|reflexivity]. cbn [bind].
  change (mapM (sheet_value src (Quick me) sc e) pts') with (mapM (sheet_constant src me sc e) pts').
  destruct (mapM (sheet_constant src me sc e) pts'); [|reflexivity]. cbn [bind]. now rewrite IH.
Qed.
Print Assumptions C83_zero.
Theorem C83_zero_regular : forall src me sc buffer files pts,
  extract_cropped src (Regular me) sc (Some (Limits 0 0 0 0)) buffer files pts = extract_series_regular src me sc files pts.
Proof.
  intros src me sc buffer files pts. unfold extract_cropped, extract_series_regular. destruct pts as [|q t]; [reflexivity|]. cbn [map amin amax bind].
  generalize (q :: t). induction files as [|s files IH]; intros pts; [reflexivity|]. cbn [crop_files extract_files_regular].
  replace (any_limit (Limits 0 0 0 0)) with false by (unfold any_limit; cbn [x_min x_max y_min y_max]; now rewrite req_t).
  destruct (spacing (slon s)) as [d|] eqn:Ed; [|reflexivity]. cbn [bind]. destruct (adjust (slon s) pts) as [pts'|]; [|reflexivity]. cbn [bind].
  rewrite extend_cut_same by auto. destruct (extend_sheet src s) as [e|]; [|reflexivity]. cbn [bind].
  change (mapM (sheet_value src (Regular me) sc e) pts') with (mapM (sheet_regular src me sc e) pts').
  destruct (mapM (sheet_regular src me sc e) pts'); [|reflexivity]. cbn [bind]. now rewrite IH.
Qed.
Print Assumptions C83_zero_regular.
