(** C83: what cropping loses where a model around the globe is cut. *)
From Coq Require Import Reals List Bool Arith ZArith Lra Lia.
From Verif Require Import PyBase RBase MathModel GeoModel ConvertProps GridModel GridProofs InterpModel InterpProps ExtractModel ExtractSpec NodeProps ExtractProofs ExtractProps SplineProps ReturnProps MergeSpec MergeProps SeriesModel SeriesSpec SeriesProofs SeriesProps SeriesProps2 SeriesProps3 RegularModel RegularSpec RegularProofs RegularProps RegularProps2 CropModel CropSpec CropProofs CropProofs2 CropProps CropProps2 CropProps3 CropProps4.
Import ListNotations.
Open Scope R_scope.

Section Seam.
  Variables (src : series) (sc : R) (buffer : option R) (m : R) (s : sheet) (x y x0 dx : R) (nx : nat) (y0 dy : R) (ny j : nat).
  Hypothesis G : sheet_grid true x0 dx nx y0 dy ny s.
  Hypothesis Hm : margin buffer dx m.
  Hypothesis Hd : 1 / 200 < dx.
  Hypothesis Hdx : 2 * dx <= m.
  Hypothesis Hdy : dy <= m.
  Hypothesis Hx : 0 < x <= 180.
  Hypothesis Hx0 : x0 - dx <= x < x0.
  Hypothesis Hlast : x + m < node_x Heights x0 dx (Z.of_nat nx - 1).
  Hypothesis Hj : (S j < ny)%nat.
  Hypothesis By : bracket (S (S j) = ny) (node_y Heights y0 dy j) (node_y Heights y0 dy (S j)) y.

  Lemma seam_bounds : for_points None [(x, y)] (Limits x x y y) /\ some_limit (Limits x x y y).
  Proof.
    split.
    - split; cbn [x_min x_max y_min y_max map fst snd]; (split; [now left|split; [now left|]]); intros a [<-|[]]; lra.
    - intros (K & _). cbn [x_min] in K. lra.
  Qed.
  Lemma seam_window : window x0 dx nx x x 0.
  Proof. apply window_same; [rewrite Rmin_left by lra; lra|rewrite Rmax_left by lra; lra]. Qed.
  Lemma seam_columns : column_available (Limits x x y y) m src true x0 dx nx 0 0 /\ column_available (Limits x x y y) m src true x0 dx nx 0 (0 + 1).
  Proof.
    assert (Nx : (2 <= nx)%nat) by apply G. assert (0 < dx) by lra.
    split; left; (split; [cbn; lia|]); unfold stays, node_x; cbn [x_min x_max Z.add]; lra.
  Qed.
  Lemma seam_rows : row_stays (Limits x x y y) m y0 dy j /\ row_stays (Limits x x y y) m y0 dy (S j).
  Proof.
    assert (Py : 0 < dy) by apply G. destruct (bracket_le _ _ _ _ By) as [B1 B2].
    assert (Ny : node_y Heights y0 dy (S j) = node_y Heights y0 dy j + dy) by (unfold node_y; rewrite S_INR; ring).
    unfold row_stays, stays. cbn [y_min y_max]. lra.
  Qed.
  Lemma seam_returns w : w = Quick Spline -> exists r, extract_cropped src w sc None buffer [s] [(x, y)] = Ok [[r]].
  Proof.
    intros ->. destruct seam_bounds as [B1 B2]. destruct seam_columns as [C1 C2]. destruct seam_rows as [R1 R2].
    destruct (C83_returns src (Quick Spline) sc None buffer (Limits x x y y) [s] [(x, y)]) as (out & Ho & Lo); auto; try discriminate.
    { intros s' [<-|[]]. exists true, x0, dx, nx, y0, dy, ny, m, 0%Z, 0%Z, j. repeat (split; [assumption|]). split; [apply seam_window|]. split; [now left|]. repeat (split; [assumption|]). discriminate. }
    destruct (crop_inv src (Quick Spline) sc None buffer (Limits x x y y) m [s] [(x, y)] out 0 s 0 (x, y) true x0 dx nx y0 dy ny 0 0 j) as (glob & a & na & j0 & k & u & e & cs & r & X); auto.
    { apply seam_window. }
    destruct X as (_ & _ & _ & _ & _ & _ & _ & _ & _ & O1 & O2 & O3 & _). rewrite Ho. destruct out as [|c [|]]; try discriminate. cbn in O1. injection O1 as ->. destruct cs as [|c [|]]; try discriminate. eauto.
  Qed.
End Seam.

Lemma eastern_frame x0 dx nx y0 dy ny s : sheet_grid true x0 dx nx y0 dy ny s -> 0 <= x0 -> dx < 180 -> framed Eastern (slon s).
Proof.
  intros (Ex & _ & Nx & _ & _ & [[_ E]|[E _]]) H0 Hd; [|discriminate]. pose proof Ex as (Pd & L & Ev). split.
  - exists (x0 + INR (nx - 1) * dx). split; [rewrite <- Ev by lia; apply nth_In; lia|]. rewrite minus_INR by lia. cbn [INR]. lra.
  - intros a Ha. destruct (evenly_in _ _ _ _ _ Ex Ha) as (i & Hi & ->). pose proof (pos_INR i). nra.
Qed.

(** ** A point between the last column and the first one around the globe: without cropping
    it has the constant of the four nodes around, with cropping it has none (FES) *)
Theorem C83_seam_refuted : forall sc buffer m s x y x0 dx nx y0 dy ny j,
  sheet_grid true x0 dx nx y0 dy ny s -> margin buffer dx m -> 1 / 200 < dx < 180 -> 2 * dx <= m -> dy <= m ->
  0 < x <= 180 -> x0 - dx <= x < x0 -> x + m < node_x Heights x0 dx (Z.of_nat nx - 1) ->
  (S j < ny)%nat -> bracket (S (S j) = ny) (node_y Heights y0 dy j) (node_y Heights y0 dy (S j)) y ->
  (forall j i, (j < ny)%nat -> (i < nx)%nat -> valid (entry (None, true) (shc s) j i) <> None) ->
  extract_cropped FES (Quick Spline) sc None buffer [s] [(x, y)] = Ok [[None]] /\
  exists r, extract_series FES Spline sc [s] [(x, y)] = Ok [[Some r]].
Proof.
  intros sc buffer m s x y x0 dx nx y0 dy ny j G Hm [Hd Hd2] Hdx Hdy Hx Hx0 Hlast Hj By Hv. pose proof G as (Gx & Gy & Nx & Ny & Rs & _).
  destruct (seam_bounds x y ltac:(lra)) as [B1 B2]. assert (Wd : window x0 dx nx x x 0) by (apply (seam_window x x0 dx nx); lra).
  destruct (seam_columns FES m s x y x0 dx nx y0 dy ny j) as [C1 C2]; auto. destruct (seam_rows m s x y x0 dx nx y0 dy ny j) as [R1 R2]; auto.
  assert (Pd : 0 < dx) by lra. destruct (bracket_le _ _ _ _ By) as [By1 By2].
  split.
  - destruct (seam_returns FES sc buffer m s x y x0 dx nx y0 dy ny j) with (w := Quick Spline) as (r & Er); auto.
    rewrite Er. destruct (C83_outside FES (Quick Spline) sc None buffer (Limits x x y y) m [s] [(x, y)] [[r]] 0 s 0 x y x0 dx nx y0 dy ny 0 0 j) as (cs & O1 & O2); auto.
    + left. intros k [[K1 K2]|(_ & _ & K & _)].
      * assert (0 <= IZR k) by (apply IZR_le; lia). unfold node_x. nra.
      * exfalso. unfold stays in K. cbn [x_min x_max] in K. replace (0 + Z.of_nat nx - 1)%Z with (Z.of_nat nx - 1)%Z in K by ring. lra.
    + cbn in O1. injection O1 as <-. cbn in O2. injection O2 as ->. reflexivity.
  - assert (Fr : framed Eastern (slon s)) by (apply (eastern_frame x0 dx nx y0 dy ny); auto; lra).
    assert (Ff : forall s', In s' [s] -> framed Eastern (slon s')) by (intros s' [<-|[]]; auto).
    assert (Fp : forall q, In q [(x, y)] -> -360 <= fst q <= 540) by (intros q [<-|[]]; cbn; lra).
    assert (Ex : placed Eastern (fst (x, y)) = x) by (cbn; unfold eastward; destruct (Rlt_dec x 0); lra).
    assert (Nl : node_x Heights x0 dx (Z.of_nat nx - 1) <= node_x Heights x0 dx (last_of (behind FES) true nx)) by (unfold node_x, last_of, behind; rewrite !minus_IZR, plus_IZR; lra).
    destruct (C69_returns FES Spline sc Eastern [s] [(x, y)]) as (out & Ho & Lo); auto; try discriminate.
    { intros s' [<-|[]]. split; auto. exists true, x0, dx, nx, y0, dy, ny. split; auto. discriminate. }
    destruct (C69_spline FES sc Eastern [s] [(x, y)] out 0 s 0 (x, y) true x0 dx nx y0 dy ny x y (-1)%Z j) as (cs & r & O1 & O2 & O3 & O4 & _); auto.
    + intros j' i' Hj' Hi' K. apply (Hv j' i' Hj' Hi'). unfold valid. rewrite K. now destruct (snd _).
    + rewrite Ex. unfold nearest_within. unfold first_of. replace (node_x Heights x0 dx (-1)) with (x0 - dx) by (unfold node_x; lra). rewrite Rmin_right by lra. apply Rmax_right. lra.
    + cbn [snd]. assert (node_y Heights y0 dy 0 <= node_y Heights y0 dy j) by (unfold node_y; pose proof (le_INR 0 j ltac:(lia)); assert (0 < dy) by apply Gy; nra).
      assert (node_y Heights y0 dy (S j) <= node_y Heights y0 dy (ny - 1)) by (unfold node_y; pose proof (le_INR (S j) (ny - 1) ltac:(lia)); assert (0 < dy) by apply Gy; nra).
      unfold node_y in *. cbn [INR] in H. unfold nearest_within. rewrite Rmin_right by lra. apply Rmax_right. lra.
    + cbn. lia.
    + cbn. lia.
    + left. unfold node_x. cbn [Z.add Z.opp Z.pos_sub]. lra.
    + destruct O4 as [Q1 Q2].
      { intros p Hp _. cbn [corners In] in Hp. destruct Hp as [<-|[<-|[<-|[<-|[]]]]]; cbn [snd]; apply Hv; try lia; now apply column_lt. }
      rewrite Ho. destruct out as [|c [|]]; try discriminate. cbn in O1. injection O1 as ->. destruct cs as [|c [|]]; try discriminate. cbn in O3. injection O3 as ->.
      match type of Q1 with ?t <> None => destruct t as [z'|]; [|congruence] end. destruct Q2 as (a' & p' & _ & ->). eauto.
Qed.
Print Assumptions C83_seam_refuted.

(** ** GOT, spline: west of the first column there is after the cropping a point has the
    value on that column, however far it is *)
Theorem C83_edge_refuted : forall sc bounds buffer b m files pts out c s n x y x0 dx nx y0 dy ny f i j,
  extract_cropped GOT (Quick Spline) sc bounds buffer files pts = Ok out ->
  for_points bounds pts b -> some_limit b -> margin buffer dx m ->
  nth_error files c = Some s -> sheet_grid true x0 dx nx y0 dy ny s -> numbers ny nx s ->
  window x0 dx nx (x_min b) (x_max b) f -> 1 / 200 < dx ->
  nth_error pts n = Some (x, y) ->
  column_available b m GOT true x0 dx nx f i -> column_available b m GOT true x0 dx nx f (i + 1) ->
  (forall k, column_available b m GOT true x0 dx nx f k -> (i <= k)%Z) ->
  (S j < ny)%nat -> row_stays b m y0 dy j -> row_stays b m y0 dy (S j) ->
  x < node_x Heights x0 dx i ->
  bracket (S (S j) = ny) (node_y Heights y0 dy j) (node_y Heights y0 dy (S j)) y ->
  let z := corners Heights x0 dx y0 dy nx (node_x Heights x0 dx i) y i j (fun j i => valid (entry (None, true) (shc s) j i)) in
  exists cs r, nth_error out c = Some cs /\ nth_error cs n = Some r /\
    (complete z -> both (mean (part fst z)) (mean (part snd z)) <> None /\ scaled sc (both (mean (part fst z)) (mean (part snd z))) r) /\ (~ complete z -> r = None).
Proof.
  intros sc bounds buffer b m files pts out c s n x y x0 dx nx y0 dy ny f i j H Hb Sb Hm Hc G Hv W Hd Hn Ai Ai1 Hi Hj Rj Rj1 Bx By z.
  assert (Hd' : 1 / 10000 < dx) by lra.
  destruct (crop_inv _ _ _ _ _ _ _ _ _ _ _ _ _ _ _ _ _ _ _ _ _ _ _ _ Hb Sb Hm H Hc G W (or_intror (conj eq_refl Hd')) Hn Ai Ai1 Hj Rj Rj1) as (glob & a & na & j0 & k & u & e & cs & r & Ge & V & Rows & Hk & Hnum & Fa & Fb & Cols & Eg & O1 & O2 & O3 & O4).
  exists cs, r. repeat (split; [assumption|]). apply Rows in Rj; [|lia]. apply Rows in Rj1; [|lia].
  destruct (V i Ai) as [Ri Ei]. destruct (V (i + 1)%Z Ai1) as [Ri1 Ei1].
  pose proof Ge as (Hx & Hy & Nx & Ny & Rh & _). assert (Hdx : 0 < dx) by lra. assert (Hdy : 0 < dy) by apply G.
  destruct (st_axes (bef glob) (aft GOT glob) na k _ dx _ dy (slon e) (slat e) Hx Hy Nx Ny) as [A1 A2].
  assert (Ga : INR nx * dx = 360) by (destruct G as (_ & _ & _ & _ & _ & [[_ E]|[E _]]); [exact E|discriminate]).
  assert (C1 : column_available b m GOT true x0 dx nx f (a + first_of glob)).
  { destruct glob.
    - assert (na = nx) by (destruct (le_lt_dec nx na); [lia|rewrite (not_around dx nx na Ga Hd) in Eg by lia; discriminate]). subst na. right. split; auto. unfold first_of. replace a with f in * by lia.
      split; [apply Cols; lia|]. split; [apply Cols; lia|]. unfold behind; lia.
    - left. unfold first_of. split; [lia|]. apply Cols; lia. }
  assert (Ea : (i - a = first_of glob)%Z). { apply Hi in C1. unfold reached, behind in Ri. unfold first_of in *. destruct glob; lia. }
  assert (E1 : nth 0 (slon e) 0 = node_x Heights x0 dx i).
  { destruct Hx as (_ & _ & E). rewrite E by lia. replace i with (a + (i - a))%Z by ring. rewrite Ea. unfold node_x, first_of, bef. rewrite plus_IZR. destruct glob; cbn [INR]; lra. }
  assert (E5 : forall x y, nth 0 (slon e) 0 <= nth (length (slon e) - 1) (slon e) 0 -> x <= nth 0 (slon e) 0 ->
    cspline (slon e) (slat e) (shc e) (x, y) = cspline (slon e) (slat e) (shc e) (nth 0 (slon e) 0, y)).
  { intros x1 y1 K1 K2. unfold cspline. rewrite (spline_clamped _ _ _ _ _ _ x1), (spline_clamped _ _ _ _ _ _ (nth 0 (slon e) 0)) by auto. do 2 f_equal.
    unfold clamp. rewrite (Rmin_right _ x1), (Rmax_left _ x1), (Rmin_right _ (nth 0 (slon e) 0)), Rmax_left by lra. reflexivity. }
  assert (E6 : nth 0 (slon e) 0 <= nth (length (slon e) - 1) (slon e) 0).
  { destruct Hx as (_ & L & E). rewrite L, !E by lia. match goal with |- context [INR (?q - 1)] => pose proof (pos_INR (q - 1)) end. cbn [INR]. nra. }
  assert (O5 : sheet_constant GOT Spline sc e (node_x Heights x0 dx i, y) = Ok r).
  { rewrite <- O4. cbn [sheet_value]. unfold sheet_constant. cbn [outside_sheet bind]. rewrite (E5 x) by lra. now rewrite E1. }
  pose proof (corners_moved x0 dx y0 dy nx na a j0 (node_x Heights x0 dx i) y i j (fun j i => valid (entry (None, true) (shc s) j i)) (fun j i => valid (entry (None, true) (shc u) j i))) as Ec.
  cbv beta in Ec. rewrite !Ei, !Ei1 in Ec by lia. specialize (Ec ltac:(lia) eq_refl eq_refl eq_refl eq_refl). fold z in Ec. rewrite <- Ec.
  apply (sheet_spline GOT sc glob (node_x Heights x0 dx a) dx na (node_y Heights y0 dy j0) dy k u e Ge (Hnum Hv) (node_x Heights x0 dx i) y (i - a) (j - j0) r O5); auto; try lia.
  - now replace (i - a + 1)%Z with (i + 1 - a)%Z by ring.
  - replace (i - a + 1)%Z with (i + 1 - a)%Z by ring. rewrite !node_move. unfold node_x. rewrite plus_IZR. lra.
  - replace (S (j - j0)) with (S j - j0)%nat by lia. rewrite !row_move by lia. destruct By as [By|[K By]]; [now left|right]. split; auto. lia.
Qed.
Print Assumptions C83_edge_refuted.
