(** Values interpolated from one file, whatever the frame of the points (for C83). *)
From Coq Require Import Reals List Bool Arith ZArith Lra Lia.
From Verif Require Import PyBase RBase MathModel GeoModel ConvertProps GridModel InterpModel InterpProps ExtractModel ExtractSpec NodeProps ExtractProofs ExtractProps SplineProps ReturnProps MergeSpec MergeProps SeriesModel SeriesSpec SeriesProofs SeriesProps SeriesProps2 SeriesProps3 AtlasNcModel RegularModel RegularSpec RegularProofs RegularProps RegularProps2 CropModel CropSpec.
Import ListNotations.
Open Scope R_scope.

(** e is the grid t of nx columns and ny rows with the columns repeated on either side *)
Definition grown (src : series) (around : bool) (x0 dx : R) (nx : nat) (y0 dy : R) (ny : nat) (t e : sheet) : Prop :=
  evenly (x0 - INR (bef around) * dx) dx (bef around + nx + aft src around) (slon e) /\ evenly y0 dy ny (slat e) /\ (2 <= nx)%nat /\ (2 <= ny)%nat /\
  rect ny (bef around + nx + aft src around) (shc e) /\
  forall j i, (j < ny)%nat -> within (bef around) (aft src around) nx i -> entry (None, true) (shc e) j (ec (bef around) i) = entry (None, true) (shc t) j (column nx i).

Lemma extend_cut_grown src x0 dx nx y0 dy ny t : evenly x0 dx nx (slon t) -> evenly y0 dy ny (slat t) -> (2 <= nx)%nat -> (2 <= ny)%nat -> rect ny nx (shc t) ->
  exists e, extend_cut src dx t = Ok e /\ grown src (isclose (INR (nx - 1) * dx) (360 - dx)) x0 dx nx y0 dy ny t e.
Proof.
  intros Ex Ey Hx Hy Rs. assert (Hd : 0 < dx) by apply Ex. unfold extend_cut. rewrite (evenly_span x0 dx nx) by auto.
  destruct (isclose (INR (nx - 1) * dx) (360 - dx)).
  - unfold grown, bef, aft. destruct src.
    + destruct (extend_axis_evenly x0 dx nx _ Ex Hx) as (l & El & Hl). rewrite El. cbn [bind].
      destruct (@extend_if_entries (gcell cpx) (None, true) true ny nx (shc t) Rs ltac:(lia)) as (m & Em & Rm & Nm). cbn [extend_if] in Em. rewrite Em. cbn [bind].
      eexists. split; [reflexivity|]. cbn [slon slat shc]. replace (1 + nx + 1)%nat with (nx + 2)%nat by lia. replace (x0 - INR 1 * dx) with (x0 - dx) by (cbn [INR]; ring).
      split; [exact Hl|]. repeat (split; [assumption|]). intros j i Hj Hi. unfold within in Hi.
      change (ec 1 i) with (ecol true i). assert (Ci : columns true nx i) by (unfold columns; lia).
      rewrite Nm by (auto; now apply ecol_lt). now rewrite ecol_col by auto.
    + destruct (extend_axis_got_evenly x0 dx nx _ Ex Hx) as (l & El & Hl). rewrite El. cbn [bind].
      destruct (@mapM_rows (gcell cpx) (None, true) extend_row_got ny nx (nx + 3) (shc t) (fun _ row r => forall i, (-1 <= i < Z.of_nat nx + 2)%Z -> nth (ec 1 i) r (None, true) = nth (column nx i) row (None, true)) Rs) as (m & Em & Rm & Nm).
      { intros row Hrow. now apply extend_row_got_nth. }
      rewrite Em. cbn [bind]. eexists. split; [reflexivity|]. cbn [slon slat shc]. replace (1 + nx + 2)%nat with (nx + 3)%nat by lia. replace (x0 - INR 1 * dx) with (x0 - dx) by (cbn [INR]; ring).
      split; [exact Hl|]. repeat (split; [assumption|]). intros j i Hj Hi. unfold within in Hi. unfold entry. apply Nm; auto; lia.
  - exists t. split; [reflexivity|]. unfold grown, bef, aft. cbn [INR]. replace (x0 - 0 * dx) with x0 by ring. replace (0 + nx + 0)%nat with nx by lia.
    repeat (split; [assumption|]). intros j i Hj Hi. unfold within in Hi. unfold ec, column. rewrite Z.mod_small by lia. f_equal. lia.
Qed.

Section Sheet.
  Variables (src : series) (sc : R) (around : bool) (x0 dx : R) (nx : nat) (y0 dy : R) (ny : nat) (s e : sheet).
  Hypothesis G : grown src around x0 dx nx y0 dy ny s e.

  Lemma sheet_cell x y i j r : sheet_constant src Bilinear sc e (x, y) = Ok r ->
    reached (behind src) around nx i -> reached (behind src) around nx (i + 1) -> (S j < ny)%nat ->
    between_nodes Heights x0 dx y0 dy x y i j -> ~ at_node Heights x0 dx y0 dy x y i j ->
    let z := corners Heights x0 dx y0 dy nx x y i j (fun j i => valid (entry (None, true) (shc s) j i)) in
    scaled sc (both (mean (part fst z)) (mean (part snd z))) r.
  Proof.
    intros O4 Ri Ri1 Hj B NA z. destruct G as (Hx & Gy & Nx & Ny & Rh & Nh).
    assert (0 < dx) by apply Hx. assert (0 < dy) by apply Gy.
    destruct (cell_inside src around x0 dx nx y0 dy ny x y i j) as [I1 I2]; auto; [destruct B as (B1 & B2 & _); lra|destruct B as (B1 & B2 & _); lra|].
    unfold sheet_constant in O4. rewrite (inside_sheet src around x0 dx nx y0 dy ny) in O4 by auto. cbn [bind] in O4.
    destruct (st_off (bef around) (aft src around) nx ny x0 dx y0 dy (slon e) (slat e) Hx Gy Nx Ny (map (map (blank src)) (shc e)) (fun j i => valid (entry (None, true) (shc s) j i)) (map_rect _ _ _ _ Rh) x y i j) as (h & Eh & Kh); auto.
    - intros j' i' Hj' Hi'. rewrite (map_entry (blank src) ny (bef around + nx + aft src around) (shc e) (None, true)) by (auto; now apply ec_lt). rewrite Nh by auto. apply blank_value.
    - now apply within_reached.
    - now apply within_reached.
    - rewrite Eh in O4. cbn [bind] in O4. apply Ok_inj in O4 as <-. fold z in Kh. rewrite <- Kh. apply settled_kept.
  Qed.
  Lemma sheet_node x y i j r : sheet_constant src Bilinear sc e (x, y) = Ok r ->
    reached (behind src) around nx i -> reached (behind src) around nx (i + 1) -> (S j < ny)%nat ->
    between_nodes Heights x0 dx y0 dy x y i j -> at_node Heights x0 dx y0 dy x y i j ->
    exists a b, (a = i \/ a = i + 1)%Z /\ (b = j \/ b = S j) /\
      ExtractSpec.close x (node_x Heights x0 dx a) /\ ExtractSpec.close y (node_y Heights y0 dy b) /\
      (x = node_x Heights x0 dx i -> y = node_y Heights y0 dy j -> a = i /\ b = j) /\
      scaled sc (valid (entry (None, true) (shc s) b (column nx a))) r.
  Proof.
    intros O4 Ri Ri1 Hj B NA. destruct G as (Hx & Gy & Nx & Ny & Rh & Nh).
    assert (0 < dx) by apply Hx. assert (0 < dy) by apply Gy.
    destruct (cell_inside src around x0 dx nx y0 dy ny x y i j) as [I1 I2]; auto; [destruct B as (B1 & B2 & _); lra|destruct B as (B1 & B2 & _); lra|].
    unfold sheet_constant in O4. rewrite (inside_sheet src around x0 dx nx y0 dy ny) in O4 by auto. cbn [bind] in O4.
    destruct (st_node (bef around) (aft src around) nx ny x0 dx y0 dy (slon e) (slat e) Hx Gy Nx Ny (map (map (blank src)) (shc e)) (fun j i => valid (entry (None, true) (shc s) j i)) (map_rect _ _ _ _ Rh) x y i j) as (h & a & b & Eh & Ka & Kb & C1 & C2 & C3 & Kh); auto.
    - intros j' i' Hj' Hi'. rewrite (map_entry (blank src) ny (bef around + nx + aft src around) (shc e) (None, true)) by (auto; now apply ec_lt). rewrite Nh by auto. apply blank_value.
    - now apply within_reached.
    - now apply within_reached.
    - exists a, b. repeat (split; [assumption|]). rewrite Eh in O4. cbn [bind] in O4. apply Ok_inj in O4 as <-. rewrite <- Kh. apply settled_kept.
  Qed.

  (** every value of the file is a number *)
  Hypothesis Hv : numbers ny nx s.
  Lemma sheet_spline x y i j r : sheet_constant src Spline sc e (x, y) = Ok r ->
    reached (behind src) around nx i -> reached (behind src) around nx (i + 1) -> (S j < ny)%nat ->
    node_x Heights x0 dx i <= x < node_x Heights x0 dx (i + 1) ->
    bracket (S (S j) = ny) (node_y Heights y0 dy j) (node_y Heights y0 dy (S j)) y ->
    let z := corners Heights x0 dx y0 dy nx x y i j (fun j i => valid (entry (None, true) (shc s) j i)) in
    (complete z -> both (mean (part fst z)) (mean (part snd z)) <> None /\ scaled sc (both (mean (part fst z)) (mean (part snd z))) r) /\ (~ complete z -> r = None).
  Proof.
    intros O4 Ri Ri1 Hj Bx By z. destruct G as (Hx & Gy & Nx & Ny & Rh & Nh).
    assert (0 < dx) by apply Hx. assert (0 < dy) by apply Gy. destruct (bracket_le _ _ _ _ By) as [By1 By2].
    destruct (cell_inside src around x0 dx nx y0 dy ny x y i j) as [I1 I2]; auto; [lra|].
    unfold sheet_constant in O4. rewrite (inside_sheet src around x0 dx nx y0 dy ny) in O4 by auto. cbn [bind] in O4.
    destruct (st_spline (bef around) (aft src around) nx ny x0 dx y0 dy (slon e) (slat e) Hx Gy Nx Ny (shc e) (fun j i => valid (entry (None, true) (shc s) j i)) Rh x y i j) as (v & m & Es & Zc & Zn); auto.
    - intros j' i' Hj' Hi'. rewrite Nh by auto. apply Hv; auto. now apply column_lt.
    - intros j' i' Hj' Hi'. now rewrite Nh by auto.
    - now apply within_reached.
    - now apply within_reached.
    - now left.
    - rewrite Es in O4. cbn [bind] in O4. apply Ok_inj in O4 as <-. unfold settled. cbn [fst snd]. rewrite orb_false_r. split.
      + intros K. destruct (Zc K) as [-> Ez]. change (both (mean (part fst z)) (mean (part snd z)) = Some v) in Ez. rewrite Ez. split; [discriminate|]. cbn. exists (cabs v), (phase_of v). split; [apply phase_of_spec|reflexivity].
      + intros K. now rewrite (Zn K).
  Qed.
  Lemma sheet_linear x y i j r : sheet_regular src Linear sc e (x, y) = Ok r ->
    reached (behind src) around nx i -> reached (behind src) around nx (i + 1) -> (S j < ny)%nat ->
    node_x Heights x0 dx i <= x < node_x Heights x0 dx (i + 1) ->
    bracket (S (S j) = ny) (node_y Heights y0 dy j) (node_y Heights y0 dy (S j)) y ->
    let z := corners Heights x0 dx y0 dy nx x y i j (fun j i => valid (entry (None, true) (shc s) j i)) in
    unfilled (both (mean (part fst z)) (mean (part snd z))) ->
    (complete z -> both (mean (part fst z)) (mean (part snd z)) <> None /\ scaled sc (both (mean (part fst z)) (mean (part snd z))) r) /\ (~ complete z -> r = None).
  Proof.
    intros O4 Ri Ri1 Hj Bx By z Hu. destruct G as (Hx & Gy & Nx & Ny & Rh & Nh).
    assert (0 < dx) by apply Hx. assert (0 < dy) by apply Gy. destruct (bracket_le _ _ _ _ By) as [By1 By2].
    destruct (cell_inside src around x0 dx nx y0 dy ny x y i j) as [I1 I2]; auto; [lra|].
    destruct (st_axes (bef around) (aft src around) nx ny x0 dx y0 dy (slon e) (slat e) Hx Gy Nx Ny) as [A1 A2].
    unfold sheet_regular in O4. rewrite (inside_sheet src around x0 dx nx y0 dy ny) in O4 by auto. cbn [bind] in O4.
    unfold cregular in O4. rewrite regular_linear in O4; auto.
    2:{ apply (sheet_boxed src around x0 dx nx y0 dy ny); auto. split; auto. unfold node_y. cbn [INR]. lra. }
    change (gspline_point (0, 0) cadd cscale) with cspline in O4.
    destruct (st_spline (bef around) (aft src around) nx ny x0 dx y0 dy (slon e) (slat e) Hx Gy Nx Ny (shc e) (fun j i => valid (entry (None, true) (shc s) j i)) Rh x y i j) as (v & m & Es & Zc & Zn); auto.
    - intros j' i' Hj' Hi'. rewrite Nh by auto. apply Hv; auto. now apply column_lt.
    - intros j' i' Hj' Hi'. now rewrite Nh by auto.
    - now apply within_reached.
    - now apply within_reached.
    - now left.
    - rewrite Es in O4. cbn [bind] in O4. apply Ok_inj in O4 as <-. unfold settled_regular. cbn [fst snd]. rewrite orb_false_r. split.
      + intros K. destruct (Zc K) as [-> Ez]. change (both (mean (part fst z)) (mean (part snd z)) = Some v) in Ez. rewrite Ez in *. split; [discriminate|]. rewrite is_fill_not by auto. cbn. exists (cabs v), (phase_of v). split; [apply phase_of_spec|reflexivity].
      + intros K. now rewrite (Zn K).
  Qed.
End Sheet.
Lemma sheet_nearest src sc around x0 dx nx y0 dy ny s e x y a b r : grown src around x0 dx nx y0 dy ny s e -> sheet_regular src Nearest sc e (x, y) = Ok r ->
  node_x Heights x0 dx (first_of around) <= x <= node_x Heights x0 dx (last_of (behind src) around nx) ->
  node_y Heights y0 dy 0 <= y <= node_y Heights y0 dy (ny - 1) ->
  reached (behind src) around nx a -> (b < ny)%nat -> nearest_node Heights x0 dx y0 dy x y a b ->
  unfilled (valid (entry (None, true) (shc s) b (column nx a))) ->
  scaled sc (valid (entry (None, true) (shc s) b (column nx a))) r.
Proof.
  intros (Hx & Gy & Nx & Ny & Rh & Nh) O4 Ix Iy Ra Hb [Nx' Ny'] Hu.
  assert (0 < dx) by apply Hx. assert (0 < dy) by apply Gy.
  unfold sheet_regular in O4. rewrite (inside_sheet src around x0 dx nx y0 dy ny) in O4 by (auto; unfold node_y in Iy; cbn [INR] in Iy; lra). cbn [bind] in O4.
  assert (Wa : within (bef around) (aft src around) nx a) by now apply within_reached.
  unfold cregular in O4.
  rewrite (regular_nearest (0, 0) cadd cscale (x0 - INR (bef around) * dx) dx (bef around + nx + aft src around) (slon e) y0 dy ny (slat e) (shc e) x y (ec (bef around) a) b (None, true)) in O4; auto; try lia.
  - cbn [bind] in O4. apply Ok_inj in O4 as <-. rewrite Nh by auto. destruct (entry (None, true) (shc s) b (column nx a)) as [z m]. unfold settled_regular, valid in *. cbn [fst snd] in *.
    destruct m; [reflexivity|]. destruct z as [z|]; [|reflexivity]. rewrite is_fill_not by auto. cbn. exists (cabs z), (phase_of z). split; [apply phase_of_spec|reflexivity].
  - apply (sheet_boxed src around x0 dx nx y0 dy ny); auto.
  - now apply ec_lt.
  - pose proof (ec_x (bef around) (aft src around) nx x0 dx (slon e) Hx a Wa) as E. destruct Hx as (_ & _ & Hx). rewrite Hx in E by now apply ec_lt. rewrite E. exact Nx'.
Qed.
