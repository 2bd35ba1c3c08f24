(** C83: the same constants as without cropping, except where the model is cut. *)
From Coq Require Import Reals List Bool Arith ZArith Lra Lia.
From Verif Require Import PyBase RBase MathModel GeoModel ConvertProps GridModel GridProofs InterpModel InterpProps ExtractModel ExtractSpec NodeProps ExtractProofs ExtractProps SplineProps ReturnProps MergeSpec MergeProps SeriesModel SeriesSpec SeriesProofs SeriesProps SeriesProps2 SeriesProps3 RegularModel RegularSpec RegularProofs RegularProps RegularProps2 CropModel CropSpec CropProofs CropProofs2 CropProps CropProps2 CropProps3.
Import ListNotations.
Open Scope R_scope.

Lemma complete_dec {V} (l : list (R * option V)) : {complete l} + {~ complete l}.
Proof.
  induction l as [|p l [IH|IH]]; [left; intros p []| |right; intros K; apply IH; intros q Hq; apply K; now right].
  destruct (Req_EM_T (fst p) 0) as [E|E].
  - left. intros q [<-|Hq] Hz; [congruence|now apply IH].
  - destruct (snd p) eqn:Es.
    + left. intros q [<-|Hq] Hz; [congruence|now apply IH].
    + right. intros K. apply (K p); auto. now left.
Qed.
(** what is interpolated depends on the nodes around only *)
Lemma grown_spline src around x0 dx nx y0 dy ny s e x y i j : grown src around x0 dx nx y0 dy ny s e -> numbers ny nx s ->
  reached (behind src) around nx i -> reached (behind src) around nx (i + 1) -> (S j < ny)%nat ->
  node_x Heights x0 dx i <= x < node_x Heights x0 dx (i + 1) ->
  bracket (S (S j) = ny) (node_y Heights y0 dy j) (node_y Heights y0 dy (S j)) y ->
  let z := corners Heights x0 dx y0 dy nx x y i j (fun j i => valid (entry (None, true) (shc s) j i)) in
  outside_sheet src (slon e) (slat e) (x, y) = Ok false /\ boxed (slon e) (slat e) (x, y) /\ axis (slon e) /\ axis (slat e) /\
  exists v m, cspline (slon e) (slat e) (shc e) (x, y) = Ok (Some v, m) /\ (complete z -> m = false /\ both (mean (part fst z)) (mean (part snd z)) = Some v) /\ (~ complete z -> m = true).
Proof.
  intros (Hx & Gy & Nx & Ny & Rh & Nh) Hv Ri Ri1 Hj Bx By z.
  assert (0 < dx) by apply Hx. assert (0 < dy) by apply Gy. destruct (bracket_le _ _ _ _ By) as [By1 By2].
  destruct (cell_inside src around x0 dx nx y0 dy ny x y i j) as [I1 I2]; auto; [lra|].
  destruct (st_axes (bef around) (aft src around) nx ny x0 dx y0 dy (slon e) (slat e) Hx Gy Nx Ny) as [A1 A2].
  split; [now apply (inside_sheet src around x0 dx nx y0 dy ny)|]. split; [apply (sheet_boxed src around x0 dx nx y0 dy ny); auto; split; auto; unfold node_y; cbn [INR]; lra|]. split; auto. split; auto.
  destruct (st_spline (bef around) (aft src around) nx ny x0 dx y0 dy (slon e) (slat e) Hx Gy Nx Ny (shc e) (fun j i => valid (entry (None, true) (shc s) j i)) Rh x y i j) as (v & m & Es & Zc & Zn); auto.
  - intros j' i' Hj' Hi'. rewrite Nh by auto. apply Hv; auto. now apply column_lt.
  - intros j' i' Hj' Hi'. now rewrite Nh by auto.
  - now apply within_reached.
  - now apply within_reached.
  - now left.
  - exists v, m. split; [exact Es|]. split; auto.
Qed.
(** the same nodes around the globe *)
Lemma corners_turned {V} x0 dx y0 dy nx x y i j t (F : nat -> nat -> option V) : t = 0%Z \/ INR nx * dx = 360 -> (2 <= nx)%nat ->
  corners Heights x0 dx y0 dy nx (x + 360 * IZR t) y (i + t * Z.of_nat nx) j F = corners Heights x0 dx y0 dy nx x y i j F.
Proof.
  intros Ht Hn. assert (E : IZR (t * Z.of_nat nx) * dx = 360 * IZR t).
  { destruct Ht as [-> | Ht]; [cbn; ring|]. rewrite mult_IZR, <- INR_IZR_INZ. rewrite <- Ht. ring. }
  assert (M1 : forall k, node_x Heights x0 dx (k + t * Z.of_nat nx) = node_x Heights x0 dx k + 360 * IZR t) by (intros k; unfold node_x; rewrite plus_IZR; lra).
  assert (C1 : forall k, column nx (k + t * Z.of_nat nx) = column nx k) by (intros k; unfold column; now rewrite Z_mod_plus_full).
  unfold corners. replace (i + t * Z.of_nat nx + 1)%Z with (i + 1 + t * Z.of_nat nx)%Z by ring. rewrite !M1, !C1.
  repeat (f_equal; [f_equal; ring|]). f_equal. f_equal. ring.
Qed.
Lemma node_turned x0 dx nx i t x : t = 0%Z \/ INR nx * dx = 360 ->
  node_x Heights x0 dx i <= x < node_x Heights x0 dx (i + 1) -> node_x Heights x0 dx (i + t * Z.of_nat nx) <= x + 360 * IZR t < node_x Heights x0 dx (i + t * Z.of_nat nx + 1).
Proof.
  intros Ht B. assert (E : IZR (t * Z.of_nat nx) * dx = 360 * IZR t).
  { destruct Ht as [-> | Ht]; [cbn; ring|]. rewrite mult_IZR, <- INR_IZR_INZ. rewrite <- Ht. ring. }
  unfold node_x in *. rewrite !plus_IZR in *. lra.
Qed.

(** ** C83: with splines and with the method linear the constants are those extracted
    without cropping (t times around the globe) *)
Lemma same_core src s b m around x0 dx nx y0 dy ny f fr glob a na j0 k u e e' x y i j t :
  numbers ny nx s -> sheet_grid around x0 dx nx y0 dy ny s -> cropped_to src b m s around x0 dx nx y0 dy ny f glob a na j0 k u e ->
  grown src around x0 dx nx y0 dy ny s e' ->
  column_available b m src around x0 dx nx f i -> column_available b m src around x0 dx nx f (i + 1) -> (S j < ny)%nat -> row_stays b m y0 dy j -> row_stays b m y0 dy (S j) ->
  placed fr x = x + 360 * IZR t -> t = 0%Z \/ around = true ->
  reached (behind src) around nx (i + t * Z.of_nat nx) -> reached (behind src) around nx (i + t * Z.of_nat nx + 1) ->
  node_x Heights x0 dx i <= x < node_x Heights x0 dx (i + 1) ->
  bracket (S (S j) = ny) (node_y Heights y0 dy j) (node_y Heights y0 dy (S j)) y ->
  boxed (slon e) (slat e) (x, y) /\ axis (slon e) /\ axis (slat e) /\ outside_sheet src (slon e) (slat e) (x, y) = Ok false /\
  boxed (slon e') (slat e') (placed fr x, y) /\ axis (slon e') /\ axis (slat e') /\ outside_sheet src (slon e') (slat e') (placed fr x, y) = Ok false /\
  exists v v' q, cspline (slon e) (slat e) (shc e) (x, y) = Ok (Some v, q) /\ cspline (slon e') (slat e') (shc e') (placed fr x, y) = Ok (Some v', q) /\ (q = false -> v = v').
Proof.
  intros Hv G (Ge & V & Rows & Hk & Hnum & _) Ge' Ai Ai1 Hj Rj Rj1 Et Ht R1 R2 Bx By. apply Rows in Rj; [|lia]. apply Rows in Rj1; [|lia].
  destruct (V i Ai) as [Ri Ei]. destruct (V (i + 1)%Z Ai1) as [Ri1 Ei1].
  assert (Ht' : t = 0%Z \/ INR nx * dx = 360) by (destruct Ht as [Ht|Ht]; [now left|right]; destruct G as (_ & _ & _ & _ & _ & [[_ E]|[E _]]); [exact E|congruence]).
  assert (Nx : (2 <= nx)%nat) by apply G.
  pose proof (corners_moved x0 dx y0 dy nx na a j0 x y i j (fun j i => valid (entry (None, true) (shc s) j i)) (fun j i => valid (entry (None, true) (shc u) j i))) as Ec.
  cbv beta in Ec. rewrite !Ei, !Ei1 in Ec by lia. specialize (Ec ltac:(lia) eq_refl eq_refl eq_refl eq_refl).
  destruct (grown_spline src glob (node_x Heights x0 dx a) dx na (node_y Heights y0 dy j0) dy k u e x y (i - a) (j - j0) Ge (Hnum Hv)) as (P1 & P2 & P3 & P4 & v & q & P5 & P6 & P7); auto; try lia.
  { now replace (i - a + 1)%Z with (i + 1 - a)%Z by ring. }
  { replace (i - a + 1)%Z with (i + 1 - a)%Z by ring. now rewrite !node_move. }
  { replace (S (j - j0)) with (S j - j0)%nat by lia. rewrite !row_move by lia. destruct By as [By|[K By]]; [now left|right]. split; auto. lia. }
  rewrite Ec in P6, P7. rewrite Et.
  destruct (grown_spline src around x0 dx nx y0 dy ny s e' (x + 360 * IZR t) y (i + t * Z.of_nat nx) j Ge' Hv R1 R2 Hj) as (Q1 & Q2 & Q3 & Q4 & v' & q' & Q5 & Q6 & Q7); auto.
  { now apply node_turned. }
  rewrite corners_turned in Q6, Q7 by auto. repeat (split; [assumption|]).
  match type of P7 with ~ complete ?z -> _ => destruct (complete_dec z) as [C|C] end.
  - destruct (P6 C) as [-> E1]. destruct (Q6 C) as [-> E2]. exists v, v', false. split; auto. split; auto. intros _. rewrite E1 in E2. now injection E2.
  - rewrite (P7 C) in P5. rewrite (Q7 C) in Q5. exists v, v', true. split; auto. split; auto. discriminate.
Qed.
Lemma grown_sheet src around x0 dx nx y0 dy ny s e : sheet_grid around x0 dx nx y0 dy ny s ->
  evenly (x0 - INR (bef around) * dx) dx (bef around + nx + aft src around) (slon e) -> slat e = slat s -> rect ny (bef around + nx + aft src around) (shc e) ->
  (forall j i, (j < ny)%nat -> within (bef around) (aft src around) nx i -> entry (None, true) (shc e) j (ec (bef around) i) = entry (None, true) (shc s) j (column nx i)) ->
  grown src around x0 dx nx y0 dy ny s e.
Proof. intros (_ & Gy & Nx & Ny & _) H1 H2 H3 H4. unfold grown. rewrite H2. auto 10. Qed.
Theorem C83_same_spline : forall src sc bounds buffer b m fr files pts out out' c s n x y around x0 dx nx y0 dy ny f i j t,
  extract_cropped src (Quick Spline) sc bounds buffer files pts = Ok out -> extract_series src Spline sc files pts = Ok out' ->
  for_points bounds pts b -> some_limit b -> margin buffer dx m ->
  (forall s, In s files -> framed fr (slon s)) -> (forall q, In q pts -> -360 <= fst q <= 540) ->
  nth_error files c = Some s -> sheet_grid around x0 dx nx y0 dy ny s -> numbers ny nx s ->
  window x0 dx nx (x_min b) (x_max b) f -> f = 0%Z \/ around = true /\ 1 / 10000 < dx ->
  nth_error pts n = Some (x, y) ->
  column_available b m src around x0 dx nx f i -> column_available b m src around x0 dx nx f (i + 1) ->
  (S j < ny)%nat -> row_stays b m y0 dy j -> row_stays b m y0 dy (S j) ->
  placed fr x = x + 360 * IZR t -> t = 0%Z \/ around = true ->
  reached (behind src) around nx (i + t * Z.of_nat nx) -> reached (behind src) around nx (i + t * Z.of_nat nx + 1) ->
  node_x Heights x0 dx i <= x < node_x Heights x0 dx (i + 1) ->
  bracket (S (S j) = ny) (node_y Heights y0 dy j) (node_y Heights y0 dy (S j)) y ->
  exists cs cs' r, nth_error out c = Some cs /\ nth_error out' c = Some cs' /\ nth_error cs n = Some r /\ nth_error cs' n = Some r.
Proof.
  intros src sc bounds buffer b m fr files pts out out' c s n x y around x0 dx nx y0 dy ny f i j t H H' Hb Sb Hm Hfr Hp Hc G Hv W Hf Hn Ai Ai1 Hj Rj Rj1 Et Ht R1 R2 Bx By.
  destruct (crop_inv _ _ _ _ _ _ _ _ _ _ _ _ _ _ _ _ _ _ _ _ _ _ _ _ Hb Sb Hm H Hc G W Hf Hn Ai Ai1 Hj Rj Rj1) as (glob & a & na & j0 & k & u & e & cs & r & X1 & X2 & X3 & X4 & X5 & X6 & X7 & X8 & X9 & O1 & O2 & O3 & O4).
  destruct (series_inv _ _ _ _ _ _ _ _ _ _ _ _ _ _ _ _ _ _ Hfr Hp H' Hc G Hn) as (e' & cs' & r' & Y1 & Y2 & Y3 & Y4 & Z1 & Z2 & Z3 & Z4). cbn [fst snd] in Z4.
  destruct (same_core src s b m around x0 dx nx y0 dy ny f fr glob a na j0 k u e e' x y i j t) as (S1 & S2 & S3 & S4 & S5 & S6 & S7 & S8 & v & v' & q & S9 & S10 & S11); auto.
  { unfold cropped_to. auto 12. }
  { now apply grown_sheet. }
  cbn [sheet_value] in O4. unfold sheet_constant in O4, Z4. rewrite S4 in O4. rewrite S8 in Z4. cbn [bind] in O4, Z4. rewrite S9 in O4. rewrite S10 in Z4. cbn [bind] in O4, Z4. apply Ok_inj in O4, Z4.
  exists cs, cs', r. repeat (split; [assumption|]). rewrite Z3. f_equal. rewrite <- O4, <- Z4. unfold settled. cbn [fst snd]. destruct q; [reflexivity|]. now rewrite S11.
Qed.
Print Assumptions C83_same_spline.
Theorem C83_same_linear : forall src sc bounds buffer b m fr files pts out out' c s n x y around x0 dx nx y0 dy ny f i j t,
  extract_cropped src (Regular Linear) sc bounds buffer files pts = Ok out -> extract_series_regular src Linear sc files pts = Ok out' ->
  for_points bounds pts b -> some_limit b -> margin buffer dx m ->
  (forall s, In s files -> framed fr (slon s)) -> (forall q, In q pts -> -360 <= fst q <= 540) ->
  nth_error files c = Some s -> sheet_grid around x0 dx nx y0 dy ny s -> numbers ny nx s ->
  window x0 dx nx (x_min b) (x_max b) f -> f = 0%Z \/ around = true /\ 1 / 10000 < dx ->
  nth_error pts n = Some (x, y) ->
  column_available b m src around x0 dx nx f i -> column_available b m src around x0 dx nx f (i + 1) ->
  (S j < ny)%nat -> row_stays b m y0 dy j -> row_stays b m y0 dy (S j) ->
  placed fr x = x + 360 * IZR t -> t = 0%Z \/ around = true ->
  reached (behind src) around nx (i + t * Z.of_nat nx) -> reached (behind src) around nx (i + t * Z.of_nat nx + 1) ->
  node_x Heights x0 dx i <= x < node_x Heights x0 dx (i + 1) ->
  bracket (S (S j) = ny) (node_y Heights y0 dy j) (node_y Heights y0 dy (S j)) y ->
  exists cs cs' r, nth_error out c = Some cs /\ nth_error out' c = Some cs' /\ nth_error cs n = Some r /\ nth_error cs' n = Some r.
Proof.
  intros src sc bounds buffer b m fr files pts out out' c s n x y around x0 dx nx y0 dy ny f i j t H H' Hb Sb Hm Hfr Hp Hc G Hv W Hf Hn Ai Ai1 Hj Rj Rj1 Et Ht R1 R2 Bx By.
  destruct (crop_inv _ _ _ _ _ _ _ _ _ _ _ _ _ _ _ _ _ _ _ _ _ _ _ _ Hb Sb Hm H Hc G W Hf Hn Ai Ai1 Hj Rj Rj1) as (glob & a & na & j0 & k & u & e & cs & r & X1 & X2 & X3 & X4 & X5 & X6 & X7 & X8 & X9 & O1 & O2 & O3 & O4).
  destruct (regular_inv _ _ _ _ _ _ _ _ _ _ _ _ _ _ _ _ _ _ Hfr Hp H' Hc G Hn) as (e' & cs' & r' & Y1 & Y2 & Y3 & Y4 & Z1 & Z2 & Z3 & Z4). cbn [fst snd] in Z4.
  destruct (same_core src s b m around x0 dx nx y0 dy ny f fr glob a na j0 k u e e' x y i j t) as (S1 & S2 & S3 & S4 & S5 & S6 & S7 & S8 & v & v' & q & S9 & S10 & S11); auto.
  { unfold cropped_to. auto 12. }
  { now apply grown_sheet. }
  cbn [sheet_value] in O4. unfold sheet_regular in O4, Z4. rewrite S4 in O4. rewrite S8 in Z4. cbn [bind] in O4, Z4. unfold cregular in O4, Z4. rewrite regular_linear in O4, Z4 by auto.
  change (gspline_point (0, 0) cadd cscale) with cspline in O4, Z4. rewrite S9 in O4. rewrite S10 in Z4. cbn [bind] in O4, Z4. apply Ok_inj in O4, Z4.
  exists cs, cs', r. repeat (split; [assumption|]). rewrite Z3. f_equal. rewrite <- O4, <- Z4. unfold settled_regular. cbn [fst snd]. destruct q; [reflexivity|]. now rewrite S11.
Qed.
Print Assumptions C83_same_linear.
