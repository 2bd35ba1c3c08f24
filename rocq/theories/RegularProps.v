(** C82: constants of FES and GOT models with the methods linear and nearest. *)
From Coq Require Import Reals List Bool Arith ZArith Lra Lia.
From Verif Require Import PyBase RBase MathModel GeoModel ConvertProps GridModel InterpModel InterpProps ExtractModel ExtractSpec NodeProps ExtractProofs ExtractProps SplineProps ReturnProps MergeSpec MergeProps SeriesModel SeriesSpec SeriesProofs SeriesProps SeriesProps2 SeriesProps3 AtlasNcModel RegularModel RegularSpec RegularProofs.
Import ListNotations.
Open Scope R_scope.

(** ** What extraction does with each file *)
Lemma extract_regular_nth src me sc fr files : (forall s, In s files -> framed fr (slon s)) -> forall pts out,
  (forall q, In q pts -> -360 <= fst q <= 540) -> extract_files_regular src me sc files pts = Ok out ->
  length out = length files /\
  forall c s, nth_error files c = Some s -> exists e cs, extend_sheet src s = Ok e /\
    mapM (sheet_regular src me sc e) (map (fun p => (placed fr (fst p), snd p)) pts) = Ok cs /\ nth_error out c = Some cs.
Proof.
  induction files as [|s files IH]; intros Hf pts out Hp H.
  - apply Ok_inj in H as <-. split; auto. intros [|c] s Hc; discriminate.
  - cbn [extract_files_regular] in H. destruct (spacing (slon s)); [|discriminate]. cbn [bind] in H.
    destruct (adjust (slon s) pts) as [pts'|] eqn:Ea; [|discriminate]. cbn [bind] in H.
    destruct (extend_sheet src s) as [e|] eqn:Ee; [|discriminate]. cbn [bind] in H.
    destruct (mapM (sheet_regular src me sc e) pts') as [cs|] eqn:Ec; [|discriminate]. cbn [bind] in H.
    destruct (extract_files_regular src me sc files pts') as [out'|] eqn:Eo; [|discriminate]. cbn [bind] in H. apply Ok_inj in H as <-.
    apply (adjust_placed fr) in Ea; [|apply Hf; now left]. subst pts'.
    assert (Hp' : forall q, In q (map (fun p : R * R => (placed fr (fst p), snd p)) pts) -> -360 <= fst q <= 540).
    { intros q Hq. apply in_map_iff in Hq as (p & <- & Hin). cbn [fst]. apply placed_twice. auto. }
    destruct (IH (fun s Hs => Hf s (or_intror Hs)) _ out' Hp' Eo) as [L V].
    split; [cbn; lia|]. intros [|c] s' Hc; cbn [nth_error] in *.
    + injection Hc as <-. exists e, cs. auto.
    + destruct (V c s' Hc) as (e' & cs' & V1 & V2 & V3). exists e', cs'. repeat split; auto. rewrite <- V2. f_equal. rewrite map_map. apply map_ext_in.
      intros p Hin. cbn [fst snd]. now rewrite (proj1 (placed_twice fr (fst p) (Hp p Hin))).
Qed.
Lemma regular_inv src me sc fr files pts out c s n p around x0 dx nx y0 dy ny :
  (forall s, In s files -> framed fr (slon s)) -> (forall q, In q pts -> -360 <= fst q <= 540) ->
  extract_series_regular src me sc files pts = Ok out ->
  nth_error files c = Some s -> sheet_grid around x0 dx nx y0 dy ny s -> nth_error pts n = Some p ->
  exists e cs r, evenly (x0 - INR (bef around) * dx) dx (bef around + nx + aft src around) (slon e) /\ slat e = slat s /\
    rect ny (bef around + nx + aft src around) (shc e) /\
    (forall j i, (j < ny)%nat -> within (bef around) (aft src around) nx i -> entry (None, true) (shc e) j (ec (bef around) i) = entry (None, true) (shc s) j (column nx i)) /\
    nth_error out c = Some cs /\ length cs = length pts /\ nth_error cs n = Some r /\ sheet_regular src me sc e (placed fr (fst p), snd p) = Ok r.
Proof.
  intros Hf Hp H Hc G Hn. unfold extract_series_regular in H. destruct (amin (map fst pts)); [|discriminate]. cbn [bind] in H.
  destruct (extract_regular_nth src me sc fr files Hf pts out Hp H) as [_ V]. destruct (V c s Hc) as (e & cs & E1 & E2 & E3).
  destruct (extend_sheet_grid src _ _ _ _ _ _ _ _ G) as (e' & Ee & He). rewrite Ee in E1. apply Ok_inj in E1 as <-.
  destruct (mapM_nth _ _ _ n (placed fr (fst p), snd p) E2) as (r & R1 & R2); [now apply (map_nth_error (fun p => (placed fr (fst p), snd p)))|].
  exists e', cs, r. destruct He as (? & ? & ? & ?). repeat (split; [assumption|]). split; [now rewrite (mapM_len _ _ _ E2), map_length|]. auto.
Qed.
(** the box of the longer grid *)
Lemma sheet_boxed src around x0 dx nx y0 dy ny lon lat x y : evenly (x0 - INR (bef around) * dx) dx (bef around + nx + aft src around) lon -> evenly y0 dy ny lat ->
  (2 <= nx)%nat -> (2 <= ny)%nat ->
  boxed lon lat (x, y) <-> node_x Heights x0 dx (first_of around) <= x <= node_x Heights x0 dx (last_of (behind src) around nx) /\ node_y Heights y0 dy 0 <= y <= node_y Heights y0 dy (ny - 1).
Proof.
  intros Hx Hy Nx Ny. destruct (first_last_lon src around x0 dx nx lon Nx Hx) as [F1 F2]. destruct (first_last_lat y0 dy ny lat Ny Hy) as [F3 F4].
  unfold boxed. rewrite F1, F2, F3, F4. cbn [fst snd]. unfold node_y. change (INR 0) with 0. rewrite Rmult_0_l, Rplus_0_r. reflexivity.
Qed.
Lemma is_fill_not z m : unfilled (Some z) -> is_fill (Some z, m) = false.
Proof.
  intros H. unfold is_fill. cbn [fst]. destruct (req (cre z) (cre fill_number) && req (cim z) (cim fill_number)) eqn:K; [|reflexivity]. exfalso.
  apply andb_prop in K as [K1 K2]. unfold req in K1, K2. destruct (Req_EM_T (cre z) (cre fill_number)) as [E1|]; [|discriminate]. destruct (Req_EM_T (cim z) (cim fill_number)) as [E2|]; [|discriminate].
  apply H. f_equal. destruct z as [u v]. unfold cre, cim, fill_number in *. cbn [fst snd] in *. now rewrite E1, E2.
Qed.

(** ** C82: with the method linear the constants are the bilinear interpolants of the four
    nodes around a point, and nothing where one that counts is invalid *)
Theorem C82_linear : forall src sc fr files pts out c s n p around x0 dx nx y0 dy ny x y i j,
  (forall s, In s files -> framed fr (slon s)) -> (forall q, In q pts -> -360 <= fst q <= 540) ->
  extract_series_regular src Linear sc files pts = Ok out ->
  nth_error files c = Some s -> sheet_grid around x0 dx nx y0 dy ny s -> numbers ny nx s ->
  nth_error pts n = Some p -> placed fr (fst p) = x -> snd p = y ->
  reached (behind src) around nx i -> reached (behind src) around nx (i + 1) -> (S j < ny)%nat ->
  bracket (i + 1 = last_of (behind src) around nx)%Z (node_x Heights x0 dx i) (node_x Heights x0 dx (i + 1)) x ->
  bracket (S (S j) = ny) (node_y Heights y0 dy j) (node_y Heights y0 dy (S j)) y ->
  let z := corners Heights x0 dx y0 dy nx x y i j (fun j i => valid (entry (None, true) (shc s) j i)) in
  unfilled (both (mean (part fst z)) (mean (part snd z))) ->
  exists cs r, nth_error out c = Some cs /\ length cs = length pts /\ nth_error cs n = Some r /\
    (complete z -> both (mean (part fst z)) (mean (part snd z)) <> None /\ scaled sc (both (mean (part fst z)) (mean (part snd z))) r) /\ (~ complete z -> r = None).
Proof.
  intros src sc fr files pts out c s n p around x0 dx nx y0 dy ny x y i j Hf Hp H Hc G Hv Hn Ex Ey Ri Ri1 Hj Bx By z Hu.
  destruct (regular_inv _ _ _ _ _ _ _ _ _ _ _ _ _ _ _ _ _ _ Hf Hp H Hc G Hn) as (e & cs & r & Hx & Hlat & Rh & Nh & O1 & O2 & O3 & O4). rewrite Ex, Ey in O4.
  exists cs, r. repeat (split; [assumption|]). destruct G as (Gx & Gy & Nx & Ny & Rs & Ga). rewrite <- Hlat in Gy.
  assert (0 < dx) by apply Gx. assert (0 < dy) by apply Gy.
  destruct (bracket_le _ _ _ _ Bx) as [Bx1 Bx2]. destruct (bracket_le _ _ _ _ By) as [By1 By2].
  destruct (cell_inside src around x0 dx nx y0 dy ny x y i j) as [I1 I2]; auto.
  destruct (st_axes (bef around) (aft src around) nx ny x0 dx y0 dy (slon e) (slat e) Hx Gy Nx Ny) as [A1 A2].
  unfold sheet_regular in O4. rewrite (inside_sheet src around x0 dx nx y0 dy ny) in O4 by auto. cbn [bind] in O4.
  unfold cregular in O4. rewrite regular_linear in O4; auto.
  2:{ apply (sheet_boxed src around x0 dx nx y0 dy ny); auto. split; auto. unfold node_y. cbn [INR]. lra. }
  change (gspline_point (0, 0) cadd cscale) with cspline in O4.
  destruct (st_spline (bef around) (aft src around) nx ny x0 dx y0 dy (slon e) (slat e) Hx Gy Nx Ny (shc e) (fun j i => valid (entry (None, true) (shc s) j i)) Rh x y i j) as (v & m & Es & Zc & Zn); auto.
  - intros j' i' Hj' Hi'. rewrite Nh by auto. apply Hv; auto. now apply column_lt.
  - intros j' i' Hj' Hi'. now rewrite Nh by auto.
  - now apply within_reached.
  - now apply within_reached.
  - destruct Bx as [Bx|[K Bx]]; [now left|right]. split; auto. unfold last_of, behind, aft, reached in *. destruct around, src; lia.
  - rewrite Es in O4. cbn [bind] in O4. apply Ok_inj in O4 as <-. unfold settled_regular. cbn [fst snd]. rewrite orb_false_r. split.
    + intros K. destruct (Zc K) as [-> Ez]. change (both (mean (part fst z)) (mean (part snd z)) = Some v) in Ez. rewrite Ez in *. split; [discriminate|]. rewrite is_fill_not by auto. cbn. exists (cabs v), (phase_of v). split; [apply phase_of_spec|reflexivity].
    + intros K. now rewrite (Zn K).
Qed.
Print Assumptions C82_linear.

(** ** C82: with the method nearest the constants are those of the nearest node *)
Theorem C82_nearest : forall src sc fr files pts out c s n p around x0 dx nx y0 dy ny x y a b,
  (forall s, In s files -> framed fr (slon s)) -> (forall q, In q pts -> -360 <= fst q <= 540) ->
  extract_series_regular src Nearest sc files pts = Ok out ->
  nth_error files c = Some s -> sheet_grid around x0 dx nx y0 dy ny s ->
  nth_error pts n = Some p -> placed fr (fst p) = x -> snd p = y ->
  node_x Heights x0 dx (first_of around) <= x <= node_x Heights x0 dx (last_of (behind src) around nx) ->
  node_y Heights y0 dy 0 <= y <= node_y Heights y0 dy (ny - 1) ->
  reached (behind src) around nx a -> (b < ny)%nat -> nearest_node Heights x0 dx y0 dy x y a b ->
  unfilled (valid (entry (None, true) (shc s) b (column nx a))) ->
  exists cs r, nth_error out c = Some cs /\ length cs = length pts /\ nth_error cs n = Some r /\
    scaled sc (valid (entry (None, true) (shc s) b (column nx a))) r.
Proof.
  intros src sc fr files pts out c s n p around x0 dx nx y0 dy ny x y a b Hf Hp H Hc G Hn Ex Ey Ix Iy Ra Hb [Nx' Ny'] Hu.
  destruct (regular_inv _ _ _ _ _ _ _ _ _ _ _ _ _ _ _ _ _ _ Hf Hp H Hc G Hn) as (e & cs & r & Hx & Hlat & Rh & Nh & O1 & O2 & O3 & O4). rewrite Ex, Ey in O4.
  exists cs, r. repeat (split; [assumption|]). destruct G as (Gx & Gy & Nx & Ny & Rs & Ga). rewrite <- Hlat in Gy.
  assert (0 < dx) by apply Gx. assert (0 < dy) by apply Gy.
  unfold sheet_regular in O4. rewrite (inside_sheet src around x0 dx nx y0 dy ny) in O4 by (auto; unfold node_y in Iy; cbn [INR] in Iy; lra). cbn [bind] in O4.
  assert (Wa : within (bef around) (aft src around) nx a) by now apply within_reached.
  unfold cregular in O4.
  rewrite (regular_nearest (0, 0) cadd cscale (x0 - INR (bef around) * dx) dx (bef around + nx + aft src around) (slon e) y0 dy ny (slat e) (shc e) x y (ec (bef around) a) b (None, true)) in O4; auto; try lia.
  - cbn [bind] in O4. apply Ok_inj in O4 as <-. rewrite Nh by auto. destruct (entry (None, true) (shc s) b (column nx a)) as [z m]. unfold settled_regular, valid in *. cbn [fst snd] in *.
    destruct m; [reflexivity|]. destruct z as [z|]; [|reflexivity]. rewrite is_fill_not by auto. cbn. exists (cabs z), (phase_of z). split; [apply phase_of_spec|reflexivity].
  - apply (sheet_boxed src around x0 dx nx y0 dy ny); auto.
  - now apply ec_lt.
  - pose proof (ec_x (bef around) (aft src around) nx x0 dx (slon e) Hx a Wa) as E. destruct Hx as (_ & _ & Hx). rewrite Hx in E by now apply ec_lt. rewrite E. exact Nx'.
Qed.
Print Assumptions C82_nearest.

(** ** C82: nothing is returned outside of the model, of FES and of GOT (whose splines do,
    see C69_got_outside_refuted) *)
Theorem C82_outside : forall src me sc fr files pts out c s n p around x0 dx nx y0 dy ny x y,
  (forall s, In s files -> framed fr (slon s)) -> (forall q, In q pts -> -360 <= fst q <= 540) ->
  extract_series_regular src me sc files pts = Ok out ->
  nth_error files c = Some s -> sheet_grid around x0 dx nx y0 dy ny s ->
  nth_error pts n = Some p -> placed fr (fst p) = x -> snd p = y ->
  x < node_x Heights x0 dx (first_of around) \/ node_x Heights x0 dx (last_of (behind src) around nx) < x \/
  y < node_y Heights y0 dy 0 \/ node_y Heights y0 dy (ny - 1) < y ->
  exists cs, nth_error out c = Some cs /\ nth_error cs n = Some None.
Proof.
  intros src me sc fr files pts out c s n p around x0 dx nx y0 dy ny x y Hf Hp H Hc G Hn Ex Ey Ho.
  destruct (regular_inv _ _ _ _ _ _ _ _ _ _ _ _ _ _ _ _ _ _ Hf Hp H Hc G Hn) as (e & cs & r & Hx & Hlat & Rh & Nh & O1 & O2 & O3 & O4). rewrite Ex, Ey in O4.
  exists cs. split; auto. rewrite O3. f_equal. destruct G as (Gx & Gy & Nx & Ny & Rs & Ga). rewrite <- Hlat in Gy.
  destruct (st_axes (bef around) (aft src around) nx ny x0 dx y0 dy (slon e) (slat e) Hx Gy Nx Ny) as [A1 A2].
  assert (Nb : ~ boxed (slon e) (slat e) (x, y)) by (rewrite (sheet_boxed src around x0 dx nx y0 dy ny) by auto; lra).
  unfold sheet_regular in O4. match type of O4 with bind ?m _ = _ => destruct m as [b|]; [|discriminate] end. cbn [bind] in O4.
  destruct me.
  - unfold cregular in O4. rewrite regular_outside in O4 by (auto; discriminate). cbn [bind] in O4. now apply Ok_inj in O4 as <-.
  - unfold cregular in O4. rewrite regular_outside in O4 by (auto; discriminate). cbn [bind] in O4. now apply Ok_inj in O4 as <-.
  - exfalso. unfold cregular, gregular_point in O4. destruct (negb _); [discriminate|]. destruct (outside_axes _ _ _); discriminate.
Qed.
Print Assumptions C82_outside.
