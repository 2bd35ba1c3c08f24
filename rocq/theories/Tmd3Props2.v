(** C75: constants extracted from TMD3 files. *)
From Coq Require Import String Ascii Reals List Bool Arith ZArith Lia Lra.
From Verif Require Import PyBase RBase MathModel GeoModel GridModel InterpModel ConvertProps ExtractModel ExtractSpec ExtractProofs NodeProps ExtractProps ReturnProps Tmd3Model Tmd3Spec Tmd3Props.
Import ListNotations.
Open Scope R_scope.

Lemma grid_of geo around x0 dx nx y0 dy ny names t f hcs : tmd3_file geo around x0 dx nx y0 dy ny names t f -> (forall hc, In hc hcs -> rect ny nx hc) ->
  model_grid geo around x0 dx nx y0 dy ny (fst (fst (read_grid f))) hcs.
Proof.
  intros (Ex & Ey & Hx & Hy & Rw & Rm & Rf & _ & _ & _ & Ha) Hc. unfold read_grid, north_up. cbn [fst]. unfold model_grid. cbn [gx gy ghz gmz].
  split; [exact Ex|]. split; [exact (south_axis _ _ _ _ Ey)|]. split; [exact Hx|]. split; [exact Hy|]. split; [apply rev_rect, map_rect; exact Rw|]. split; [apply rev_rect; exact Rm|]. split; [exact Hc|exact Ha].
Qed.
(** the depth of the water at a node is that of the file *)
Lemma water_of geo around x0 dx nx y0 dy ny names t f k j i : tmd3_file geo around x0 dx nx y0 dy ny names t f -> (j < ny)%nat -> (i < nx)%nat ->
  water (entry 0 (ghz (fst (fst (read_grid f))))) (entry 0%Z (gmz (fst (fst (read_grid f))))) around nx k j i =
  water (fun j i => fst (from_south (0, false) ny (t_wct f) j i)) (from_south 0%Z ny (t_mask f)) around nx k j i.
Proof.
  intros (Ex & Ey & Hx & Hy & Rw & Rm & Rf & _) Hj Hi.
  assert (G : forall j i, (j < ny)%nat -> (i < nx)%nat -> entry 0 (ghz (fst (fst (read_grid f)))) j i = fst (from_south (0, false) ny (t_wct f) j i) /\ entry 0%Z (gmz (fst (fst (read_grid f)))) j i = from_south 0%Z ny (t_mask f) j i).
  { intros a b Ha Hb. pose proof (C75_grid f ny nx a b Rw Rm Rf (proj1 (proj2 Ey)) Ha Hb) as G. destruct (read_grid f) as [[g hz] sf]. cbn [fst]. tauto. }
  assert (Hw : (west around nx i < nx)%nat) by (unfold west; destruct i; [destruct around; lia|lia]). assert (Hs : (south j < ny)%nat) by (unfold south; lia).
  unfold water. destruct k.
  - now rewrite (proj1 (G j i Hj Hi)), (proj2 (G j i Hj Hi)).
  - now rewrite (proj1 (G j i Hj Hi)), (proj1 (G j _ Hj Hw)).
  - now rewrite (proj1 (G j i Hj Hi)), (proj1 (G _ i Hs Hi)).
Qed.
Lemma returned_lag v w re im out : returned v w (tide w (Some (re, - im), false)) out -> lag v w re im out.
Proof.
  unfold lag, tide. destruct w as [d|]; [|intros H; exact H]. destruct (Req_EM_T re 0) as [Z1|N1]; [destruct (Req_EM_T (- im) 0) as [Z2|N2]|].
  - intros H. left. repeat split; [exact Z1|lra|exact H].
  - intros (a & p & (A1 & A2 & A3 & A4) & ->). right. split; [intros [_ K]; lra|]. exists a, p. cbn [fst snd] in *. repeat split; try lra; try apply A2.
  - intros (a & p & (A1 & A2 & A3 & A4) & ->). right. split; [intros [K _]; lra|]. exists a, p. cbn [fst snd] in *. repeat split; try lra; try apply A2.
Qed.

Lemma no_value_iff (dep : option R) : snd (dep, no_value dep) = true <-> dep = None.
Proof. destruct dep; cbn; split; intros; congruence. Qed.
(** ** At a node: the amplitude and lag of the constant in the file at that node *)
Theorem C75_extract : forall fwd geo around t k x0 dx nx y0 dy ny names flexure f lonlat cons out n p x y i j,
  tmd3_file geo around x0 dx nx y0 dy ny names t f -> kind_of t = Some k ->
  (forall j i, (j < ny)%nat -> (i < nx)%nat -> snd (from_south (0, false) ny (t_flexure f) j i) = false) ->
  extract_tmd3 fwd geo Bilinear t flexure f lonlat = Ok (cons, out) -> nth_error lonlat n = Some p ->
  convention geo x0 (x0 + INR (nx - 1) * dx) (map (fun p => fst (fwd p)) lonlat) (fst (fwd p)) x -> snd (fwd p) = y ->
  reach around x0 dx nx x -> in_rows y0 dy ny (x, y) ->
  columns around nx i -> columns around nx (i + 1) -> (S j < ny)%nat ->
  between_nodes k x0 dx y0 dy x y i j -> x = node_x k x0 dx i -> y = node_y k y0 dy j ->
  (k = Zonal -> around = true \/ (0 < i)%Z) ->
  let depth := water (fun j i => fst (from_south (0, false) ny (t_wct f) j i)) (from_south 0%Z ny (t_mask f)) around nx k j (column nx i) in
  cons = names /\ exists d cs, nth_error out n = Some (d, cs) /\ fst d = depth /\ (snd d = true <-> depth = None) /\ length cs = length names /\
    forall c, (c < length names)%nat -> exists re im r, nth_error (real_part f t) c = Some re /\ nth_error (imaginary_part f t) c = Some im /\ nth_error cs c = Some r /\
      let s := factor flexure t ny f j (column nx i) in
      lag (velocity t) depth (s * fst (from_south (0, false) ny re j (column nx i))) (s * fst (from_south (0, false) ny im j (column nx i))) r.
Proof.
  intros fwd geo around t k x0 dx nx y0 dy ny names flexure f lonlat cons out n p x y i j F Hk Hm H Hn Hc Hy' Hr Hrow Ci Ci1 Hj B Ex Ey HZ depth.
  assert (Ht : t <> Vother) by (intros ->; discriminate). destruct (fields_read geo around x0 dx nx y0 dy ny names t flexure f F Ht Hm) as (hcs & Eh & Lh & Rh & Vh).
  pose proof (grid_of geo around x0 dx nx y0 dy ny names t f hcs F Rh) as M. pose proof (fun k j i => water_of geo around x0 dx nx y0 dy ny names t f k j i F) as W.
  unfold extract_tmd3 in H. destruct (read_grid f) as [[g hz] sf] eqn:Eg. cbn [fst] in M, W. rewrite Eh in H. cbn [bind] in H.
  destruct (extract_constants fwd geo Bilinear t g hcs lonlat) as [out'|e] eqn:Eo; [|discriminate]. cbn [bind] in H. apply Ok_inj in H. injection H as <- <-.
  assert (Sp : spelled (t_order f) names) by apply F. split; [now apply C75_names|].
  assert (A0 : at_node k x0 dx y0 dy x y i j). { split; left; [rewrite <- Ex|rewrite <- Ey]; unfold ExtractSpec.close; rewrite Rminus_eq_0, Rabs_R0; match goal with |- 0 <= _ + _ * Rabs ?v => pose proof (Rabs_pos v); lra end. }
  destruct (C68_node fwd geo around t k x0 dx nx y0 dy ny g hcs lonlat out' n p x y i j M Hk Eo Hn Hc Hy' Hr Hrow Ci Ci1 Hj B A0 HZ) as (a & b & cs & _ & _ & _ & _ & Hab & O & Lc & V).
  destruct (Hab Ex Ey) as [-> ->]. clear Hab.
  assert (Hcol : (column nx i < nx)%nat). { assert (2 <= nx)%nat by apply F. unfold column. assert (0 <= Z.modulo i (Z.of_nat nx) < Z.of_nat nx)%Z by (apply Z.mod_pos_bound; lia). lia. }
  rewrite (W k j (column nx i)) in O, V by (auto; lia). fold depth in O, V.
  exists (depth, no_value depth), cs. split; [exact O|]. split; [reflexivity|]. split; [apply no_value_iff|]. split; [congruence|].
  intros c Hcn. destruct (nth_error hcs c) as [hc|] eqn:Ehc; [|apply nth_error_None in Ehc; lia]. destruct (V c hc Ehc) as (r & Er & Hret). destruct (Vh c hc Ehc) as (re & im & Ere & Eim & Ht2).
  exists re, im, r. split; [exact Ere|]. split; [exact Eim|]. split; [exact Er|]. cbv zeta. apply returned_lag. rewrite <- (Ht2 j (column nx i) depth) by (auto; lia). exact Hret.
Qed.
Print Assumptions C75_extract.

(** ** Extraction returns, unless a point is exactly on the last column (bilinear) *)
Theorem C75_returns : forall fwd geo around me t k x0 dx nx y0 dy ny names flexure f lonlat,
  tmd3_file geo around x0 dx nx y0 dy ny names t f -> kind_of t = Some k -> lonlat <> [] ->
  (forall j i, (j < ny)%nat -> (i < nx)%nat -> snd (from_south (0, false) ny (t_flexure f) j i) = false) ->
  (me = Bilinear -> forall p x, In p lonlat -> convention geo x0 (x0 + INR (nx - 1) * dx) (map (fun p => fst (fwd p)) lonlat) (fst (fwd p)) x ->
    x <> node_x k x0 dx (last_column around nx)) ->
  exists out, extract_tmd3 fwd geo me t flexure f lonlat = Ok (names, out) /\ length out = length lonlat.
Proof.
  intros fwd geo around me t k x0 dx nx y0 dy ny names flexure f lonlat F Hk Hne Hm Hl.
  assert (Ht : t <> Vother) by (intros ->; discriminate). destruct (fields_read geo around x0 dx nx y0 dy ny names t flexure f F Ht Hm) as (hcs & Eh & Lh & Rh & Vh).
  pose proof (grid_of geo around x0 dx nx y0 dy ny names t f hcs F Rh) as M. destruct (C68_returns fwd geo around me t k x0 dx nx y0 dy ny _ hcs lonlat M Hk Hne Hl) as (out & Eo & Lo).
  exists out. split; [|exact Lo]. unfold extract_tmd3. destruct (read_grid f) as [[g hz] sf] eqn:Eg. cbn [fst] in Eo. rewrite Eh. cbn [bind]. rewrite Eo. cbn [bind]. now rewrite (C75_names f names) by apply F.
Qed.
Print Assumptions C75_returns.
(** ** More names than constants is an error *)
Theorem C75_short : forall fwd geo me t flexure f lonlat names, t <> Vother -> spelled (t_order f) names -> (length (real_part f t) < length names)%nat ->
  exists e, extract_tmd3 fwd geo me t flexure f lonlat = Err e.
Proof.
  intros fwd geo me t flexure f lonlat names Ht Sp Hl. unfold extract_tmd3. destruct (read_grid f) as [[g hz] sf] eqn:Eg.
  assert (E : exists e, tmd3_fields f t flexure = Err e).
  { unfold tmd3_fields. rewrite Eg, (C75_names f names Sp). apply (mapM_none _ _ (length (real_part f t)) IndexError); [apply in_seq; lia|].
    assert (Ec : components f t = Some (real_part f t, imaginary_part f t)) by (destruct t; try reflexivity; congruence). unfold read_file. rewrite Ec. unfold get1, ncell. rewrite (proj2 (nth_error_None _ _) (le_n _)). reflexivity. }
  destruct E as [e E]. exists e. rewrite E. reflexivity.
Qed.
Print Assumptions C75_short.

Lemma zip_numbers (u v : list (list ncell)) : zip22 (fun (p q : ncell) => (Some (fst p, - fst q), false)) u v = zip22 (fun p q : R => (Some (p, - q), false)) (map (map fst) u) (map (map fst) v).
Proof.
  revert v. induction u as [|r u IH]; intros [|s v]; try reflexivity. unfold zip22, zip2 in *. cbn [map combine fst snd]. f_equal; [|apply IH].
  revert s. induction r as [|p r IHr]; intros [|q s]; try reflexivity. cbn [map combine fst snd]. f_equal. apply IHr.
Qed.
Lemma numbers_only ic (re im re' im' : list (list (list ncell))) : map (map (map fst)) re' = map (map (map fst)) re -> map (map (map fst)) im' = map (map (map fst)) im ->
  (do a <- get1 re' ic ;; do b <- get1 im' ic ;; Ok (zip22 (fun (p q : ncell) => (Some (fst p, - fst q), false)) (north_up a) (north_up b))) =
  (do a <- get1 re ic ;; do b <- get1 im ic ;; Ok (zip22 (fun (p q : ncell) => (Some (fst p, - fst q), false)) (north_up a) (north_up b))).
Proof.
  intros Er Ei. pose proof (f_equal (fun l => nth_error l ic) Er) as E1. pose proof (f_equal (fun l => nth_error l ic) Ei) as E2. cbv beta in E1, E2. rewrite !nth_error_map in E1, E2. unfold get1. unfold ncell in *.
  destruct (nth_error re' ic) as [a'|], (nth_error re ic) as [a|]; cbn [option_map] in E1; try discriminate; [|reflexivity]. cbn [bind].
  destruct (nth_error im' ic) as [b'|], (nth_error im ic) as [b|]; cbn [option_map] in E2; try discriminate; [|reflexivity]. cbn [bind].
  f_equal. injection E1 as E1. injection E2 as E2. etransitivity; [apply zip_numbers|]. etransitivity; [|symmetry; apply zip_numbers]. unfold north_up, ncell in *. rewrite !map_rev. now rewrite E1, E2.
Qed.
Lemma variable_other t : t = Vother \/ t <> Vother.
Proof. destruct t; [right|right|right|right|right|left]; congruence. Qed.
(** ** Cells that are missing in the file are used: neither what is read of a constant nor
    of a depth depends on which cells are missing *)
Theorem C75_missing_refuted : forall f f' t ic,
  t_x f' = t_x f -> t_y f' = t_y f -> t_mask f' = t_mask f ->
  map (map fst) (t_wct f') = map (map fst) (t_wct f) ->
  map (map (map fst)) (real_part f' t) = map (map (map fst)) (real_part f t) -> map (map (map fst)) (imaginary_part f' t) = map (map (map fst)) (imaginary_part f t) ->
  read_file f' ic t = read_file f ic t /\ fst (read_grid f') = fst (read_grid f).
Proof.
  intros f f' t ic Ex Ey Em Ew Er Ei. split; [|unfold read_grid; cbn [fst]; now rewrite Ex, Ey, Em, Ew].
  destruct (variable_other t) as [->|Ht]; [unfold read_file; cbn [components]; now rewrite Ex, Ey|].
  assert (Ec : forall f, components f t = Some (real_part f t, imaginary_part f t)) by (intros f0; destruct t; try reflexivity; congruence).
  unfold read_file. rewrite !Ec. exact (numbers_only ic _ _ _ _ Er Ei).
Qed.
Print Assumptions C75_missing_refuted.
