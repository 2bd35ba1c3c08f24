(** C86: reading cropped OTIS models, that there is a result, and currents with the bounds of
    the points; concrete cases. *)
From Coq Require Import Reals List Bool Arith ZArith Lra Lia.
From Verif Require Import PyBase RBase MathModel GeoModel ConvertProps GridModel GridProofs InterpModel InterpProps ExtractModel ExtractSpec NodeProps ExtractProofs ExtractProps SplineProps ReturnProps SeriesModel SeriesProps SeriesProps3 RegularModel CropModel CropSpec CropProofs CropProofs2 CropProps ShoreModel CoastModel CoastProps CoastProps3 NarrowModel NarrowSpec NarrowProofs NarrowProps NarrowProps2 NarrowProps3 NarrowProps4.
Import ListNotations.
Open Scope R_scope.

(** ** Reading a cropped model is reading the model of the rows and columns kept *)
Theorem C86_reading : forall geo around t k b m x0 dx nx y0 dy ny g hcs f i j,
  model_grid geo around x0 dx nx y0 dy ny g hcs -> kind_of t = Some k -> (geo = true -> 1 / 250 < dx /\ INR nx * dx <= 360) ->
  some_limit b -> frame geo x0 dx nx (x_min b) (x_max b) f -> f = 0%Z \/ around = true ->
  nothing_lost geo around k x0 dx nx y0 dy ny b m f ->
  (f <= i)%Z -> (i + 1 < f + Z.of_nat nx)%Z -> stays (x_min b) (x_max b) m (node_x Heights x0 dx i) -> stays (x_min b) (x_max b) m (node_x Heights x0 dx (i + 1)) ->
  (S j < ny)%nat -> stays (y_min b) (y_max b) m (node_y Heights y0 dy j) -> stays (y_min b) (y_max b) m (node_y Heights y0 dy (S j)) ->
  exists around' a na c nr g' hcs', cropped_model geo around x0 dx nx y0 dy ny b m f g hcs around' a na c nr g' hcs' /\
    read_narrow geo t true (Some b) m g hcs = read_constants geo t g' hcs'.
Proof.
  intros geo around t k b m x0 dx nx y0 dy ny g hcs f i j M Hk Hg Sb F Hf NL Hi Hi1 Si Si1 Hj Sj Sj1.
  pose proof M as (Ex & Ey & Hx & Hy & Rh & Rm & Rc & Ga). assert (Dx : 0 < dx) by apply Ex. assert (Dy : 0 < dy) by apply Ey.
  destruct (kept_exists x0 dx nx y0 dy ny (x_min b) (x_max b) (y_min b) (y_max b) m f i j Dx Dy) as (a & na & c & nr & Kc & Kr & _ & _); auto; [lia | lia |].
  assert (N1 : (2 <= na)%nat). { destruct Kc as (_ & _ & K3). apply K3 in Si; [|lia]. apply K3 in Si1; [|lia]. lia. }
  assert (N2 : (2 <= nr)%nat). { destruct Kr as (_ & K3). apply K3 in Sj; [|lia]. apply K3 in Sj1; [|lia]. lia. }
  destruct (crop_start geo around b m x0 dx nx y0 dy ny g hcs f a na c nr M Hg F Hf Kc Kr N1 N2) as (around' & hz & mz & xa & ya & Ha & Ez & Eh & Bh & Bz & Xa & Ya & Ga' & Hf').
  destruct (mx_same geo around around' b m t k x0 dx nx y0 dy ny f a na (gx g) Ex Hx Hk F Hf' Kc ltac:(lia) Ha NL) as (mx & Emx & Smx).
  pose proof (my_same geo around b m t k x0 dx nx y0 dy ny f c nr (gy g) Ey Hk Kr ltac:(lia) NL) as Smy.
  destruct (crop_block geo b m x0 dx nx y0 dy ny f a na c nr mx _ Hx F Hf' Kc Kr ltac:(lia) ltac:(lia) Smx Smy) as (xa' & ya' & _ & _ & Cr).
  destruct (crop_fields (fun hc : field => do c <- crop_matrix geo b m hc mx (axis_my t b m dy (gy g)) ;; Ok (fst (fst c))) (block (None, true) nx a na c nr) hcs) as (hcs' & C1 & C2 & C3 & C4).
  { intros hc Hc. destruct (Cr (gcell cpx) (None, true) hc (Rc hc Hc)) as (h & E1 & E2). exists h. rewrite E1. split; [reflexivity | exact E2]. }
  assert (M' : model_grid geo around' (node_x Heights x0 dx a) dx na (node_y Heights y0 dy c) dy nr (Grid xa ya hz mz) hcs').
  { split; [exact Xa|]. split; [exact Ya|]. split; [exact N1|]. split; [exact N2|]. split; [apply Bh|]. split; [apply Bz|]. split; [|exact Ga']. intros h Hh. destruct (C4 h Hh) as (hc & _ & Bc). apply Bc. }
  exists around', a, na, c, nr, (Grid xa ya hz mz), hcs'. split.
  { split; [exact Kc|]. split; [exact Kr|]. split; [exact Ha|]. split; [exact M'|]. split; [exact Bh|]. split; [exact Bz|]. split; [exact C2 | exact C3]. }
  assert (Ta : (geo && req (last xa 0 - hd 0 xa) (360 - dx))%bool = around').
  { rewrite (evenly_span _ _ _ _ Xa ltac:(lia)). unfold req. destruct Ga' as [(-> & -> & E)|[-> [->|Nc]]]; [| reflexivity |].
    - rewrite minus_INR by lia. cbn [INR]. destruct (Req_EM_T _ _) as [_|N]; [reflexivity | exfalso; apply N; lra].
    - destruct (Req_EM_T _ _) as [E|_]; [|apply andb_false_r]. exfalso. apply Nc. rewrite E. unfold ExtractSpec.close. replace (360 - dx - (360 - dx)) with 0 by ring. rewrite Rabs_R0. pose proof (Rabs_pos (360 - dx)). lra. }
  unfold read_narrow, read_constants. rewrite (any_limit_t _ Sb). cbn [andb gx gy]. rewrite (evenly_spacing _ _ _ _ Ex Hx), (evenly_spacing _ _ _ _ Ey Hy), (evenly_spacing _ _ _ _ Xa N1), (evenly_spacing _ _ _ _ Ya N2). cbn [bind].
  rewrite Ez. cbn [bind]. rewrite Eh. cbn [bind fst snd]. rewrite Ta, Emx. cbn [bind].
  destruct (if around' then extend_axis xa dx else Ok xa) as [xe|e]; [|reflexivity]. cbn [bind].
  destruct (layer around' dx dy xe ya (Grid xa ya hz mz) t) as [[[xi yi] d]|e]; [|reflexivity]. cbn [bind].
  assert (Em : mapM (fun hc => do c <- crop_matrix geo b m hc mx (axis_my t b m dy (gy g)) ;; do e <- extend_if around' (fst (fst c)) ;; remask d e) hcs = mapM (fun h => do e <- extend_if around' h ;; remask d e) hcs').
  { rewrite <- (mapM_through _ _ _ _ C1). apply mapM_ext_in. intros hc _. destruct (crop_matrix geo b m hc mx _) as [c'|e]; reflexivity. }
  now rewrite Em.
Qed.
Print Assumptions C86_reading.
Lemma pairs_in {A B} (P : A -> B -> Prop) l l' : Forall2 P l l' -> forall q, In q l' -> exists p, In p l /\ P p q.
Proof. induction 1 as [|x y l l' H _ IH]; intros q; [intros []|]. intros [<-|Hq]; [exists x; split; [now left | auto]|]. destruct (IH q Hq) as (p & I1 & I2). exists p. split; [now right | auto]. Qed.
(** ** There is a result: heights of any model, currents if no row or column is lost *)
Theorem C86_returns : forall fwd geo around w t k ex bounds buffer b m x0 dx nx y0 dy ny g hcs lonlat f i j,
  model_grid geo around x0 dx nx y0 dy ny g hcs -> kind_of t = Some k -> (geo = true -> 1 / 250 < dx /\ INR nx * dx <= 360) -> lonlat <> [] ->
  for_points bounds (map fwd lonlat) b -> some_limit b -> margin buffer dx m ->
  frame geo x0 dx nx (x_min b) (x_max b) f -> f = 0%Z \/ around = true ->
  nothing_lost geo around k x0 dx nx y0 dy ny b m f ->
  (f <= i)%Z -> (i + 1 < f + Z.of_nat nx)%Z -> stays (x_min b) (x_max b) m (node_x Heights x0 dx i) -> stays (x_min b) (x_max b) m (node_x Heights x0 dx (i + 1)) ->
  (S j < ny)%nat -> stays (y_min b) (y_max b) m (node_y Heights y0 dy j) -> stays (y_min b) (y_max b) m (node_y Heights y0 dy (S j)) ->
  geo = false \/ ~ all_columns around x0 dx nx b m f /\ ex = None -> w <> Regular Unknown ->
  (w = Quick Bilinear -> forall p x, In p lonlat -> x = fst (fwd p) \/ geo = true /\ x = westward (fst (fwd p)) -> forall i, x <> node_x k x0 dx i) ->
  exists depths cols, extract_narrow fwd geo w t ex true bounds buffer g hcs lonlat = Ok (depths, cols).
Proof.
  intros fwd geo around w t k ex bounds buffer b m x0 dx nx y0 dy ny g hcs lonlat f i j M Hk Hg Ne Hb Sb Hm F Hf NL Hi Hi1 Si Si1 Hj Sj Sj1 Hex Hw Hq.
  destruct (C86_model fwd geo around w t k ex bounds buffer b m x0 dx nx y0 dy ny g hcs lonlat f i j M Hk Hg Ne Hb Sb Hm F Hf NL Hi Hi1 Si Si1 Hj Sj Sj1) as (around' & a & na & c & nr & g' & hcs' & Cm & E1 & E2).
  destruct Cm as (Kc & Kr & Ha & M' & Bh & Bz & Lh & Bc). pose proof Kc as (K1 & K2 & K3).
  destruct Hex as [Hgf|[Na He]].
  - rewrite E1 by auto. apply (C85_returns _ _ _ _ _ _ _ _ _ _ _ _ _ _ _ _ M' Hk Ne Hw). intros Ew p x Hp Cv. rewrite Hgf in Cv. inversion Cv; try discriminate. subst.
    replace (last_column around' na) with (last_column around' na + a - a)%Z by ring. rewrite node_shift. apply (Hq eq_refl p); auto.
  - assert (Af : around' = false). { destruct around'; auto. exfalso. destruct (proj1 Ha eq_refl) as [A1 ->]. apply Na. assert (2 <= nx)%nat by apply M'. split; auto. split; apply K3; lia. }
    rewrite Af in M'. set (hi := node_x Heights x0 dx (a + Z.of_nat na - 1)) in *. set (X := map (fun p => fst (fwd p)) lonlat) in *.
    assert (D : (geo = false \/ (forall v, In v X -> v <= hi)) \/ (geo = true /\ exists v, In v X /\ hi < v)).
    { destruct geo; [|left; now left]. clear - X. induction X as [|v X' IH]; [left; right; intros v []|]. destruct IH as [[IH|IH]|[_ (u & U1 & U2)]]; [discriminate | | right; split; auto; exists u; split; [now right | auto]].
      destruct (Rle_lt_dec v hi) as [L|L]; [left; right; intros u [<-|U]; auto | right; split; auto; exists v; split; [now left | auto]]. }
    assert (Pt : exists pts, Forall2 (fun p q => snd q = snd (fwd p) /\ settled geo hi X (fst (fwd p)) (fst q)) lonlat pts).
    { destruct D as [D|[D1 D2]].
      - exists (map fwd lonlat). clearbody X. generalize lonlat as l. intros l. induction l as [|q l IH]; cbn [map]; constructor; auto. split; auto. now apply settled_same.
      - exists (map (fun p => (westward (fst (fwd p)), snd (fwd p))) lonlat). clearbody X. generalize lonlat as l. intros l. induction l as [|q l IH]; cbn [map]; constructor; auto. split; auto. now apply settled_west. }
    destruct Pt as [pts Pt]. rewrite (E2 Af He pts Pt). assert (M0 : model_grid false false (node_x Heights x0 dx a) dx na (node_y Heights y0 dy c) dy nr g' hcs').
    { destruct M' as (Q1 & Q2 & Q3 & Q4 & Q5 & Q6 & Q7 & Q8); repeat (split; [assumption|]); right; auto. }
    apply (C85_returns _ _ _ _ _ _ _ _ _ _ _ _ _ _ _ _ M0 Hk); auto. { intros ->. inversion Pt. subst. now apply Ne. }
    intros Ew q x Hin Cv. inversion Cv; try discriminate. subst. replace (last_column false na) with (last_column false na + a - a)%Z by ring. rewrite node_shift.
    assert (Hp : exists p, In p lonlat /\ settled geo hi X (fst (fwd p)) (fst q)).
    { destruct (pairs_in _ _ _ Pt q Hin) as (p & P1 & _ & P2). eauto. }
    destruct Hp as (p & Hp & Sp). apply (Hq eq_refl p); auto. inversion Sp; [now left | right; auto].
Qed.
Print Assumptions C86_returns.

(** ** Zonal currents with the bounds of the points: no result for points the westernmost of
    which lies in the western half of the cell before a column *)
Theorem C86_default_refuted : forall fwd around w t ex b x0 dx nx y0 dy ny g hcs lonlat i j out,
  model_grid false around x0 dx nx y0 dy ny g hcs -> kind_of t = Some Zonal -> hcs <> [] ->
  for_points None (map fwd lonlat) b -> some_limit b ->
  (4 <= i < Z.of_nat nx)%Z -> node_x Zonal x0 dx i < x_min b <= node_x Heights x0 dx i ->
  (S j < ny)%nat -> stays (y_min b) (y_max b) (4 * dx) (node_y Heights y0 dy j) -> stays (y_min b) (y_max b) (4 * dx) (node_y Heights y0 dy (S j)) ->
  extract_narrow fwd false w t ex true None None g hcs lonlat <> Ok out.
Proof.
  intros fwd around w t ex b x0 dx nx y0 dy ny g hcs lonlat i j out M Hk Nh Hb Sb Hi (L1 & L2) Hj Sj Sj1. assert (Dx : 0 < dx) by apply M.
  assert (Hmm : x_min b <= x_max b) by (destruct Hb as [(I1 & I2 & I3) _]; apply (I3 _ I1)).
  assert (N4 : node_x Heights x0 dx (i - 4) = node_x Heights x0 dx i - 4 * dx) by (unfold node_x; rewrite minus_IZR; ring).
  assert (N3 : node_x Heights x0 dx (i - 4 + 1) = node_x Heights x0 dx i - 3 * dx) by (unfold node_x; rewrite plus_IZR, minus_IZR; ring).
  assert (Nz : node_x Zonal x0 dx i = node_x Heights x0 dx i - dx / 2) by (unfold node_x; lra).
  assert (Nz4 : node_x Zonal x0 dx (i - 4) = node_x Heights x0 dx i - dx / 2 - 4 * dx) by (unfold node_x; rewrite minus_IZR; lra).
  apply (C86_zonal_refuted fwd false around w t ex None None b (4 * dx) x0 dx nx y0 dy ny g hcs lonlat (i - 4) j out M Hk); auto; try discriminate; try lia.
  - intros ->. destruct Hb as [(I1 & _) _]. destruct I1.
  - reflexivity. - left; auto.
  - unfold stays. lra. - unfold stays. rewrite N3. lra.
  - intros [A _]. destruct M as (_ & _ & _ & _ & _ & _ & _ & [(_ & G & _)|[G _]]); congruence.
  - exists (i - 4)%Z. split; [lia|]. unfold stays. lra.
Qed.
Print Assumptions C86_default_refuted.

(** ** Bounds which contain no column or no row of the model *)
Theorem C86_empty : forall fwd geo around w t ex bounds buffer b m x0 dx nx y0 dy ny g hcs lonlat f,
  model_grid geo around x0 dx nx y0 dy ny g hcs -> (geo = true -> 1 / 250 < dx /\ INR nx * dx <= 360) -> lonlat <> [] ->
  for_points bounds (map fwd lonlat) b -> some_limit b -> margin buffer dx m ->
  frame geo x0 dx nx (x_min b) (x_max b) f -> f = 0%Z \/ around = true ->
  (forall i, (f <= i < f + Z.of_nat nx)%Z -> ~ stays (x_min b) (x_max b) m (node_x Heights x0 dx i)) \/
  (forall j, (j < ny)%nat -> ~ stays (y_min b) (y_max b) m (node_y Heights y0 dy j)) ->
  extract_narrow fwd geo w t ex true bounds buffer g hcs lonlat = Err IndexError /\ read_narrow geo t true (Some b) m g hcs = Err IndexError.
Proof.
  intros fwd geo around w t ex bounds buffer b m x0 dx nx y0 dy ny g hcs lonlat f M Hg Ne Hb Sb Hm F Hf He.
  pose proof M as (Ex & Ey & Hx & Hy & Rh & Rm & Rc & Ga).
  assert (Hf' : f = 0%Z \/ INR nx * dx = 360 /\ 1 / 10000 < dx).
  { destruct Hf as [Hf|Hf]; [now left|]. right. destruct Ga as [(_ & G & E)|[G _]]; [|congruence]. split; auto. destruct (Hg G). lra. }
  destruct (narrow_start fwd geo w t ex bounds buffer b m x0 dx nx y0 dy ny g hcs lonlat Ex Hx Ey Hy Ne Hb Sb Hm) as (top & Et & ->).
  destruct (framed geo b x0 dx nx (gx g) f Ex Hx F Hf') as (tr & xs' & T1 & _ & T3 & _ & T5). destruct (T5 Z 0%Z ny (gmz g) Rm) as (t' & E1 & E2 & _).
  assert (Ec : crop_matrix geo b m (gmz g) (gx g) (gy g) = Err IndexError).
  { unfold crop_matrix. rewrite T1. cbn [bind]. match goal with |- bind ?x _ = _ => assert (E1' : x = Ok (t', xs')) by exact E1; rewrite E1' end. cbn [bind fst snd]. unfold cut_matrix. destruct He as [He|He].
    - rewrite (kept_none (x_min b) (x_max b) m xs'). 2:{ destruct T3 as (_ & L & N). rewrite L. intros i Hi. rewrite N by auto. replace (node_x Heights x0 dx f + INR i * dx) with (node_x Heights x0 dx (f + Z.of_nat i)) by (unfold node_x; rewrite plus_IZR, <- INR_IZR_INZ; ring). apply He. lia. }
      destruct (ind_slice _ t') as [rows|e] eqn:Er; cbn [bind ind_slice]; [reflexivity|]. destruct (kept _ _ _ (gy g)); [|discriminate]. now injection Er as <-.
    - rewrite (kept_none (y_min b) (y_max b) m (gy g)); [reflexivity|]. destruct Ey as (_ & L & N). rewrite L. intros j Hj. rewrite N by auto. now apply He. }
  split; [now rewrite Ec|]. unfold read_narrow. rewrite (any_limit_t _ Sb). cbn [andb]. rewrite (evenly_spacing _ _ _ _ Ex Hx), (evenly_spacing _ _ _ _ Ey Hy). cbn [bind]. now rewrite Ec.
Qed.
Print Assumptions C86_empty.
(** without bounds, all zero ones or cropping the whole model is read *)
Theorem C86_whole : forall geo t crop bounds m g hcs,
  crop = false \/ bounds = None \/ (exists b, bounds = Some b /\ x_min b = 0 /\ x_max b = 0 /\ y_min b = 0 /\ y_max b = 0) ->
  read_narrow geo t crop bounds m g hcs = read_constants geo t g hcs.
Proof.
  intros geo t crop bounds m g hcs [->|[->|([x1 x2 y1 y2] & -> & H)]]; [destruct bounds; reflexivity | reflexivity |]. cbn [x_min x_max y_min y_max] in H. destruct H as (-> & -> & -> & ->).
  unfold read_narrow. assert (E : any_limit (Limits 0 0 0 0) = false); [|rewrite E, andb_false_r; reflexivity].
  unfold any_limit, req. cbn [x_min x_max y_min y_max]. destruct (Req_EM_T 0 0); [reflexivity | congruence].
Qed.
Print Assumptions C86_whole.
