(** C86: extraction from a cropped OTIS model is extraction from the model of the rows and
    columns within the bounds, and fails for currents where one of them is lost. *)
From Coq Require Import Reals List Bool Arith ZArith Lra Lia.
From Verif Require Import PyBase RBase MathModel GeoModel ConvertProps GridModel GridProofs InterpModel InterpProps ExtractModel ExtractSpec NodeProps ExtractProofs ExtractProps SplineProps ReturnProps SeriesModel SeriesProps SeriesProps3 RegularModel CropModel CropSpec CropProofs CropProofs2 CropProps ShoreModel CoastModel CoastProps NarrowModel NarrowSpec NarrowProofs NarrowProps.
Import ListNotations.
Open Scope R_scope.

(** the model of the rows and columns within the bounds *)
Definition cropped_model (geo around : bool) (x0 dx : R) (nx : nat) (y0 dy : R) (ny : nat) (b : limits) (m : R) (f : Z) (g : grid) (hcs : list field)
    (around' : bool) (a : Z) (na c nr : nat) (g' : grid) (hcs' : list field) : Prop :=
  columns_kept x0 dx nx (x_min b) (x_max b) m f a na /\ rows_kept y0 dy ny (y_min b) (y_max b) m c nr /\
  (around' = true <-> around = true /\ na = nx) /\
  model_grid geo around' (node_x Heights x0 dx a) dx na (node_y Heights y0 dy c) dy nr g' hcs' /\
  block 0 nx a na c nr (ghz g) (ghz g') /\ block 0%Z nx a na c nr (gmz g) (gmz g') /\
  length hcs' = length hcs /\ forall n hc, nth_error hcs n = Some hc -> exists hc', nth_error hcs' n = Some hc' /\ block (None, true) nx a na c nr hc hc'.
(** the first column or row is not lost to currents *)
Definition nothing_lost (geo around : bool) (k : kind) (x0 dx : R) (nx : nat) (y0 dy : R) (ny : nat) (b : limits) (m : R) (f : Z) : Prop :=
  (k = Zonal -> f <> 0%Z \/
     around = true /\ stays (x_min b) (x_max b) m (node_x Heights x0 dx 0) /\ stays (x_min b) (x_max b) m (node_x Heights x0 dx (Z.of_nat nx - 1)) \/
     ~ column_lost x0 dx nx (x_min b) (x_max b) m /\ (geo = true -> 180 < Rmax (x_min b) (x_max b) -> 0 <= node_x Zonal x0 dx 0)) /\
  (k = Meridional -> ~ row_lost y0 dy ny (y_min b) (y_max b) m).

Lemma crop_fields {A} (F : list (list A) -> res (list (list A))) (P : list (list A) -> list (list A) -> Prop) hcs : (forall hc, In hc hcs -> exists h, F hc = Ok h /\ P hc h) ->
  exists hcs', mapM F hcs = Ok hcs' /\ length hcs' = length hcs /\ (forall n hc, nth_error hcs n = Some hc -> exists h, nth_error hcs' n = Some h /\ P hc h) /\ (forall h, In h hcs' -> exists hc, In hc hcs /\ P hc h).
Proof.
  induction hcs as [|hc hcs IH]; intros H.
  - exists []. split; [reflexivity|]. split; [reflexivity|]. split; [intros [|n] hc; discriminate | intros h []].
  - destruct (H hc (or_introl eq_refl)) as (h & E & Ph). destruct IH as (hcs' & I1 & I2 & I3 & I4); [intros; apply H; now right|].
    exists (h :: hcs'). split; [cbn [mapM]; rewrite E; cbn [bind]; rewrite I1; reflexivity|]. split; [cbn; lia|]. split.
    + intros [|n] hc' Hn; cbn [nth_error] in *; [injection Hn as <-; eauto | auto].
    + intros h' [<-|Hi]; [exists hc; split; [now left | auto]|]. destruct (I4 h' Hi) as (hc' & K1 & K2). exists hc'. split; [now right | auto].
Qed.
Lemma narrow_start fwd geo w t ex bounds buffer b m x0 dx nx y0 dy ny g hcs lonlat :
  evenly x0 dx nx (gx g) -> (2 <= nx)%nat -> evenly y0 dy ny (gy g) -> (2 <= ny)%nat -> lonlat <> [] ->
  for_points bounds (map fwd lonlat) b -> some_limit b -> margin buffer dx m ->
  exists top, amax (map fst (map fwd lonlat)) = Ok top /\
  extract_narrow fwd geo w t ex true bounds buffer g hcs lonlat =
    (do mz <- crop_matrix geo b m (gmz g) (gx g) (gy g) ;;
     do hz <- crop_matrix geo b m (ghz g) (gx g) (gy g) ;;
     do hi <- amax (snd (fst hz)) ;;
     do mx <- axis_mx geo (geo && isclose (last (snd (fst hz)) 0 - hd 0 (snd (fst hz))) (360 - dx)) t b m dx (gx g) ;;
     extract_from geo w t ex dx dy (Grid (snd (fst hz)) (snd hz) (fst (fst hz)) (fst (fst mz))) (geo && isclose (last (snd (fst hz)) 0 - hd 0 (snd (fst hz))) (360 - dx))
       (fun hc => do c <- crop_matrix geo b m hc mx (axis_my t b m dy (gy g)) ;; Ok (fst (fst c))) hcs (west_of geo hi top (map fwd lonlat))).
Proof.
  intros Ex Hx Ey Hy Ne Hb Sb Hm. destruct (four_extremes (map fwd lonlat)) as (e & M1 & M2 & M3 & M4); [destruct lonlat; [congruence | discriminate]|].
  exists (x_max e). split; [exact M2|]. unfold extract_narrow. rewrite (evenly_spacing x0 dx nx), (evenly_spacing y0 dy ny) by auto. cbn [bind]. rewrite M1, M2, M3, M4. cbn [bind].
  rewrite (bounds_are _ _ _ _ Hb M1 M2 M3 M4), (any_limit_t _ Sb), (buffer_is _ _ _ Hm). reflexivity.
Qed.
(** the parts of the model of the rows and columns within the bounds *)
Lemma crop_start geo around b m x0 dx nx y0 dy ny g hcs f a na c nr :
  model_grid geo around x0 dx nx y0 dy ny g hcs -> (geo = true -> 1 / 250 < dx /\ INR nx * dx <= 360) ->
  frame geo x0 dx nx (x_min b) (x_max b) f -> f = 0%Z \/ around = true ->
  columns_kept x0 dx nx (x_min b) (x_max b) m f a na -> rows_kept y0 dy ny (y_min b) (y_max b) m c nr -> (2 <= na)%nat -> (2 <= nr)%nat ->
  exists around' hz mz xa ya, (around' = true <-> around = true /\ na = nx) /\
    crop_matrix geo b m (gmz g) (gx g) (gy g) = Ok (mz, xa, ya) /\ crop_matrix geo b m (ghz g) (gx g) (gy g) = Ok (hz, xa, ya) /\
    block 0 nx a na c nr (ghz g) hz /\ block 0%Z nx a na c nr (gmz g) mz /\
    evenly (node_x Heights x0 dx a) dx na xa /\ evenly (node_y Heights y0 dy c) dy nr ya /\
    (around' = true /\ geo = true /\ INR na * dx = 360 \/ around' = false /\ (geo = false \/ ~ ExtractSpec.close (INR (na - 1) * dx) (360 - dx))) /\
    (f = 0%Z \/ INR nx * dx = 360 /\ 1 / 10000 < dx).
Proof.
  intros (Ex & Ey & Hx & Hy & Rh & Rm & Rc & Ga) Hg F Hf Kc Kr N1 N2.
  assert (Hf' : f = 0%Z \/ INR nx * dx = 360 /\ 1 / 10000 < dx).
  { destruct Hf as [Hf|Hf]; [now left|]. right. destruct Ga as [(_ & G & E)|[G _]]; [|congruence]. split; auto. destruct (Hg G). lra. }
  destruct (crop_block geo b m x0 dx nx y0 dy ny f a na c nr (gx g) (gy g) Hx F Hf' Kc Kr ltac:(lia) ltac:(lia) (or_introl Ex) (rows_same _ _ _ _ _ _ _ _ Ey Kr)) as (xa & ya & X1 & Y1 & Cr).
  destruct (Cr R 0 (ghz g) Rh) as (hz & H1 & H2). destruct (Cr Z 0%Z (gmz g) Rm) as (mz & Z1 & Z2).
  exists (around && Nat.eqb na nx)%bool, hz, mz, xa, ya. split. { rewrite andb_true_iff, Nat.eqb_eq. reflexivity. }
  split; [exact Z1|]. split; [exact H1|]. split; [exact H2|]. split; [exact Z2|]. split; [auto|]. split; [auto|]. split; [|exact Hf'].
  destruct Kc as (K1 & K2 & _). destruct (Nat.eqb_spec na nx) as [->|N]; [rewrite andb_true_r; exact Ga|]. right. rewrite andb_false_r. split; [reflexivity|].
  destruct geo; [|now left]. right. destruct (Hg eq_refl). apply (not_turn dx nx na); auto. lia.
Qed.
(** lowered axes of currents *)
Lemma columns_nat x0 dx nx lo hi m a na : columns_kept x0 dx nx lo hi m 0 a na ->
  exists a', a = Z.of_nat a' /\ (a' + na <= nx)%nat /\ forall i, (i < nx)%nat -> (a' <= i < a' + na)%nat <-> stays lo hi m (x0 + INR i * dx).
Proof.
  intros (K1 & K2 & K3). exists (Z.to_nat a). split; [lia|]. split; [lia|]. intros i Hi. specialize (K3 (Z.of_nat i) ltac:(lia)). unfold node_x in K3. rewrite <- INR_IZR_INZ in K3. rewrite <- K3. lia.
Qed.
Lemma mx_same geo around around' b m t k x0 dx nx y0 dy ny f a na xs : evenly x0 dx nx xs -> (2 <= nx)%nat -> kind_of t = Some k ->
  frame geo x0 dx nx (x_min b) (x_max b) f -> f = 0%Z \/ INR nx * dx = 360 /\ 1 / 10000 < dx ->
  columns_kept x0 dx nx (x_min b) (x_max b) m f a na -> (1 <= na)%nat -> (around' = true <-> around = true /\ na = nx) ->
  nothing_lost geo around k x0 dx nx y0 dy ny b m f ->
  exists mx, axis_mx geo around' t b m dx xs = Ok mx /\ same_columns geo x0 dx nx b m f a na mx.
Proof.
  intros Ex Hx Hk F Hf Kc N1 Ha [NL _]. destruct (framed geo b x0 dx nx xs f Ex Hx F Hf) as (tr & xs' & T1 & T2 & _).
  assert (Plain : exists mx, Ok xs = Ok mx /\ same_columns geo x0 dx nx b m f a na mx) by (exists xs; split; [reflexivity | now left]).
  assert (U : k = Zonal -> exists mx, (do tr <- turned geo b xs ;; Ok (match tr with None => if around' then xs else lower (kept (x_min b) (x_max b) m xs) (dx / 2) xs | Some _ => xs end)) = Ok mx /\ same_columns geo x0 dx nx b m f a na mx).
  { intros ->. rewrite T1. cbn [bind]. destruct tr as [p|]; [exact Plain|]. destruct around'; [exact Plain|].
    assert (f = 0%Z) by (now apply T2). subst f. eexists. split; [reflexivity|]. right. split; [reflexivity|]. split; [rewrite lower_length; apply Ex|].
    destruct (columns_nat _ _ _ _ _ _ _ _ Kc) as (a' & -> & A2 & A3).
    destruct (NL eq_refl) as [NL'|[(R1 & S0 & S1)|[NL1 NL2]]]; [congruence| |].
    - exfalso. assert (na = nx). { destruct Kc as (K1 & K2 & K3). apply K3 in S0; [|lia]. apply K3 in S1; [|lia]. lia. } assert (false = true) by (apply Ha; auto). discriminate.
    - split; [exact (lowered_turned geo b _ _ m x0 dx nx xs a' na Ex Hx N1 A2 A3 F NL2)|]. intros i Hi.
      rewrite <- (lowered_stays (x_min b) (x_max b) m x0 dx nx xs a' na Ex N1 A2 A3); auto; [lia|].
      intros k Hk' Sk. destruct (Rle_lt_dec (x_min b - m) (x0 + INR k * dx - dx / 2)) as [L|L]; auto. exfalso. apply NL1. exists (Z.of_nat k). split; [lia|]. unfold node_x. rewrite <- INR_IZR_INZ. auto. }
  destruct t; cbn [kind_of] in Hk; try discriminate; injection Hk as <-; cbn [axis_mx]; auto.
Qed.
Lemma my_same geo around b m t k x0 dx nx y0 dy ny f c nr ys : evenly y0 dy ny ys -> kind_of t = Some k ->
  rows_kept y0 dy ny (y_min b) (y_max b) m c nr -> (1 <= nr)%nat -> nothing_lost geo around k x0 dx nx y0 dy ny b m f ->
  same_rows y0 dy ny b m c nr (axis_my t b m dy ys).
Proof.
  intros Ey Hk Kr N1 [_ NL]. pose proof (rows_same _ _ _ _ _ _ _ _ Ey Kr) as Plain.
  assert (V : k = Meridional -> same_rows y0 dy ny b m c nr (lower (kept (y_min b) (y_max b) m ys) (dy / 2) ys)).
  { intros ->. destruct Kr as [R1 R2]. split; [rewrite lower_length; apply Ey|]. intros j Hj. apply (lowered_stays (y_min b) (y_max b) m y0 dy ny ys c nr Ey N1 R1); auto.
    intros k Hk' Sk. destruct (Rle_lt_dec (y_min b - m) (y0 + INR k * dy - dy / 2)) as [L|L]; auto. exfalso. apply NL; auto. exists k. auto. }
  destruct t; cbn [kind_of] in Hk; try discriminate; injection Hk as <-; cbn [axis_my]; auto.
Qed.
Lemma narrow_rest fwd geo around w t k ex bounds buffer b m x0 dx nx y0 dy ny g hcs lonlat f a na c nr :
  model_grid geo around x0 dx nx y0 dy ny g hcs -> kind_of t = Some k -> (geo = true -> 1 / 250 < dx /\ INR nx * dx <= 360) -> lonlat <> [] ->
  for_points bounds (map fwd lonlat) b -> some_limit b -> margin buffer dx m ->
  frame geo x0 dx nx (x_min b) (x_max b) f -> f = 0%Z \/ around = true ->
  nothing_lost geo around k x0 dx nx y0 dy ny b m f ->
  columns_kept x0 dx nx (x_min b) (x_max b) m f a na -> rows_kept y0 dy ny (y_min b) (y_max b) m c nr -> (2 <= na)%nat -> (2 <= nr)%nat ->
  exists around' g' hcs' top, amax (map fst (map fwd lonlat)) = Ok top /\ cropped_model geo around x0 dx nx y0 dy ny b m f g hcs around' a na c nr g' hcs' /\
    extract_narrow fwd geo w t ex true bounds buffer g hcs lonlat =
    extract_from geo w t ex dx dy g' around' (fun h => Ok h) hcs' (west_of geo (node_x Heights x0 dx (a + Z.of_nat na - 1)) top (map fwd lonlat)).
Proof.
  intros M Hk Hg Ne Hb Sb Hm F Hf NL Kc Kr N1 N2. pose proof M as (Ex & Ey & Hx & Hy & Rh & Rm & Rc & Ga).
  destruct (narrow_start fwd geo w t ex bounds buffer b m x0 dx nx y0 dy ny g hcs lonlat Ex Hx Ey Hy Ne Hb Sb Hm) as (top & Et & ->).
  destruct (crop_start geo around b m x0 dx nx y0 dy ny g hcs f a na c nr M Hg F Hf Kc Kr N1 N2) as (around' & hz & mz & xa & ya & Ha & Ez & Eh & Bh & Bz & Xa & Ya & Ga' & Hf').
  destruct (mx_same geo around around' b m t k x0 dx nx y0 dy ny f a na (gx g) Ex Hx Hk F Hf' Kc ltac:(lia) Ha NL) as (mx & Emx & Smx).
  pose proof (my_same geo around b m t k x0 dx nx y0 dy ny f c nr (gy g) Ey Hk Kr ltac:(lia) NL) as Smy.
  destruct (crop_block geo b m x0 dx nx y0 dy ny f a na c nr mx _ Hx F Hf' Kc Kr ltac:(lia) ltac:(lia) Smx Smy) as (xa' & ya' & _ & _ & Cr).
  destruct (crop_fields (fun hc : field => do c <- crop_matrix geo b m hc mx (axis_my t b m dy (gy g)) ;; Ok (fst (fst c))) (block (None, true) nx a na c nr) hcs) as (hcs' & C1 & C2 & C3 & C4).
  { intros hc Hc. destruct (Cr (gcell cpx) (None, true) hc (Rc hc Hc)) as (h & E1 & E2). exists h. rewrite E1. split; [reflexivity | exact E2]. }
  assert (M' : model_grid geo around' (node_x Heights x0 dx a) dx na (node_y Heights y0 dy c) dy nr (Grid xa ya hz mz) hcs').
  { split; [exact Xa|]. split; [exact Ya|]. split; [exact N1|]. split; [exact N2|]. split; [apply Bh|]. split; [apply Bz|]. split; [|exact Ga']. intros h Hh. destruct (C4 h Hh) as (hc & _ & Bc). apply Bc. }
  exists around', (Grid xa ya hz mz), hcs', top. split; [exact Et|]. split.
  { split; [exact Kc|]. split; [exact Kr|]. split; [exact Ha|]. split; [exact M'|]. split; [exact Bh|]. split; [exact Bz|]. split; [exact C2 | exact C3]. }
  rewrite Ez. cbn [bind]. rewrite Eh. cbn [bind fst snd]. destruct (evenly_ends _ _ _ _ Xa N1) as [_ E2]. rewrite E2. cbn [bind].
  pose proof (around_test _ _ _ _ _ _ _ _ _ _ M') as Ta. cbn [gx] in Ta. rewrite Ta, Emx. cbn [bind]. rewrite (from_fields _ _ _ _ _ _ _ _ _ _ _ _ C1).
  do 2 f_equal. unfold node_x. rewrite minus_INR by lia. rewrite minus_IZR, plus_IZR, <- INR_IZR_INZ. cbn [INR]. ring.
Qed.

(** ** Extraction from a cropped model is extraction from the model of the rows and columns
    within the bounds: for points within its columns, and without extrapolation for all
    points if it does not go around the globe *)
Theorem C86_model : forall fwd geo around w t k ex bounds buffer b m x0 dx nx y0 dy ny g hcs lonlat f i j,
  model_grid geo around x0 dx nx y0 dy ny g hcs -> kind_of t = Some k -> (geo = true -> 1 / 250 < dx /\ INR nx * dx <= 360) -> lonlat <> [] ->
  for_points bounds (map fwd lonlat) b -> some_limit b -> margin buffer dx m ->
  frame geo x0 dx nx (x_min b) (x_max b) f -> f = 0%Z \/ around = true ->
  nothing_lost geo around k x0 dx nx y0 dy ny b m f ->
  (f <= i)%Z -> (i + 1 < f + Z.of_nat nx)%Z -> stays (x_min b) (x_max b) m (node_x Heights x0 dx i) -> stays (x_min b) (x_max b) m (node_x Heights x0 dx (i + 1)) ->
  (S j < ny)%nat -> stays (y_min b) (y_max b) m (node_y Heights y0 dy j) -> stays (y_min b) (y_max b) m (node_y Heights y0 dy (S j)) ->
  exists around' a na c nr g' hcs', cropped_model geo around x0 dx nx y0 dy ny b m f g hcs around' a na c nr g' hcs' /\
    (geo = false \/ (forall p, In p lonlat -> node_x Heights x0 dx a <= fst (fwd p) <= node_x Heights x0 dx (a + Z.of_nat na - 1)) ->
       extract_narrow fwd geo w t ex true bounds buffer g hcs lonlat = extract_extrapolated fwd geo w t ex g' hcs' lonlat) /\
    (around' = false -> ex = None -> forall pts,
       Forall2 (fun p q => snd q = snd (fwd p) /\ settled geo (node_x Heights x0 dx (a + Z.of_nat na - 1)) (map (fun p => fst (fwd p)) lonlat) (fst (fwd p)) (fst q)) lonlat pts ->
       extract_narrow fwd geo w t ex true bounds buffer g hcs lonlat = extract_extrapolated (fun p => p) false w t None g' hcs' pts).
Proof.
  intros fwd geo around w t k ex bounds buffer b m x0 dx nx y0 dy ny g hcs lonlat f i j M Hk Hg Ne Hb Sb Hm F Hf NL Hi Hi1 Si Si1 Hj Sj Sj1.
  assert (Dx : 0 < dx) by apply M. assert (Dy : 0 < dy) by apply (proj1 (proj2 M)).
  destruct (kept_exists x0 dx nx y0 dy ny (x_min b) (x_max b) (y_min b) (y_max b) m f i j Dx Dy) as (a & na & c & nr & Kc & Kr & N1 & N2); auto; [lia | lia |].
  assert (N1' : (2 <= na)%nat). { destruct Kc as (_ & _ & K3). apply K3 in Si; [|lia]. apply K3 in Si1; [|lia]. lia. }
  assert (N2' : (2 <= nr)%nat). { destruct Kr as (_ & K3). apply K3 in Sj; [|lia]. apply K3 in Sj1; [|lia]. lia. }
  destruct (narrow_rest fwd geo around w t k ex bounds buffer b m x0 dx nx y0 dy ny g hcs lonlat f a na c nr M Hk Hg Ne Hb Sb Hm F Hf NL Kc Kr N1' N2') as (around' & g' & hcs' & top & Et & Cm & ->).
  exists around', a, na, c, nr, g', hcs'. split; [exact Cm|]. destruct Cm as (_ & _ & _ & M' & _).
  assert (Nq : map fwd lonlat <> []) by (destruct lonlat; [congruence | discriminate]).
  assert (El : node_x Heights x0 dx a + INR (na - 1) * dx = node_x Heights x0 dx (a + Z.of_nat na - 1)) by (unfold node_x; rewrite minus_INR by lia; rewrite minus_IZR, plus_IZR, <- INR_IZR_INZ; cbn [INR]; ring).
  split.
  - intros Ins. assert (Eb : batch geo (node_x Heights x0 dx a) (node_x Heights x0 dx a + INR (na - 1) * dx) (map fwd lonlat) = Ok (map fwd lonlat)).
    { apply batch_inside; auto. intros G p Hp. apply in_map_iff in Hp as (q & <- & Hq). rewrite El. destruct Ins as [Ins|Ins]; [congruence | now apply Ins]. }
    rewrite (extrapolated_from_rest fwd geo around' w t ex _ dx na _ dy nr g' hcs' lonlat _ M' Eb). f_equal. unfold west_of.
    destruct Ins as [->|Ins]; [reflexivity|]. destruct geo; [|reflexivity]. cbn [andb]. apply amax_most in Et as [It _]. apply in_map_iff in It as (q & <- & Hq). apply in_map_iff in Hq as (p & <- & Hp).
    rewrite rlt_f by now apply Ins. reflexivity.
  - intros -> -> pts Hp. rewrite (west_of_settled geo _ top (map fwd lonlat) pts Et).
    2:{ rewrite map_map. revert Hp. generalize (map (fun p => fst (fwd p)) lonlat). intros X Hp. clear - Hp. induction Hp as [|p r q pts H1 H IH]; constructor; auto. }
    assert (Mf : model_grid false false (node_x Heights x0 dx a) dx na (node_y Heights y0 dy c) dy nr g' hcs') by (destruct M' as (Q1 & Q2 & Q3 & Q4 & Q5 & Q6 & Q7 & Q8); repeat (split; [assumption|]); right; auto).
    rewrite (extrapolated_from_rest (fun p => p) false false w t None _ dx na _ dy nr g' hcs' pts pts Mf); [reflexivity|].
    rewrite map_id. apply batch_inside; [|discriminate]. intros ->. inversion Hp. congruence.
Qed.
Print Assumptions C86_model.
