(** C86: cropping fails for currents where a row or column is lost, and where nothing is
    within the bounds. *)
From Coq Require Import Reals List Bool Arith ZArith Lra Lia.
From Verif Require Import PyBase RBase MathModel GeoModel ConvertProps GridModel GridProofs InterpModel InterpProps ExtractModel ExtractSpec NodeProps ExtractProofs ExtractProps SplineProps ReturnProps SeriesModel SeriesProps SeriesProps3 RegularModel CropModel CropSpec CropProofs CropProofs2 CropProps ShoreModel CoastModel CoastProps NarrowModel NarrowSpec NarrowProofs NarrowProps NarrowProps2.
Import ListNotations.
Open Scope R_scope.

Lemma same_shape_rows {A B} ny nx ny' nx' (u : list (list A)) (v : list (list B)) : rect ny nx u -> rect ny' nx' v -> (1 <= ny)%nat -> same_shape u v = true -> ny = ny' /\ nx = nx'.
Proof.
  intros [L1 R1] [L2 R2] N H. unfold same_shape in H. apply andb_prop in H as [H1 H2]. apply Nat.eqb_eq in H1. split; [lia|].
  destruct u as [|r u]; [cbn in L1; lia|]. destruct v as [|s v]; [cbn in *; lia|]. cbn [combine forallb fst snd] in H2. apply andb_prop in H2 as [H2 _]. apply Nat.eqb_eq in H2.
  rewrite R1, R2 in H2 by now left. exact H2.
Qed.
(** a constituent of another shape than the depths *)
Lemma cut_shape {A} b m (t : list (list A)) xs ys h x y nx ny a na c nr : length xs = nx -> length ys = ny -> rect ny nx t -> (a + na <= nx)%nat -> (c + nr <= ny)%nat ->
  (forall i, (i < nx)%nat -> (a <= i < a + na)%nat <-> stays (x_min b) (x_max b) m (nth i xs 0)) ->
  (forall j, (j < ny)%nat -> (c <= j < c + nr)%nat <-> stays (y_min b) (y_max b) m (nth j ys 0)) ->
  cut_matrix b m t xs ys = Ok (h, x, y) -> (1 <= na)%nat /\ (1 <= nr)%nat /\ rect nr na h.
Proof.
  intros Lx Ly Rt A2 C2 A3 C3 E.
  destruct (Nat.eq_dec nr 0) as [->|N2]; [exfalso; unfold cut_matrix in E; rewrite (kept_none (y_min b)) in E by (intros j Hj K; apply C3 in K; lia); cbn in E; discriminate|].
  destruct (Nat.eq_dec na 0) as [->|N1].
  { exfalso. unfold cut_matrix in E. rewrite (kept_none (x_min b)) in E by (intros i Hi K; apply A3 in K; lia). cbn [ind_slice bind] in E. destruct (ind_slice (kept (y_min b) (y_max b) m ys) t); discriminate. }
  assert (Hd : exists d : A, True). { destruct t as [|r t]; [destruct Rt as [L _]; cbn in L; lia|]. destruct r as [|d r]; [|exists d; auto]. destruct Rt as [_ Rr]. specialize (Rr [] (or_introl eq_refl)). cbn in Rr. lia. }
  destruct Hd as [d _]. destruct (cut_block d b m t xs ys nx ny a na c nr) as (h' & H1 & H2 & _); auto; try lia. rewrite H1 in E. apply Ok_inj in E. injection E as <- <- <-. split; [lia|]. split; [lia|]. exact H2.
Qed.
Lemma from_fails geo w t k ex dx dy around x0 na y0 nr g fields hcs hcs0 pts out :
  model_grid geo around x0 dx na y0 dy nr g hcs0 -> kind_of t = Some k -> hcs <> [] ->
  (forall hc h, In hc hcs -> fields hc = Ok h -> exists nr' na', rect nr' na' h /\ (1 <= nr')%nat /\ (2 <= na')%nat /\ (nr' <> nr \/ na' <> na)) \/
  (forall hc h, In hc hcs -> fields hc = Ok h -> exists nr' na', around = false /\ rect nr' na' h /\ (1 <= nr')%nat /\ (nr' <> nr \/ na' <> na)) ->
  extract_from geo w t ex dx dy g around fields hcs pts <> Ok out.
Proof.
  intros M Hk Ne Hf E. destruct (around_axis _ _ _ _ _ _ _ _ _ _ M) as (xe & Exe & Hxe). destruct M as (Ex & Ey & Hx & Hy & Rh & Rm & _ & _).
  unfold extract_from in E. rewrite Exe in E. cbn [bind] in E. destruct (mapM (outside_axes xe (gy g)) pts) as [inv|]; [|discriminate]. cbn [bind] in E.
  destruct (layer_entries around dx dy x0 y0 xe (gy g) g t k nr na Hk Rh Rm Hy Hx Hxe Ey) as (xi & yi & bb & El & _ & _ & Rb & _). rewrite El in E. cbn [bind] in E.
  destruct (mapM (depth_by w xi yi bb) pts) as [ds|]; [|discriminate]. cbn [bind] in E. destruct hcs as [|hc hcs]; [congruence|]. cbn [mapM] in E.
  destruct (fields hc) as [h|] eqn:Eh; [|discriminate]. cbn [bind] in E.
  destruct Hf as [Hf|Hf]; destruct (Hf hc h (or_introl eq_refl) Eh) as (nr' & na' & K).
  - destruct K as (Rr & N1 & N2 & D).
    destruct (@extend_if_entries (gcell (R * R)) (None, true) around nr' na' h Rr ltac:(lia)) as (e & E1 & E2 & _).
    match type of E with context [extend_if around h] => assert (Ee : extend_if around h = Ok e) by exact E1; rewrite Ee in E end. cbn [bind] in E.
    assert (Es : same_shape e bb = false). { apply not_true_is_false. intros K. destruct (same_shape_rows _ _ _ _ _ _ E2 Rb N1 K) as [K1 K2]. unfold ncols in K2. destruct around; destruct D; lia. }
    unfold remask in E. match type of E with context [same_shape ?a ?c] => assert (Es' : same_shape a c = false) by exact Es; rewrite Es' in E end. discriminate.
  - destruct K as (-> & Rr & N1 & D). cbn [extend_if bind] in E.
    assert (Es : same_shape h bb = false). { apply not_true_is_false. intros K. destruct (same_shape_rows _ _ _ _ _ _ Rr Rb N1 K) as [K1 K2]. unfold ncols in K2. destruct D; lia. }
    unfold remask in E. match type of E with context [same_shape ?a ?c] => assert (Es' : same_shape a c = false) by exact Es; rewrite Es' in E end. discriminate.
Qed.

(** ** Zonal currents: no result if the first column is lost *)
Theorem C86_zonal_refuted : forall fwd geo around w t ex bounds buffer b m x0 dx nx y0 dy ny g hcs lonlat i j out,
  model_grid geo around x0 dx nx y0 dy ny g hcs -> kind_of t = Some Zonal -> (geo = true -> 1 / 250 < dx /\ INR nx * dx <= 360) -> lonlat <> [] -> hcs <> [] ->
  for_points bounds (map fwd lonlat) b -> some_limit b -> margin buffer dx m ->
  frame geo x0 dx nx (x_min b) (x_max b) 0 -> (geo = true -> 180 < Rmax (x_min b) (x_max b) -> 0 <= node_x Zonal x0 dx 0) ->
  (0 <= i)%Z -> (i + 1 < Z.of_nat nx)%Z -> stays (x_min b) (x_max b) m (node_x Heights x0 dx i) -> stays (x_min b) (x_max b) m (node_x Heights x0 dx (i + 1)) ->
  (S j < ny)%nat -> stays (y_min b) (y_max b) m (node_y Heights y0 dy j) -> stays (y_min b) (y_max b) m (node_y Heights y0 dy (S j)) ->
  ~ (around = true /\ stays (x_min b) (x_max b) m (node_x Heights x0 dx 0) /\ stays (x_min b) (x_max b) m (node_x Heights x0 dx (Z.of_nat nx - 1))) ->
  column_lost x0 dx nx (x_min b) (x_max b) m ->
  extract_narrow fwd geo w t ex true bounds buffer g hcs lonlat <> Ok out.
Proof.
  intros fwd geo around w t ex bounds buffer b m x0 dx nx y0 dy ny g hcs lonlat i j out M Hk Hg Ne Nh Hb Sb Hm F Hz Hi Hi1 Si Si1 Hj Sj Sj1 Nw (l & Hl & Sl & Ll).
  pose proof M as (Ex & Ey & Hx & Hy & Rh & Rm & Rc & Ga). assert (Dx : 0 < dx) by apply Ex. assert (Dy : 0 < dy) by apply Ey.
  destruct (kept_exists x0 dx nx y0 dy ny (x_min b) (x_max b) (y_min b) (y_max b) m 0 i j Dx Dy) as (a & na & c & nr & Kc & Kr & N1 & N2); auto; [lia | lia |].
  assert (N1' : (2 <= na)%nat). { destruct Kc as (_ & _ & K3). apply K3 in Si; [|lia]. apply K3 in Si1; [|lia]. lia. }
  assert (N2' : (2 <= nr)%nat). { destruct Kr as (_ & K3). apply K3 in Sj; [|lia]. apply K3 in Sj1; [|lia]. lia. }
  destruct (narrow_start fwd geo w t ex bounds buffer b m x0 dx nx y0 dy ny g hcs lonlat Ex Hx Ey Hy Ne Hb Sb Hm) as (top & Et & ->).
  destruct (crop_start geo around b m x0 dx nx y0 dy ny g hcs 0 a na c nr M Hg F (or_introl eq_refl) Kc Kr N1' N2') as (around' & hz & mz & xa & ya & Ha & Ez & Eh & Bh & Bz & Xa & Ya & Ga' & Hf').
  rewrite Ez. cbn [bind]. rewrite Eh. cbn [bind fst snd]. destruct (evenly_ends _ _ _ _ Xa N1') as [_ E2]. rewrite E2. cbn [bind].
  assert (M' : model_grid geo around' (node_x Heights x0 dx a) dx na (node_y Heights y0 dy c) dy nr (Grid xa ya hz mz) []).
  { split; [exact Xa|]. split; [exact Ya|]. split; [exact N1'|]. split; [exact N2'|]. split; [apply Bh|]. split; [apply Bz|]. split; [intros h [] | exact Ga']. }
  pose proof (around_test _ _ _ _ _ _ _ _ _ _ M') as Ta. cbn [gx] in Ta. rewrite Ta.
  destruct (columns_nat _ _ _ _ _ _ _ _ Kc) as (a' & -> & A2 & A3).
  assert (Af : around' = false).
  { destruct around'; auto. exfalso. destruct (proj1 Ha eq_refl) as [R1 ->]. apply Nw. split; auto. destruct Kc as (K1 & K2 & K3). split; apply K3; lia. }
  rewrite Af in M' |- *. destruct (evenly_ends _ _ _ _ Ex Hx) as [G1 G2].
  assert (Tn : turned geo b (gx g) = Ok None).
  { destruct F as [[-> _]|[-> W]]; [apply (turned_none false b _ _ _ G1 G2); now left|]. apply (turned_none true b _ _ _ G1 G2). right. inversion W as [W1 W2 E0|c' W1 W2 W3 W4 E0|c' W1 W2 W3 W4 W5 E0]; [auto | destruct W3; lia | lia]. }
  assert (Em : axis_mx geo false t b m dx (gx g) = Ok (lower (kept (x_min b) (x_max b) m (gx g)) (dx / 2) (gx g))) by (destruct t; try discriminate Hk; cbn [axis_mx]; now rewrite Tn).
  assert (Ey' : axis_my t b m dy (gy g) = gy g) by (destruct t; try discriminate Hk; reflexivity).
  rewrite Em, Ey'. cbn [bind]. apply (from_fails geo w t Zonal ex dx dy false _ na _ nr _ _ hcs [] _ out M' Hk Nh). right.
  intros hc h Hc Eh'. exists nr, (na - 1)%nat. split; [reflexivity|].
  match type of Eh' with bind ?x _ = _ => destruct x as [[[h1 x1] y1]|] eqn:Ec; [|discriminate] end. cbn [bind fst] in Eh'. apply Ok_inj in Eh' as <-.
  unfold crop_matrix in Ec. rewrite (lowered_turned geo b _ _ m x0 dx nx (gx g) a' na Ex Hx ltac:(lia) A2 A3 F Hz) in Ec. cbn [bind fst snd] in Ec.
  assert (Lst : forall i, (i < nx)%nat -> (S a' <= i < S a' + (na - 1))%nat <-> stays (x_min b) (x_max b) m (nth i (lower (kept (x_min b) (x_max b) m (gx g)) (dx / 2) (gx g)) 0)).
  { intros i0 Hi0. rewrite <- (lowered_lost (x_min b) (x_max b) m x0 dx nx (gx g) a' na (Z.to_nat l) Ex ltac:(lia) A2 A3); auto; [lia | lia | |].
    - unfold node_x in Sl. rewrite INR_IZR_INZ, Z2Nat.id by lia. exact Sl.
    - unfold node_x in Ll. rewrite INR_IZR_INZ, Z2Nat.id by lia. exact Ll. }
  destruct (cut_shape b m hc (lower (kept (x_min b) (x_max b) m (gx g)) (dx / 2) (gx g)) (gy g) h1 x1 y1 nx ny (S a') (na - 1) c nr) as (K1 & K2 & K3); auto; try lia.
  - rewrite lower_length. apply Ex. - apply Ey. - apply Kr. - apply (rows_same _ _ _ _ _ _ _ _ Ey Kr).
  - split; [exact K3|]. split; [exact K2|]. right. lia.
Qed.
Print Assumptions C86_zonal_refuted.
(** ** Meridional currents: no result if the first row is lost *)
Theorem C86_meridional_refuted : forall fwd geo around w t ex bounds buffer b m x0 dx nx y0 dy ny g hcs lonlat f i j out,
  model_grid geo around x0 dx nx y0 dy ny g hcs -> kind_of t = Some Meridional -> (geo = true -> 1 / 250 < dx /\ INR nx * dx <= 360) -> lonlat <> [] -> hcs <> [] ->
  for_points bounds (map fwd lonlat) b -> some_limit b -> margin buffer dx m ->
  frame geo x0 dx nx (x_min b) (x_max b) f -> f = 0%Z \/ around = true ->
  (f <= i)%Z -> (i + 1 < f + Z.of_nat nx)%Z -> stays (x_min b) (x_max b) m (node_x Heights x0 dx i) -> stays (x_min b) (x_max b) m (node_x Heights x0 dx (i + 1)) ->
  (S j < ny)%nat -> stays (y_min b) (y_max b) m (node_y Heights y0 dy j) -> stays (y_min b) (y_max b) m (node_y Heights y0 dy (S j)) ->
  row_lost y0 dy ny (y_min b) (y_max b) m ->
  extract_narrow fwd geo w t ex true bounds buffer g hcs lonlat <> Ok out.
Proof.
  intros fwd geo around w t ex bounds buffer b m x0 dx nx y0 dy ny g hcs lonlat f i j out M Hk Hg Ne Nh Hb Sb Hm F Hf Hi Hi1 Si Si1 Hj Sj Sj1 (l & Hl & Sl & Ll).
  pose proof M as (Ex & Ey & Hx & Hy & Rh & Rm & Rc & Ga). assert (Dx : 0 < dx) by apply Ex. assert (Dy : 0 < dy) by apply Ey.
  destruct (kept_exists x0 dx nx y0 dy ny (x_min b) (x_max b) (y_min b) (y_max b) m f i j Dx Dy) as (a & na & c & nr & Kc & Kr & N1 & N2); auto; [lia | lia |].
  assert (N1' : (2 <= na)%nat). { destruct Kc as (_ & _ & K3). apply K3 in Si; [|lia]. apply K3 in Si1; [|lia]. lia. }
  assert (N2' : (2 <= nr)%nat). { destruct Kr as (_ & K3). apply K3 in Sj; [|lia]. apply K3 in Sj1; [|lia]. lia. }
  destruct (narrow_start fwd geo w t ex bounds buffer b m x0 dx nx y0 dy ny g hcs lonlat Ex Hx Ey Hy Ne Hb Sb Hm) as (top & Et & ->).
  destruct (crop_start geo around b m x0 dx nx y0 dy ny g hcs f a na c nr M Hg F Hf Kc Kr N1' N2') as (around' & hz & mz & xa & ya & Ha & Ez & Eh & Bh & Bz & Xa & Ya & Ga' & Hf').
  rewrite Ez. cbn [bind]. rewrite Eh. cbn [bind fst snd]. destruct (evenly_ends _ _ _ _ Xa N1') as [_ E2]. rewrite E2. cbn [bind].
  assert (M' : model_grid geo around' (node_x Heights x0 dx a) dx na (node_y Heights y0 dy c) dy nr (Grid xa ya hz mz) []).
  { split; [exact Xa|]. split; [exact Ya|]. split; [exact N1'|]. split; [exact N2'|]. split; [apply Bh|]. split; [apply Bz|]. split; [intros h [] | exact Ga']. }
  pose proof (around_test _ _ _ _ _ _ _ _ _ _ M') as Ta. cbn [gx] in Ta. rewrite Ta.
  assert (Em : axis_mx geo around' t b m dx (gx g) = Ok (gx g)) by (destruct t; try discriminate Hk; reflexivity).
  assert (Ey' : axis_my t b m dy (gy g) = lower (kept (y_min b) (y_max b) m (gy g)) (dy / 2) (gy g)) by (destruct t; try discriminate Hk; reflexivity).
  rewrite Em, Ey'. cbn [bind]. apply (from_fails geo w t Meridional ex dx dy around' _ na _ nr _ _ hcs [] _ out M' Hk Nh). left.
  intros hc h Hc Eh'. exists (nr - 1)%nat, na.
  match type of Eh' with bind ?x _ = _ => destruct x as [[[h1 x1] y1]|] eqn:Ec; [|discriminate] end. cbn [bind fst] in Eh'. apply Ok_inj in Eh' as <-.
  destruct (framed geo b x0 dx nx (gx g) f Ex Hx F Hf') as (tr & xs' & T1 & _ & T3 & _ & T5). destruct (T5 (gcell cpx) (None, true) ny hc (Rc hc Hc)) as (t' & E1 & E2' & _).
  unfold crop_matrix in Ec. rewrite T1 in Ec. cbn [bind] in Ec. match type of Ec with bind ?x _ = _ => assert (E1' : x = Ok (t', xs')) by exact E1; rewrite E1' in Ec end. cbn [bind fst snd] in Ec.
  assert (Lst : forall i, (i < ny)%nat -> (S c <= i < S c + (nr - 1))%nat <-> stays (y_min b) (y_max b) m (nth i (lower (kept (y_min b) (y_max b) m (gy g)) (dy / 2) (gy g)) 0)).
  { intros i0 Hi0. rewrite <- (lowered_lost (y_min b) (y_max b) m y0 dy ny (gy g) c nr l Ey ltac:(lia) (proj1 Kr) (proj2 Kr)); auto. lia. }
  assert (Nf : forall k, node_x Heights x0 dx f + INR k * dx = node_x Heights x0 dx (f + Z.of_nat k)) by (intros k; unfold node_x; rewrite plus_IZR, <- INR_IZR_INZ; ring).
  destruct Kc as (K1 & K2 & K3). destruct Kr as (R1 & R2).
  destruct (cut_shape b m t' xs' (lower (kept (y_min b) (y_max b) m (gy g)) (dy / 2) (gy g)) h1 x1 y1 nx ny (Z.to_nat (a - f)) na (S c) (nr - 1)) as (Q1 & Q2 & Q3); auto; try lia.
  - apply T3. - rewrite lower_length. apply Ey.
  - intros i0 Hi0. destruct T3 as (_ & _ & T3). rewrite T3, Nf by auto. rewrite <- K3 by lia. lia.
  - split; [exact Q3|]. split; [exact Q2|]. split; [exact N1'|]. left. lia.
Qed.
Print Assumptions C86_meridional_refuted.
