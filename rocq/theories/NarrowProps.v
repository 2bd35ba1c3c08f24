(** C86: constants extracted from cropped OTIS models. *)
From Coq Require Import Reals List Bool Arith ZArith Lra Lia.
From Verif Require Import PyBase RBase MathModel GeoModel ConvertProps GridModel GridProofs InterpModel InterpProps ExtractModel ExtractSpec NodeProps ExtractProofs ExtractProps SplineProps ReturnProps SeriesModel SeriesProps SeriesProps3 RegularModel CropModel CropSpec CropProofs CropProofs2 CropProps ShoreModel CoastModel CoastProps NarrowModel NarrowSpec NarrowProofs.
Import ListNotations.
Open Scope R_scope.

(** ** Without cropping, or with bounds that are all zero *)
Lemma extrapolated_empty fwd geo w t ex g hcs dx dy : spacing (gx g) = Ok dx -> spacing (gy g) = Ok dy -> extract_extrapolated fwd geo w t ex g hcs [] = Err ValueError.
Proof.
  intros E1 E2. unfold extract_extrapolated. rewrite E1, E2. cbn [bind]. destruct (gx g) as [|a l]; [discriminate|].
  destruct (amin (a :: l)) eqn:E3; [|discriminate]. destruct (amax (a :: l)) eqn:E4; [|discriminate]. cbn [bind map]. destruct geo; reflexivity.
Qed.
Lemma four_extremes (q : list (R * R)) : q <> [] -> exists b, amin (map fst q) = Ok (x_min b) /\ amax (map fst q) = Ok (x_max b) /\ amin (map snd q) = Ok (y_min b) /\ amax (map snd q) = Ok (y_max b).
Proof.
  destruct q as [|p q]; [congruence|]. intros _. cbn [map]. destruct (amin (fst p :: map fst q)) as [x1|] eqn:E1; [|discriminate]. destruct (amax (fst p :: map fst q)) as [x2|] eqn:E2; [|discriminate].
  destruct (amin (snd p :: map snd q)) as [x3|] eqn:E3; [|discriminate]. destruct (amax (snd p :: map snd q)) as [x4|] eqn:E4; [|discriminate]. exists (Limits x1 x2 x3 x4). auto.
Qed.
Lemma bounds_are bounds q b e : for_points bounds q b -> amin (map fst q) = Ok (x_min e) -> amax (map fst q) = Ok (x_max e) -> amin (map snd q) = Ok (y_min e) -> amax (map snd q) = Ok (y_max e) ->
  match bounds with Some b => b | None => Limits (x_min e) (x_max e) (y_min e) (y_max e) end = b.
Proof.
  intros Hb E1 E2 E3 E4. destruct bounds; [symmetry; exact Hb|]. destruct Hb as [B1 B2]. apply extremes_min in B1 as [B1 B1']. apply extremes_min in B2 as [B2 B2'].
  rewrite B1 in E1. rewrite B1' in E2. rewrite B2 in E3. rewrite B2' in E4. apply Ok_inj in E1, E2, E3, E4. destruct b, e; cbn in *. now subst.
Qed.
Theorem C86_off : forall fwd geo w t ex crop bounds buffer g hcs lonlat,
  crop = false \/ (exists b, for_points bounds (map fwd lonlat) b /\ x_min b = 0 /\ x_max b = 0 /\ y_min b = 0 /\ y_max b = 0) ->
  extract_narrow fwd geo w t ex crop bounds buffer g hcs lonlat = extract_extrapolated fwd geo w t ex g hcs lonlat.
Proof.
  intros fwd geo w t ex crop bounds buffer g hcs lonlat H. unfold extract_narrow.
  destruct (spacing (gx g)) as [dx|e1] eqn:E1; [|unfold extract_extrapolated; now rewrite E1]. cbn [bind].
  destruct (spacing (gy g)) as [dy|e2] eqn:E2; [|unfold extract_extrapolated; now rewrite E1, E2]. cbn [bind].
  destruct lonlat as [|p lonlat]; [rewrite (extrapolated_empty fwd geo w t ex g hcs dx dy E1 E2); reflexivity|].
  destruct (four_extremes (map fwd (p :: lonlat))) as (e & M1 & M2 & M3 & M4); [discriminate|]. rewrite M1, M2, M3, M4. cbn [bind].
  destruct H as [->|(b & Hb & B1 & B2 & B3 & B4)]; [reflexivity|]. rewrite (bounds_are _ _ _ _ Hb M1 M2 M3 M4).
  assert (any_limit b = false) as ->; [|now rewrite andb_false_r]. unfold any_limit. rewrite B1, B2, B3, B4. unfold req. destruct (Req_EM_T 0 0); [reflexivity | lra].
Qed.
Print Assumptions C86_off.

(** ** The rest of extraction *)
Lemma mapM_through {A B C} (f : A -> res B) (F : B -> res C) l : forall l', mapM f l = Ok l' -> mapM (fun a => do h <- f a ;; F h) l = mapM F l'.
Proof.
  induction l as [|a l IH]; intros l' H; cbn [mapM] in *.
  - apply Ok_inj in H as <-. reflexivity.
  - destruct (f a) as [v|]; [|discriminate]. cbn [bind] in *. destruct (mapM f l) as [l2|]; [|discriminate]. cbn [bind] in H. apply Ok_inj in H as <-. cbn [mapM]. now rewrite (IH _ eq_refl).
Qed.
Lemma from_fields geo w t ex dx dy g glob fields hcs hcs' pts : mapM fields hcs = Ok hcs' ->
  extract_from geo w t ex dx dy g glob fields hcs pts = extract_from geo w t ex dx dy g glob (fun h => Ok h) hcs' pts.
Proof.
  intros H. unfold extract_from. destruct (if glob then extend_axis (gx g) dx else Ok (gx g)) as [l|]; [|reflexivity]. cbn [bind]. destruct (mapM (outside_axes l (gy g)) pts) as [inv|]; [|reflexivity]. cbn [bind].
  destruct (layer glob dx dy l (gy g) g t) as [[[xi yi] b]|]; [|reflexivity]. cbn [bind]. destruct (mapM (depth_by w xi yi b) pts) as [ds|]; [|reflexivity]. cbn [bind].
  erewrite (mapM_through fields _ hcs hcs' H). reflexivity.
Qed.
Lemma extrapolated_from_rest fwd geo around w t ex x0 dx nx y0 dy ny g hcs lonlat pts : model_grid geo around x0 dx nx y0 dy ny g hcs ->
  batch geo x0 (x0 + INR (nx - 1) * dx) (map fwd lonlat) = Ok pts ->
  extract_extrapolated fwd geo w t ex g hcs lonlat = extract_from geo w t ex dx dy g around (fun h => Ok h) hcs pts.
Proof.
  intros M Eb. pose proof (around_test _ _ _ _ _ _ _ _ _ _ M) as Ha. destruct M as (Ex & Ey & Hx & Hy & _).
  unfold extract_extrapolated. rewrite (evenly_spacing x0 dx nx), (evenly_spacing y0 dy ny) by auto. cbn [bind].
  destruct (evenly_ends x0 dx nx (gx g) Ex Hx) as [E1 E2]. rewrite E1, E2. cbn [bind]. rewrite Eb. cbn [bind]. rewrite Ha. reflexivity.
Qed.
Lemma batch_inside geo lo hi pts : pts <> [] -> (geo = true -> forall p, In p pts -> lo <= fst p <= hi) -> batch geo lo hi pts = Ok pts.
Proof.
  intros Ne H. destruct geo; [|destruct pts; [congruence | reflexivity]]. specialize (H eq_refl). cbn [batch]. unfold wrap_points.
  destruct (four_extremes pts Ne) as (e & M1 & M2 & _). rewrite M1. cbn [bind]. pose proof (amin_least _ _ M1) as [I1 _]. pose proof (amax_most _ _ M2) as [I2 _].
  apply in_map_iff in I1 as (p1 & P1 & I1). apply in_map_iff in I2 as (p2 & P2 & I2). rewrite (rlt_f (x_min e) lo) by (rewrite <- P1; now apply H).
  rewrite M2. cbn [bind]. rewrite rlt_f by (rewrite <- P2; now apply H). reflexivity.
Qed.
Lemma west_of_settled geo hi e q pts : amax (map fst q) = Ok e -> Forall2 (fun p r => snd r = snd p /\ settled geo hi (map fst q) (fst p) (fst r)) q pts -> west_of geo hi e q = pts.
Proof.
  intros He H. unfold west_of. apply amax_most in He as [Hi Hm].
  destruct (geo && rlt hi e) eqn:K.
  - apply andb_prop in K as [-> K]. apply rlt_true in K. assert (Hs : forall x x', settled true hi (map fst q) x x' -> x' = westward x).
    { intros x x' S1. destruct S1 as [[D|A]|_ _]; [discriminate | | reflexivity]. apply A in Hi. lra. }
    clear Hi Hm. assert (G : forall X, (forall x x', settled true hi X x x' -> x' = westward x) -> Forall2 (fun p r : R * R => snd r = snd p /\ settled true hi X (fst p) (fst r)) q pts ->
      map (fun p => (if rlt 180 (fst p) then fst p - 360 else fst p, snd p)) q = pts); [|exact (G _ Hs H)].
    clear. intros X Hs H. induction H as [|p r q pts [H1 H2] H IH]; [reflexivity|]. cbn [map]. rewrite IH. f_equal. apply Hs in H2. destruct p, r. cbn [fst snd] in *. subst. unfold westward, rlt. destruct (Rlt_dec 180 r0); reflexivity.
  - assert (Hs : forall x x', settled geo hi (map fst q) x x' -> x' = x).
    { intros x x' S1. destruct S1 as [_ | -> (a & A1 & A2)]; [reflexivity|]. cbn [andb] in K. apply Hm in A1. rewrite rlt_t in K by lra. discriminate. }
    clear Hi Hm K. assert (G : forall X, (forall x x', settled geo hi X x x' -> x' = x) -> Forall2 (fun p r : R * R => snd r = snd p /\ settled geo hi X (fst p) (fst r)) q pts -> q = pts); [|exact (G _ Hs H)].
    clear. intros X Hs H. induction H as [|p r q pts [H1 H2] H IH]; [reflexivity|]. rewrite <- IH. f_equal. apply Hs in H2. destruct p, r. cbn [fst snd] in *. subst. reflexivity.
Qed.
(** the cropped model has no more than one turn *)
Lemma not_turn dx nx na : 1 / 250 < dx -> INR nx * dx <= 360 -> (2 <= na)%nat -> (na < nx)%nat -> ~ ExtractSpec.close (INR (na - 1) * dx) (360 - dx).
Proof.
  intros Hd Hn H2 Hlt C. unfold ExtractSpec.close in C. assert (INR na + 1 <= INR nx) by (rewrite <- S_INR; apply le_INR; lia). rewrite minus_INR in C by lia. cbn [INR] in C.
  assert (2 <= INR na) by (apply (le_INR 2 na) in H2; exact H2).
  assert (K : INR na * dx + dx <= 360) by nra. assert (0 <= 360 - dx) by nra. rewrite Rabs_left1 in C by lra. rewrite Rabs_pos_eq in C by lra. lra.
Qed.
