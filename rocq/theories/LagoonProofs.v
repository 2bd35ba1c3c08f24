(** Lemmas for C90. *)
From Coq Require Import Reals List Bool Arith ZArith Lra Lia.
From Verif Require Import PyBase RBase MathModel GeoModel ConvertProps GridModel GridProofs InterpModel InterpProps ExtrapProps ExtractModel ExtractSpec NodeProps ExtractProofs ExtractProps SplineProps ReturnProps MergeSpec MergeProps SeriesModel SeriesSpec SeriesProofs SeriesProps SeriesProps2 SeriesProps3 StretchProofs AtlasNcModel AtlasNcSpec AtlasNcProps AtlasNcProps2 AtlasNcProps3 RegularModel RegularSpec RegularProofs RegularProps RegularProps2 RegularProps3 CropModel CropSpec CropProofs CropProps ShoreModel ShoreSpec ShoreProofs ShoreProps NarrowModel ReefModel ReefProofs ReefProps LaterModel LaterProofs LaterProps LagoonModel.
From Verif Require MaskModel.
Import ListNotations.
Open Scope R_scope.

(** ** Values below the mask *)
Definition same_number (h h' : gcell cpx) : Prop := snd h = snd h' /\ (snd h = false -> fst h = fst h').
Lemma same_number_refl h : same_number h h.
Proof. split; auto. Qed.
Lemma wiped_usable c : gusable (wiped c) = gusable c.
Proof. unfold wiped, gusable. destruct c as [[v|] []]; reflexivity. Qed.
Lemma wiped_same c : gusable c = true -> wiped c = c.
Proof. unfold wiped, gusable. destruct c as [[v|] []]; cbn; auto; discriminate. Qed.
Lemma wiped_number c : same_number c (wiped c).
Proof. unfold same_number, wiped. destruct c as [v []]; cbn; auto; split; auto; discriminate. Qed.
Lemma bilinear_number xi yi g q : agree same_number (cbilinear xi yi g q) (cbilinear xi yi (map (map wiped) g) q).
Proof.
  assert (Fw : forall l, gweighted (0, 0) cadd cscale (map (fun p : gcell cpx * R => (wiped (fst p), snd p)) l) = gweighted (0, 0) cadd cscale l).
  { intros l. unfold gweighted. assert (E : filter (fun p : gcell cpx * R => gusable (fst p)) (map (fun p => (wiped (fst p), snd p)) l) = filter (fun p : gcell cpx * R => gusable (fst p)) l).
    { induction l as [|[c w] l IH]; [reflexivity|]. cbn [map filter fst snd]. rewrite wiped_usable. destruct (gusable c) eqn:K; [now rewrite wiped_same, IH|exact IH]. }
    now rewrite E. }
  destruct q as [lon lat]. unfold cbilinear, gbilinear_point.
  destruct (amin xi); [|reflexivity]. cbn [bind]. destruct (amax xi); [|reflexivity]. cbn [bind]. destruct (amin yi); [|reflexivity]. cbn [bind]. destruct (amax yi); [|reflexivity]. cbn [bind].
  match goal with |- context [if ?b then _ else _] => destruct b; [|apply same_number_refl] end. unfold gbilinear_inside.
  destruct (single (brackets 0 xi lon)) as [ix|]; [|reflexivity]. cbn [bind]. destruct (single (brackets 0 yi lat)) as [iy|]; [|reflexivity]. cbn [bind].
  destruct (get1 xi ix) as [xa|]; [|reflexivity]. cbn [bind]. destruct (get1 xi (S ix)) as [xb|]; [|reflexivity]. cbn [bind].
  destruct (get1 yi iy) as [ya|]; [|reflexivity]. cbn [bind]. destruct (get1 yi (S iy)) as [yb|]; [|reflexivity]. cbn [bind].
  rewrite !gget2_map.
  destruct (gget2 g iy ix) as [c00|]; [|reflexivity]. cbn [bind]. destruct (gget2 g iy (S ix)) as [c01|]; [|reflexivity]. cbn [bind].
  destruct (gget2 g (S iy) ix) as [c10|]; [|reflexivity]. cbn [bind]. destruct (gget2 g (S iy) (S ix)) as [c11|]; [|reflexivity]. cbn [bind].
  repeat match goal with |- context [if ?b && ?c then _ else _] => destruct (b && c); [apply wiped_number|] end.
  cbn [existsb fst]. rewrite !wiped_usable. match goal with |- context [if ?b then _ else _] => destruct b; [|apply same_number_refl] end.
  match goal with |- context [gweighted _ _ _ [(wiped ?c00, ?w00); (wiped ?c01, ?w01); (wiped ?c10, ?w10); (wiped ?c11, ?w11)]] =>
    pose proof (Fw [(c00, w00); (c01, w01); (c10, w10); (c11, w11)]) as E end. cbn [map fst snd] in E. rewrite E. apply same_number_refl.
Qed.
(** the values below the mask that a method needs to be numbers *)
Definition backed (w : way) (ny nx : nat) (hc : field) : Prop :=
  w <> Quick Bilinear -> w <> Regular Nearest -> forall j i, (j < ny)%nat -> (i < nx)%nat -> fst (entry (None, true) hc j i) <> None.
Lemma number_same w xi yi hc q : axis xi -> axis yi -> rect (length yi) (length xi) hc -> backed w (length yi) (length xi) hc ->
  agree same_number (number_by w xi yi hc q) (number_by w xi yi (primed w hc) q).
Proof.
  intros A1 A2 Rg Hn. unfold number_by, primed. destruct w as [[]|me].
  - apply bilinear_number.
  - apply (spline_alike (Quick Spline)); auto; [discriminate|]. apply Hn; discriminate.
  - unfold cregular. destruct me.
    + destruct (boxed_dec xi yi q) as [B|B]; [|rewrite !regular_outside by (auto; discriminate); apply same_number_refl]. rewrite !regular_linear by auto.
      apply (spline_alike (Quick Spline)); auto; [discriminate|]. apply Hn; discriminate.
    + unfold gregular_point. destruct (negb _); [reflexivity|]. destruct (outside_axes xi yi q) as [[]|]; try reflexivity; [apply same_number_refl|]. cbn [bind].
      destruct (MaskModel.nearer xi (fst q)); [|reflexivity]. cbn [bind]. destruct (MaskModel.nearer yi (snd q)); [|reflexivity]. cbn [bind]. rewrite gget2_map.
      destruct (gget2 hc _ _) as [[v m]|]; [|reflexivity]. cbn [bind agree]. unfold same_number, filled. destruct m; cbn; split; auto; discriminate.
    + unfold gregular_point. destruct (negb _); [reflexivity|]. destruct (outside_axes xi yi q); reflexivity.
Qed.
(** the same depth: with bilinear interpolation the number under the mask does not count *)
Definition same_depth (w : way) (D D' : gcell R) : Prop := snd D = snd D' /\ (snd D = false \/ w <> Quick Bilinear -> D = D').
Lemma same_bed w D D' : same_depth w D D' -> bed_data w D = bed_data w D'.
Proof.
  intros [E1 E2]. destruct w as [[]|]; cbn [bed_data].
  - rewrite <- E1. destruct (snd D) eqn:E; [reflexivity|]. rewrite E2; auto.
  - rewrite E2; auto. right. discriminate. - rewrite E2; auto. right. discriminate.
Qed.
Lemma bed_same w xi yi b q : agree (same_depth w) (bed_by w xi yi b q) (bed_by w xi yi (dredged w b) q).
Proof.
  destruct w as [[]|me]; cbn [bed_by dredged].
  - pose proof (sounding_sunk xi yi b q) as K. destruct (sounding Bilinear xi yi b q) as [D|], (sounding Bilinear xi yi (map (map sunk) b) q) as [D'|]; cbn [agree] in *; auto.
    destruct K as [K1 K2]. split; [auto|]. intros [K|K]; [|congruence]. unfold open_depth in K2. rewrite <- K1, K in K2. destruct D as [v b0], D' as [v' b0']. cbn [fst snd] in *. now subst.
  - destruct (sounding Spline xi yi b q); cbn [agree]; [split|]; auto.
  - destruct (rregular me xi yi b q); cbn [agree]; [split|]; auto.
Qed.

(** ** Nodes for the extrapolation *)
Lemma nodes_map (f : gcell cpx -> gcell cpx) lon lat g : nodes_of (Sheet lon lat (map (map f) g)) = map (fun n => (fst n, f (snd n))) (nodes_of (Sheet lon lat g)).
Proof.
  unfold nodes_of. cbn [slon slat shc]. rewrite combine_map_r. induction (combine lat g) as [|[y r] l IH]; [reflexivity|]. cbn [map flat_map fst snd]. rewrite IH, map_app. f_equal.
  rewrite combine_map_r, !map_map. reflexivity.
Qed.
Lemma extrapolated_map (f : gcell cpx -> gcell cpx) c lon lat g pts : (forall k, sound (f k) = sound k) -> (forall k, sound k = true -> f k = k) ->
  extrapolated c (Sheet lon lat (map (map f) g)) pts = extrapolated c (Sheet lon lat g) pts.
Proof.
  intros F1 F2. unfold extrapolated. rewrite nodes_map. set (qs := map on_ellipsoid pts). set (ns := nodes_of _).
  assert (E : filter (fun n => sound (snd n) && in_bounds coords3 c qs (fst n)) (map (fun n => (fst n, f (snd n))) ns) = filter (fun n => sound (snd n) && in_bounds coords3 c qs (fst n)) ns).
  { induction ns as [|[v k] ns IH]; [reflexivity|]. cbn [map filter fst snd]. rewrite F1. destruct (sound k) eqn:Ek; cbn [andb]; [|exact IH].
    rewrite F2 by auto. destruct (in_bounds coords3 c qs v); [now rewrite IH | exact IH]. }
  now rewrite E.
Qed.
Lemma lagoon_nodes w c lon lat hc qs : extrapolated c (Sheet lon lat (map (map wiped) hc)) qs = extrapolated c (Sheet lon lat (map (map unveiled) (primed w hc))) qs.
Proof.
  assert (W : forall f : gcell cpx -> gcell cpx, f = wiped \/ f = unveiled \/ f = filled Spline -> forall g, extrapolated c (Sheet lon lat (map (map f) g)) qs = extrapolated c (Sheet lon lat g) qs).
  { intros f Hf g. apply extrapolated_map; intros [v []]; destruct Hf as [-> | [-> | ->]]; unfold sound, wiped, unveiled, filled; cbn; auto; try discriminate; destruct v; reflexivity. }
  rewrite W by auto. rewrite W by auto. unfold primed. destruct w as [[]|]; rewrite W; auto.
Qed.

(** ** One constituent *)
Definition same_place (w : way) (p p' : (R * R) * (bool * gcell R)) : Prop :=
  fst p = fst p' /\ fst (snd p) = fst (snd p') /\ snd (snd (snd p)) = snd (snd (snd p')) /\ bed_data w (snd (snd p)) = bed_data w (snd (snd p')).
Definition same_mark (p p' : gcell cpx * bool) : Prop := snd p = snd p' /\ (snd p = false -> fst (fst p) = fst (fst p')).
Lemma value_same w t sc p p' h h' : same_place w p p' -> same_mark h h' -> reef_value t sc w (fst (snd p)) (snd (snd p)) h = reef_value t sc w (fst (snd p')) (snd (snd p')) h'.
Proof.
  intros (_ & E1 & _ & E2) (E3 & E4). unfold reef_value. rewrite <- E1, <- E2, <- E3. destruct (snd h); [reflexivity|]. now rewrite E4.
Qed.
Lemma values_same w t sc ps ps' hs hs' : Forall2 (same_place w) ps ps' -> Forall2 same_mark hs hs' ->
  map (fun p => reef_value t sc w (fst (snd (fst p))) (snd (snd (fst p))) (snd p)) (combine ps hs) = map (fun p => reef_value t sc w (fst (snd (fst p))) (snd (snd (fst p))) (snd p)) (combine ps' hs').
Proof.
  intros H. revert hs hs'. induction H as [|p p' ps ps' Hp _ IH]; intros hs hs' Hh; [reflexivity|]. destruct Hh as [|h h' hs hs' Hh Hhs]; [reflexivity|]. cbn [combine map fst snd].
  rewrite (value_same w t sc p p' h h') by auto. now rewrite (IH hs hs').
Qed.
Lemma mark_refl h : same_mark h h.
Proof. split; auto. Qed.
Lemma put_marks hs hs' : Forall2 same_mark hs hs' -> forall new, Forall2 same_mark (put hs new) (put hs' new).
Proof.
  induction 1 as [|[h m] [h' m'] l l' [E1 E2] Hl IH]; intros new; [constructor|]. cbn [fst snd] in *. subst m'. cbn [put]. destruct m; [|constructor; [split; auto|apply IH]].
  destruct new as [|v new]; constructor; auto; [split; auto; discriminate | apply mark_refl].
Qed.
Lemma fill_marks c e e' pts hs hs' : Forall2 same_mark hs hs' -> (forall qs, extrapolated c e qs = extrapolated c e' qs) -> Forall2 same_mark (fill_in c e pts hs) (fill_in c e' pts hs').
Proof.
  intros F Ex. unfold fill_in. assert (M : map snd hs = map snd hs') by (clear - F; induction F as [|h h' l l' [E _] _ IH]; [reflexivity|]; cbn [map]; congruence).
  assert (Eb : forall l : list (gcell cpx * bool), existsb snd l = existsb (fun b => b) (map snd l)) by (induction l as [|a l IH]; [reflexivity|]; cbn; now rewrite IH).
  rewrite !Eb, <- M, <- Ex. destruct (existsb _ _); [now apply put_marks | exact F].
Qed.
Lemma constituent_same w t sc ex xi yi hc ps ps' : axis xi -> axis yi -> rect (length yi) (length xi) hc -> backed w (length yi) (length xi) hc -> Forall2 (same_place w) ps ps' ->
  reef_constituent w t sc ex xi yi hc ps = lagoon_constituent w t sc ex xi yi hc ps'.
Proof.
  intros A1 A2 Rg Hn F. unfold reef_constituent, lagoon_constituent.
  assert (K : agree (Forall2 same_mark) (mapM (fun p => do h <- number_by w xi yi hc (fst p) ;; Ok (h, concealed (snd (snd p)) h)) ps) (mapM (fun p => do h <- number_by w xi yi (primed w hc) (fst p) ;; Ok (h, concealed (snd (snd p)) h)) ps')).
  { induction F as [|p p' ps ps' (E1 & _ & E3 & _) _ IH]; [constructor|]. cbn [mapM]. rewrite <- E1. pose proof (number_same w xi yi hc (fst p) A1 A2 Rg Hn) as S1.
    destruct (number_by w xi yi hc (fst p)) as [h|], (number_by w xi yi (primed w hc) (fst p)) as [h'|]; cbn [agree] in S1; try contradiction; [|now subst]. cbn [bind].
    destruct (mapM _ ps) as [hs|], (mapM _ ps') as [hs'|]; cbn [agree bind] in *; try contradiction; [|exact IH]. constructor; auto. destruct S1 as [S1 S2]. unfold same_mark, concealed. cbn [fst snd]. rewrite <- E3, <- S1.
    split; auto. intros Q. apply S2. apply orb_false_elim in Q. tauto. }
  destruct (mapM _ ps) as [hs|], (mapM _ ps') as [hs'|]; cbn [agree bind] in *; try contradiction; [|now subst]. f_equal. apply values_same; auto.
  destruct ex as [c|]; [|exact K]. replace (map fst ps') with (map fst ps) by (clear - F; induction F as [|p p' l l' (E & _) _ IH]; [reflexivity|]; cbn [map]; congruence).
  apply fill_marks; auto. intros qs. apply lagoon_nodes.
Qed.
