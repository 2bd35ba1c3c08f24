(** Lemmas for C89. *)
From Coq Require Import Reals List Bool Arith ZArith Lra Lia.
From Verif Require Import PyBase RBase MathModel GeoModel ConvertProps GridModel GridProofs InterpModel InterpProps ExtrapProps ExtractModel ExtractSpec NodeProps ExtractProofs ExtractProps SplineProps ReturnProps MergeSpec MergeProps SeriesModel SeriesSpec SeriesProofs SeriesProps SeriesProps2 SeriesProps3 RegularModel RegularSpec RegularProofs RegularProps RegularProps2 CropModel CropSpec CropProofs CropProofs2 CropProps CropProps2 CropProps3 CropProps4 ShoreModel ShoreSpec ShoreProofs ShoreProps ShoreProps2 LaterModel LaterSpec.
Import ListNotations.
Open Scope R_scope.

Definition agree {A B} (P : A -> B -> Prop) (a : res A) (b : res B) : Prop :=
  match a, b with Ok x, Ok y => P x y | Err x, Err y => x = y | _, _ => False end.
(** ** Invalid values replaced by others below the mask *)
Definition alike (w : way) (h h' : gcell cpx) : Prop := hidden w h = hidden w h' /\ (hidden w h = false -> fst h = fst h').
Lemma alike_refl w h : alike w h h.
Proof. split; auto. Qed.
Lemma alike_masks w h h' : w <> Quick Bilinear -> snd h = snd h' -> (snd h = false -> fst h = fst h') -> alike w h h'.
Proof.
  intros N E1 E2. destruct h as [v m], h' as [v' m']. cbn [fst snd] in *. subst m'. unfold alike, hidden. destruct w as [[]|me]; [congruence| |]; cbn [fst snd].
  - auto.
  - destruct m; cbn [orb]; [split; [auto|discriminate]|]. unfold is_fill. cbn [fst]. now rewrite E2.
Qed.
Lemma alike_blank src c : alike (Quick Bilinear) (blank src c) (filled Bilinear c).
Proof. unfold alike, hidden, blank, filled, is_nan. destruct c as [[v|] []], src; cbn; auto. Qed.
Lemma bilinear_alike src ilon ilat g q : agree (alike (Quick Bilinear)) (cbilinear ilon ilat (map (map (blank src)) g) q) (cbilinear ilon ilat (map (map (filled Bilinear)) g) q).
Proof.
  destruct q as [lon lat]. unfold cbilinear, gbilinear_point.
  destruct (amin ilon); [|reflexivity]. cbn [bind]. destruct (amax ilon); [|reflexivity]. cbn [bind]. destruct (amin ilat); [|reflexivity]. cbn [bind]. destruct (amax ilat); [|reflexivity]. cbn [bind].
  match goal with |- context [if ?b then _ else _] => destruct b; [|apply alike_refl] end. unfold gbilinear_inside.
  destruct (single (brackets 0 ilon lon)) as [ix|]; [|reflexivity]. cbn [bind]. destruct (single (brackets 0 ilat lat)) as [iy|]; [|reflexivity]. cbn [bind].
  destruct (get1 ilon ix) as [xa|]; [|reflexivity]. cbn [bind]. destruct (get1 ilon (S ix)) as [xb|]; [|reflexivity]. cbn [bind].
  destruct (get1 ilat iy) as [ya|]; [|reflexivity]. cbn [bind]. destruct (get1 ilat (S iy)) as [yb|]; [|reflexivity]. cbn [bind].
  rewrite !gget2_map.
  destruct (gget2 g iy ix) as [c00|]; [|reflexivity]. cbn [bind]. destruct (gget2 g iy (S ix)) as [c01|]; [|reflexivity]. cbn [bind].
  destruct (gget2 g (S iy) ix) as [c10|]; [|reflexivity]. cbn [bind]. destruct (gget2 g (S iy) (S ix)) as [c11|]; [|reflexivity]. cbn [bind].
  repeat match goal with |- context [if ?b && ?c then _ else _] => destruct (b && c); [apply alike_blank|] end.
  cbn [existsb fst]. destruct (blank_filled src c00) as [-> _]. destruct (blank_filled src c01) as [-> _]. destruct (blank_filled src c10) as [-> _]. destruct (blank_filled src c11) as [-> _].
  match goal with |- context [if ?b then _ else _] => destruct b; [|apply alike_refl] end. cbn [agree].
  match goal with |- context [gweighted _ _ _ [(blank src ?c00, ?w00); (blank src ?c01, ?w01); (blank src ?c10, ?w10); (blank src ?c11, ?w11)]] =>
    pose proof (gweighted_same src [(c00, w00); (c01, w01); (c10, w10); (c11, w11)]) as E end. cbn [map fst snd] in E. rewrite E. apply alike_refl.
Qed.
Lemma spline_alike w ilon ilat g q : w <> Quick Bilinear -> axis ilon -> axis ilat -> rect (length ilat) (length ilon) g ->
  (forall j i, (j < length ilat)%nat -> (i < length ilon)%nat -> fst (entry (None, true) g j i) <> None) ->
  agree (alike w) (cspline ilon ilat g q) (cspline ilon ilat (map (map (filled Spline)) g) q).
Proof.
  intros Nw A1 A2 Rg Hn. destruct q as [lon lat]. unfold cspline. rewrite (spline_clamped _ _ _ _ _ g) by auto. rewrite (spline_clamped _ _ _ _ _ (map (map (filled Spline)) g)) by auto.
  destruct (between_exists ilon lon A1) as (ix & Lx & Bx). destruct (between_exists ilat lat A2) as (iy & Ly & By).
  change nearest_within with clamp in Bx, By.
  assert (H1 : nth 0 ilon 0 <= nth (length ilon - 1) ilon 0) by (apply Rlt_le, A1; lia).
  assert (H2 : nth 0 ilat 0 <= nth (length ilat - 1) ilat 0) by (apply Rlt_le, A2; lia).
  pose proof (clamp_within _ _ lon H1) as W1. pose proof (clamp_within _ _ lat H2) as W2.
  set (x := clamp (nth 0 ilon 0) _ lon) in *. set (y := clamp (nth 0 ilat 0) _ lat) in *.
  assert (Rg' : rect (length ilat) (length ilon) (map (map (filled Spline)) g)) by now apply map_rect.
  pose proof (spline_eq (0, 0) cadd cscale ilon ilat g x y ix iy A1 A2 Rg ltac:(lra) ltac:(lra) Lx Ly) as E1.
  pose proof (spline_eq (0, 0) cadd cscale ilon ilat (map (map (filled Spline)) g) x y ix iy A1 A2 Rg' ltac:(lra) ltac:(lra) Lx Ly) as E2.
  cbv zeta in E1, E2. rewrite !(Rmin_right (nth (length _ - 1) _ 0)) in E1, E2 by lra. specialize (E1 Bx By). specialize (E2 Bx By).
  rewrite !(map_entry (filled Spline) (length ilat) (length ilon) g (None, true)) in E2 by (auto; lia).
  match type of E1 with _ = Ok (if forallb _ ?l then _ else _, _) => set (lf := l) in * end.
  destruct (bracket_le _ _ _ _ Bx) as [Bx1 Bx2]. destruct (bracket_le _ _ _ _ By) as [By1 By2].
  assert (Pw : forall p, In p lf -> 0 <= snd p).
  { assert (Q : forall a b u, a <= u <= b -> a < b -> 0 <= (u - a) / (b - a) <= 1).
    { intros a b u K1 K2. split; [apply Rmult_le_pos; [lra|left; apply Rinv_0_lt_compat; lra]|]. apply Rmult_le_reg_r with (b - a); [lra|]. unfold Rdiv. rewrite Rmult_assoc, Rinv_l; lra. }
    pose proof (Q _ _ x Bx1 Bx2). pose proof (Q _ _ y By1 By2). unfold lf. intros p [<-|[<-|[<-|[<-|[]]]]]; cbn [snd]; apply Rmult_le_pos; lra. }
  assert (Gf : forallb (fun p : gcell (R * R) * R => match fst (fst p) with Some _ => true | None => false end) lf = true).
  { apply forallb_forall. intros p Hp. assert (K : fst (fst p) <> None) by (unfold lf in Hp; destruct Hp as [<-|[<-|[<-|[<-|[]]]]]; cbn [fst]; apply Hn; lia). destruct p as [[[?|] ?] ?]; cbn [fst] in *; congruence. }
  match type of E2 with _ = Ok (if forallb _ ?l then _ else _, _) => assert (El : l = map (fun p => (filled Spline (fst p), snd p)) lf) by reflexivity; rewrite El in E2; clear El end.
  rewrite Gf in E1. clearbody lf.
  replace (forallb _ (map (fun p : gcell cpx * R => (filled Spline (fst p), snd p)) lf)) with true in E2.
  2:{ symmetry. apply forallb_forall. intros p Hp. apply in_map_iff in Hp as (p' & <- & Hp'). cbn [fst]. rewrite forallb_forall in Gf. specialize (Gf p' Hp'). unfold filled. destruct p' as [[[v|] []] w']; cbn in *; auto. }
  rewrite !map_map in E2. cbn [fst snd] in E2.
  assert (Em : map (fun p : gcell cpx * R => snd p * (if snd (filled Spline (fst p)) then 1 else 0)) lf = map (fun p : gcell cpx * R => snd p * (if snd (fst p) then 1 else 0)) lf).
  { apply map_ext. intros [[v []] w']; reflexivity. }
  rewrite Em in E2. match type of E1 with ?m = Ok ?h => match goal with |- agree _ ?m' _ => replace m' with (Ok h) by (symmetry; exact E1) end end.
  match type of E2 with ?m = Ok ?h => match goal with |- agree _ _ ?m' => replace m' with (Ok h) by (symmetry; exact E2) end end. cbn [agree].
  change (fold_right Rplus 0 (map (fun p : gcell cpx * R => snd p * (if snd (fst p) then 1 else 0)) lf)) with (masked_part lf).
  apply alike_masks; auto. cbn [fst snd]. intros K.
  assert (Z : masked_part lf = 0).
  { unfold rlt in K. destruct (Rlt_dec 0 (masked_part lf)); [discriminate|]. assert (0 <= masked_part lf); [|lra]. unfold masked_part. clear - Pw. induction lf as [|[c w'] lf IH]; cbn [map fold_right fst snd]; [lra|].
    assert (0 <= w') by apply (Pw (c, w') (or_introl eq_refl)). specialize (IH (fun p Hp => Pw p (or_intror Hp))). destruct (snd c); lra. }
  rewrite (sums_same lf Pw Z). reflexivity.
Qed.
Lemma regular_alike me ilon ilat g q : axis ilon -> axis ilat -> rect (length ilat) (length ilon) g ->
  (me = Linear -> forall j i, (j < length ilat)%nat -> (i < length ilon)%nat -> fst (entry (None, true) g j i) <> None) ->
  agree (alike (Regular me)) (cregular me ilon ilat g q) (cregular me ilon ilat (map (map (filled Spline)) g) q).
Proof.
  intros A1 A2 Rg Hn. unfold cregular. destruct me.
  - destruct (boxed_dec ilon ilat q) as [B|B]; [|rewrite !regular_outside by (auto; discriminate); apply alike_refl]. rewrite !regular_linear by auto.
    apply spline_alike; auto. discriminate.
  - unfold gregular_point. destruct (negb _); [reflexivity|]. destruct (outside_axes ilon ilat q) as [[]|]; try reflexivity; [apply alike_refl|]. cbn [bind].
    destruct (MaskModel.nearer ilon (fst q)); [|reflexivity]. cbn [bind]. destruct (MaskModel.nearer ilat (snd q)); [|reflexivity]. cbn [bind]. rewrite gget2_map.
    destruct (gget2 g _ _) as [[v m]|]; [|reflexivity]. cbn [bind agree]. apply alike_masks; [discriminate| |]; unfold filled; destruct m; auto; discriminate.
  - unfold gregular_point. destruct (negb _); [reflexivity|]. destruct (outside_axes ilon ilat q); reflexivity.
Qed.
Lemma field_alike src w e q : axis (slon e) -> axis (slat e) -> rect (length (slat e)) (length (slon e)) (shc e) ->
  (w <> Quick Bilinear -> w <> Regular Nearest -> forall j i, (j < length (slat e))%nat -> (i < length (slon e))%nat -> fst (entry (None, true) (shc e) j i) <> None) ->
  agree (alike w) (interpolated src w e q) (interpolated_field w (slon e) (slat e) (shc e) q).
Proof.
  intros A1 A2 Rg Hn. unfold interpolated, interpolated_field. destruct w as [[]|me].
  - apply bilinear_alike.
  - apply spline_alike; auto; [discriminate|]. apply Hn; discriminate.
  - apply regular_alike; auto. intros ->. apply Hn; discriminate.
Qed.

(** ** One constituent *)
Lemma sound_filled c : sound (filled Bilinear c) = sound c.
Proof. unfold sound, filled. destruct c as [[v|] []]; reflexivity. Qed.
Lemma combine_map_r {A B C} (f : B -> C) (l : list A) (m : list B) : combine l (map f m) = map (fun p => (fst p, f (snd p))) (combine l m).
Proof. revert m. induction l as [|a l IH]; intros [|b m]; cbn; auto. now rewrite IH. Qed.
Lemma nodes_filled lon lat f : nodes_of (Sheet lon lat (map (map (filled Bilinear)) f)) = map (fun n => (fst n, filled Bilinear (snd n))) (nodes_of (Sheet lon lat f)).
Proof.
  unfold nodes_of. cbn [slon slat shc]. rewrite combine_map_r. induction (combine lat f) as [|[y r] l IH]; [reflexivity|]. cbn [map flat_map fst snd]. rewrite IH, map_app. f_equal.
  rewrite combine_map_r, !map_map. reflexivity.
Qed.
Lemma closest_map {V} (f : V -> V) q (l : list (vec * V)) : closest q (map (fun n => (fst n, f (snd n))) l) = option_map (fun n => (fst n, f (snd n))) (closest q l).
Proof. induction l as [|n l IH]; [reflexivity|]. cbn [map closest]. rewrite IH. destruct (closest q l) as [m|]; [|reflexivity]. cbn [option_map fst snd]. destruct (rlt _ _); reflexivity. Qed.
Lemma extrapolated_filled c lon lat f pts : extrapolated c (Sheet lon lat (map (map (filled Bilinear)) f)) pts = extrapolated c (Sheet lon lat f) pts.
Proof.
  unfold extrapolated. rewrite nodes_filled. set (qs := map on_ellipsoid pts). set (ns := nodes_of _).
  assert (E : filter (fun n => sound (snd n) && in_bounds coords3 c qs (fst n)) (map (fun n => (fst n, filled Bilinear (snd n))) ns) = filter (fun n => sound (snd n) && in_bounds coords3 c qs (fst n)) ns).
  { induction ns as [|[v k] ns IH]; [reflexivity|]. cbn [map filter fst snd]. rewrite sound_filled. destruct (sound k) eqn:Ek; cbn [andb]; [|exact IH].
    assert (filled Bilinear k = k) as -> by (unfold sound, filled in *; destruct k as [v' []]; auto; discriminate). destruct (in_bounds coords3 c qs v); [now rewrite IH | exact IH]. }
  now rewrite E.
Qed.
Definition same_marks (w : way) (p p' : bool * (gcell cpx * bool)) : Prop :=
  fst p = fst p' /\ snd (snd p) = snd (snd p') /\ (snd (snd p) = false -> fst (fst (snd p)) = fst (fst (snd p'))).
Lemma finished_same sc inv (h h' : gcell cpx * bool) : snd h = snd h' -> (snd h = false -> fst (fst h) = fst (fst h')) -> finished sc inv h = finished sc inv h'.
Proof. intros E1 E2. unfold finished. rewrite <- E1. destruct (snd h); [reflexivity|]. now rewrite E2. Qed.
Lemma marks_same w hs hs' : Forall2 (same_marks w) hs hs' -> map fst hs = map fst hs' /\ map snd (map snd hs) = map snd (map snd hs').
Proof. induction 1 as [|p p' l l' (E1 & E2 & _) _ [IH1 IH2]]; [auto|]. cbn [map]. split; congruence. Qed.
Lemma put_same w sc hs hs' : Forall2 (same_marks w) hs hs' -> forall new,
  map (fun p => finished sc (fst p) (snd p)) (combine (map fst hs) (put (map snd hs) new)) = map (fun p => finished sc (fst p) (snd p)) (combine (map fst hs') (put (map snd hs') new)).
Proof.
  induction 1 as [|[i [h m]] [i' [h' m']] l l' (E1 & E2 & E3) _ IH]; intros new; [reflexivity|]. cbn [fst snd] in *. subst i' m'. cbn [map fst snd put]. destruct m.
  - destruct new as [|v new]; cbn [combine map fst snd]; rewrite IH; f_equal.
  - cbn [combine map fst snd]. rewrite IH. f_equal. apply finished_same; cbn [fst snd]; auto.
Qed.
Lemma plain_same w sc hs hs' : Forall2 (same_marks w) hs hs' ->
  map (fun p => finished sc (fst p) (snd p)) (combine (map fst hs) (map snd hs)) = map (fun p => finished sc (fst p) (snd p)) (combine (map fst hs') (map snd hs')).
Proof.
  induction 1 as [|[i [h m]] [i' [h' m']] l l' (E1 & E2 & E3) _ IH]; [reflexivity|]. cbn [fst snd] in *. subst i' m'. cbn [map fst snd combine]. rewrite IH. f_equal. apply finished_same; cbn [fst snd]; auto.
Qed.
Lemma fill_same w sc c e e' pts hs hs' : Forall2 (same_marks w) hs hs' -> (forall qs, extrapolated c e qs = extrapolated c e' qs) ->
  map (fun p => finished sc (fst p) (snd p)) (combine (map fst hs) (fill_in c e pts (map snd hs))) = map (fun p => finished sc (fst p) (snd p)) (combine (map fst hs') (fill_in c e' pts (map snd hs'))).
Proof.
  intros F Ex. destruct (marks_same _ _ _ F) as [_ M2]. unfold fill_in.
  assert (Eb : forall l : list (gcell cpx * bool), existsb snd l = existsb (fun b => b) (map snd l)) by (induction l as [|a l IH]; [reflexivity|]; cbn; now rewrite IH).
  rewrite !Eb, <- M2, <- Ex. destruct (existsb _ _); [now apply (put_same w) | now apply (plain_same w)].
Qed.
Lemma file_field src w sc ex e pts : axis (slon e) -> axis (slat e) -> rect (length (slat e)) (length (slon e)) (shc e) ->
  (w <> Quick Bilinear -> w <> Regular Nearest -> forall j i, (j < length (slat e))%nat -> (i < length (slon e))%nat -> fst (entry (None, true) (shc e) j i) <> None) ->
  file_values src w sc ex e pts = field_values src w sc ex (slon e) (slat e) (shc e) pts.
Proof.
  intros A1 A2 Rg Hn. unfold file_values, field_values.
  assert (K : agree (Forall2 (same_marks w)) (mapM (fun q => do inv <- outside_sheet src (slon e) (slat e) q ;; do h <- interpolated src w e q ;; Ok (inv, (h, hidden w h))) pts)
    (mapM (fun q => do inv <- outside_sheet src (slon e) (slat e) q ;; do h <- interpolated_field w (slon e) (slat e) (shc e) q ;; Ok (inv, (h, hidden w h))) pts)).
  { induction pts as [|q pts IH]; [constructor|]. cbn [mapM]. destruct (outside_sheet src (slon e) (slat e) q) as [inv|]; [|reflexivity]. cbn [bind].
    pose proof (field_alike src w e q A1 A2 Rg Hn) as F. destruct (interpolated src w e q) as [h|], (interpolated_field w (slon e) (slat e) (shc e) q) as [h'|]; cbn [agree] in F; try contradiction; [|now subst].
    cbn [bind]. destruct (mapM _ pts) as [hs|], (mapM _ pts) as [hs'|]; cbn [agree bind] in *; try contradiction; [|exact IH]. constructor; auto. destruct F as [F1 F2]. unfold same_marks. cbn [fst snd]. auto. }
  destruct (mapM _ pts) as [hs|], (mapM _ pts) as [hs'|]; cbn [agree bind] in *; try contradiction; [|now subst]. f_equal.
  destruct ex as [c|]; [|now apply (plain_same w)]. apply (fill_same w); auto. intros qs. rewrite extrapolated_filled. now destruct e.
Qed.
