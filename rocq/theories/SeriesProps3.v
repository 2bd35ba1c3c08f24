(** C69: reading the constants of FES and GOT models before interpolating them. *)
From Coq Require Import Reals List Bool Arith ZArith Lra Lia.
From Verif Require Import PyBase RBase MathModel GeoModel ConvertProps GridModel InterpModel InterpProps ExtractModel ExtractSpec NodeProps ExtractProofs ExtractProps SplineProps ReturnProps MergeSpec MergeProps SeriesModel SeriesSpec SeriesProofs SeriesProps SeriesProps2.
Import ListNotations.
Open Scope R_scope.

(** ** The two ways of leaving out invalid values give the same *)
Lemma get1_map {A B} (f : A -> B) l i : get1 (map f l) i = (do x <- get1 l i ;; Ok (f x)).
Proof. unfold get1. rewrite nth_error_map. now destruct (nth_error l i). Qed.
Lemma gget2_map {V W} (f : gcell V -> gcell W) g iy ix : gget2 (map (map f) g) iy ix = (do c <- gget2 g iy ix ;; Ok (f c)).
Proof. unfold gget2. rewrite get1_map. destruct (get1 g iy) as [r|]; [|reflexivity]. cbn [bind]. apply get1_map. Qed.
Lemma blank_filled src c : gusable (blank src c) = gusable (filled Bilinear c) /\ fst (blank src c) = fst (filled Bilinear c).
Proof. unfold blank, filled, gusable. destruct c as [[v|] []], src; auto. Qed.
Lemma settled_blank src sc b c : settled Bilinear sc b (blank src c) = settled Bilinear sc b (filled Bilinear c).
Proof. unfold settled, blank, filled, is_nan. destruct c as [[v|] []], src; auto. Qed.
Lemma gw_pairs (us : list (gcell cpx * R)) :
  (if req (fold_right Rplus 0 (map snd us)) 0 then None else Some (cscale (/ fold_right Rplus 0 (map snd us)) (fold_right cadd (0, 0) (map (fun p => cscale (snd p) (gnumber (0, 0) (fst p))) us)))) =
  let qs := map (fun p : gcell cpx * R => (snd p, gnumber (0, 0) (fst p))) us in
  if req (fold_right Rplus 0 (map fst qs)) 0 then None else Some (cscale (/ fold_right Rplus 0 (map fst qs)) (fold_right cadd (0, 0) (map (fun q => cscale (fst q) (snd q)) qs))).
Proof. cbv zeta. rewrite !map_map. reflexivity. Qed.
Lemma gweighted_same src (l : list (gcell cpx * R)) :
  gweighted (0, 0) cadd cscale (map (fun p => (blank src (fst p), snd p)) l) = gweighted (0, 0) cadd cscale (map (fun p => (filled Bilinear (fst p), snd p)) l).
Proof.
  unfold gweighted.
  assert (E : map (fun p : gcell cpx * R => (snd p, gnumber (0, 0) (fst p))) (filter (fun p => gusable (fst p)) (map (fun p => (blank src (fst p), snd p)) l)) =
              map (fun p : gcell cpx * R => (snd p, gnumber (0, 0) (fst p))) (filter (fun p => gusable (fst p)) (map (fun p => (filled Bilinear (fst p), snd p)) l))).
  { induction l as [|[c w] l IH]; [reflexivity|]. cbn [map filter fst snd]. destruct (blank_filled src c) as [E1 E2]. rewrite E1. destruct (gusable (filled Bilinear c)); [|exact IH].
    cbn [map fst snd]. rewrite IH. unfold gnumber. now rewrite E2. }
  rewrite !gw_pairs, E. reflexivity.
Qed.
Lemma bilinear_same src sc inv ilon ilat g q :
  (do h <- cbilinear ilon ilat (map (map (blank src)) g) q ;; Ok (settled Bilinear sc inv h)) = (do h <- cbilinear ilon ilat (map (map (filled Bilinear)) g) q ;; Ok (settled Bilinear sc inv h)).
Proof.
  destruct q as [lon lat]. unfold cbilinear, gbilinear_point.
  destruct (amin ilon); [|reflexivity]. cbn [bind]. destruct (amax ilon); [|reflexivity]. cbn [bind]. destruct (amin ilat); [|reflexivity]. cbn [bind]. destruct (amax ilat); [|reflexivity]. cbn [bind].
  match goal with |- context [if ?b then _ else _] => destruct b; [|reflexivity] end. unfold gbilinear_inside.
  destruct (single (brackets 0 ilon lon)) as [ix|]; [|reflexivity]. cbn [bind]. destruct (single (brackets 0 ilat lat)) as [iy|]; [|reflexivity]. cbn [bind].
  destruct (get1 ilon ix) as [xa|]; [|reflexivity]. cbn [bind]. destruct (get1 ilon (S ix)) as [xb|]; [|reflexivity]. cbn [bind].
  destruct (get1 ilat iy) as [ya|]; [|reflexivity]. cbn [bind]. destruct (get1 ilat (S iy)) as [yb|]; [|reflexivity]. cbn [bind].
  rewrite !gget2_map.
  destruct (gget2 g iy ix) as [c00|]; [|reflexivity]. cbn [bind]. destruct (gget2 g iy (S ix)) as [c01|]; [|reflexivity]. cbn [bind].
  destruct (gget2 g (S iy) ix) as [c10|]; [|reflexivity]. cbn [bind]. destruct (gget2 g (S iy) (S ix)) as [c11|]; [|reflexivity]. cbn [bind].
  repeat match goal with |- context [if ?b && ?c then _ else _] => destruct (b && c); [cbn [bind]; now rewrite settled_blank|] end.
  cbn [existsb fst]. destruct (blank_filled src c00) as [-> _]. destruct (blank_filled src c01) as [-> _]. destruct (blank_filled src c10) as [-> _]. destruct (blank_filled src c11) as [-> _].
  match goal with |- context [if ?b then _ else _] => destruct b; [|reflexivity] end. cbn [bind].
  match goal with |- context [gweighted _ _ _ [(blank src ?c00, ?w00); (blank src ?c01, ?w01); (blank src ?c10, ?w10); (blank src ?c11, ?w11)]] =>
    pose proof (gweighted_same src [(c00, w00); (c01, w01); (c10, w10); (c11, w11)]) as E end. cbn [map fst snd] in E. now rewrite E.
Qed.

Definition recell (c : gcell cpx) : gcell cpx := filled Spline c.
Lemma sums_same (l : list (gcell cpx * R)) : (forall p, In p l -> 0 <= snd p) -> masked_part l = 0 ->
  map (fun p => cscale (snd p) (gnumber (0, 0) (filled Spline (fst p)))) l = map (fun p => cscale (snd p) (gnumber (0, 0) (fst p))) l.
Proof.
  intros Hw. assert (P : 0 <= masked_part l).
  { unfold masked_part. induction l as [|[c w] l IH]; cbn [map fold_right fst snd]; [lra|]. assert (0 <= w) by apply (Hw (c, w) (or_introl eq_refl)).
    specialize (IH (fun p Hp => Hw p (or_intror Hp))). destruct (snd c); lra. }
  revert P. unfold masked_part. induction l as [|[c w] l IH]; cbn [map fold_right fst snd]; [reflexivity|]. intros P Z.
  assert (Hc : 0 <= w) by apply (Hw (c, w) (or_introl eq_refl)).
  assert (Pl : 0 <= fold_right Rplus 0 (map (fun p : gcell cpx * R => snd p * (if snd (fst p) then 1 else 0)) l)).
  { clear IH P Z. induction l as [|[c' w'] l IH]; cbn [map fold_right fst snd]; [lra|]. assert (0 <= w') by apply (Hw (c', w') (or_intror (or_introl eq_refl))).
    assert (0 <= fold_right Rplus 0 (map (fun p : gcell cpx * R => snd p * (if snd (fst p) then 1 else 0)) l)) by (apply IH; intros p [<-|Hp]; apply Hw; [now left|now (right; right)]). destruct (snd c'); lra. }
  f_equal.
  - unfold filled. destruct (snd c) eqn:K; [|reflexivity]. assert (w = 0) as -> by lra. unfold cscale. f_equal; ring.
  - apply IH; auto; [intros p Hp; apply Hw; now right|]. destruct (snd c); lra.
Qed.
Lemma spline_same sc inv ilon ilat g q : axis ilon -> axis ilat -> rect (length ilat) (length ilon) g ->
  (forall j i, (j < length ilat)%nat -> (i < length ilon)%nat -> fst (entry (None, true) g j i) <> None) ->
  (do h <- cspline ilon ilat g q ;; Ok (settled Spline sc inv h)) = (do h <- cspline ilon ilat (map (map (filled Spline)) g) q ;; Ok (settled Spline sc inv h)).
Proof.
  intros A1 A2 Rg Hn. destruct q as [lon lat]. unfold cspline. rewrite (spline_clamped _ _ _ _ _ g) by auto. rewrite (spline_clamped _ _ _ _ _ (map (map (filled Spline)) g)) by auto.
  destruct (between_exists ilon lon A1) as (ix & Lx & Bx). destruct (between_exists ilat lat A2) as (iy & Ly & By).
  change nearest_within with clamp in Bx, By.
  assert (H1 : nth 0 ilon 0 <= nth (length ilon - 1) ilon 0) by (apply Rlt_le, A1; lia).
  assert (H2 : nth 0 ilat 0 <= nth (length ilat - 1) ilat 0) by (apply Rlt_le, A2; lia).
  pose proof (clamp_within _ _ lon H1) as W1. pose proof (clamp_within _ _ lat H2) as W2.
  set (x := clamp (nth 0 ilon 0) _ lon) in *. set (y := clamp (nth 0 ilat 0) _ lat) in *.
  assert (Rg' : rect (length ilat) (length ilon) (map (map (filled Spline)) g)) by now apply map_rect.
  pose proof (spline_eq (0, 0) cadd cscale ilon ilat g x y ix iy A1 A2 Rg ltac:(lra) ltac:(lra) Lx Ly) as E1.
  pose proof (spline_eq (0, 0) cadd cscale ilon ilat (map (map (filled Spline)) g) x y ix iy A1 A2 Rg' ltac:(lra) ltac:(lra) Lx Ly) as E2.
  cbv zeta in E1, E2. rewrite !(Rmin_right (nth (length _ - 1) _ 0)) in E1, E2 by lra. specialize (E1 Bx By). specialize (E2 Bx By).
  rewrite !(map_entry (filled Spline) (length ilat) (length ilon) g (None, true)) in E2 by (auto; lia).
  match type of E1 with _ = Ok (if forallb _ ?l then _ else _, _) => set (lf := l) in * end.
  destruct (bracket_le _ _ _ _ Bx) as [Bx1 Bx2]. destruct (bracket_le _ _ _ _ By) as [By1 By2].
  assert (Pw : forall p, In p lf -> 0 <= snd p).
  { assert (Q : forall a b u, a <= u <= b -> a < b -> 0 <= (u - a) / (b - a) <= 1).
    { intros a b u K1 K2. split; [apply Rmult_le_pos; [lra|left; apply Rinv_0_lt_compat; lra]|]. apply Rmult_le_reg_r with (b - a); [lra|]. unfold Rdiv. rewrite Rmult_assoc, Rinv_l; lra. }
    pose proof (Q _ _ x Bx1 Bx2). pose proof (Q _ _ y By1 By2). unfold lf. intros p [<-|[<-|[<-|[<-|[]]]]]; cbn [snd]; apply Rmult_le_pos; lra. }
  assert (Gf : forallb (fun p : gcell (R * R) * R => match fst (fst p) with Some _ => true | None => false end) lf = true).
  { apply forallb_forall. intros p Hp. assert (K : fst (fst p) <> None) by (unfold lf in Hp; destruct Hp as [<-|[<-|[<-|[<-|[]]]]]; cbn [fst]; apply Hn; lia). destruct p as [[[?|] ?] ?]; cbn [fst] in *; congruence. }
  match type of E2 with _ = Ok (if forallb _ ?l then _ else _, _) => assert (El : l = map (fun p => (filled Spline (fst p), snd p)) lf) by reflexivity; rewrite El in E2; clear El end.
  rewrite Gf in E1. clearbody lf.
  replace (forallb _ (map (fun p : gcell cpx * R => (filled Spline (fst p), snd p)) lf)) with true in E2.
  2:{ symmetry. apply forallb_forall. intros p Hp. apply in_map_iff in Hp as (p' & <- & Hp'). cbn [fst]. rewrite forallb_forall in Gf. specialize (Gf p' Hp'). unfold filled. destruct p' as [[[v|] []] w]; cbn in *; auto. }
  rewrite !map_map in E2. cbn [fst snd] in E2.
  assert (Em : map (fun p : gcell cpx * R => snd p * (if snd (filled Spline (fst p)) then 1 else 0)) lf = map (fun p : gcell cpx * R => snd p * (if snd (fst p) then 1 else 0)) lf).
  { apply map_ext. intros [[v []] w]; reflexivity. }
  rewrite Em in E2. match type of E1 with ?m = Ok ?h => match goal with |- bind ?m' _ = _ => replace m' with (Ok h) by (symmetry; exact E1) end end.
  match type of E2 with ?m = Ok ?h => match goal with |- _ = bind ?m' _ => replace m' with (Ok h) by (symmetry; exact E2) end end. cbn [bind]. f_equal.
  change (fold_right Rplus 0 (map (fun p : gcell cpx * R => snd p * (if snd (fst p) then 1 else 0)) lf)) with (masked_part lf).
  unfold settled. cbn [fst snd]. destruct (rlt 0 (masked_part lf)) eqn:K; [reflexivity|].
  assert (Z : masked_part lf = 0).
  { unfold rlt in K. destruct (Rlt_dec 0 (masked_part lf)); [discriminate|]. assert (0 <= masked_part lf); [|lra]. unfold masked_part. clear - Pw. induction lf as [|[c w] lf IH]; cbn [map fold_right fst snd]; [lra|].
    assert (0 <= w) by apply (Pw (c, w) (or_introl eq_refl)). specialize (IH (fun p Hp => Pw p (or_intror Hp))). destruct (snd c); lra. }
  rewrite (sums_same lf Pw Z). reflexivity.
Qed.

(** ** Extraction as one pass over the files *)
Lemma extract_files_mapM src me sc fr files : (forall s, In s files -> framed fr (slon s) /\ exists d, spacing (slon s) = Ok d) -> forall pts,
  pts <> [] -> (forall q, In q pts -> -360 <= fst q <= 540) ->
  extract_files src me sc files pts = mapM (fun s => do e <- extend_sheet src s ;; mapM (sheet_constant src me sc e) (map (fun p => (placed fr (fst p), snd p)) pts)) files.
Proof.
  induction files as [|s files IH]; intros Hf pts Hn Hp; [reflexivity|]. cbn [extract_files mapM].
  destruct (Hf s (or_introl eq_refl)) as [Fr (d & Ed)]. rewrite Ed. cbn [bind].
  destruct (adjust_ok (slon s) pts) as (pts' & Ea); auto. { intros K. rewrite K in Ed. discriminate. }
  rewrite Ea. cbn [bind]. apply (adjust_placed fr) in Ea; auto. subst pts'. destruct (extend_sheet src s) as [e|]; [|reflexivity]. cbn [bind].
  destruct (mapM (sheet_constant src me sc e) _) as [cs|]; [|reflexivity]. cbn [bind].
  rewrite IH; [|intros; apply Hf; now right|intros K; apply map_eq_nil in K; auto|intros q Hq; apply in_map_iff in Hq as (p & <- & Hin); cbn [fst]; apply placed_twice; auto].
  replace (map (fun p : R * R => (placed fr (fst p), snd p)) (map (fun p : R * R => (placed fr (fst p), snd p)) pts)) with (map (fun p : R * R => (placed fr (fst p), snd p)) pts); [reflexivity|].
  rewrite map_map. apply map_ext_in. intros p Hin. cbn [fst snd]. now rewrite (proj1 (placed_twice fr (fst p) (Hp p Hin))).
Qed.
Lemma mapM_ext_in {A B} (f g : A -> res B) l : (forall a, In a l -> f a = g a) -> mapM f l = mapM g l.
Proof. induction l as [|a l IH]; intros H; [reflexivity|]. cbn [mapM]. rewrite H by now left. rewrite IH; [reflexivity|]. intros; apply H; now right. Qed.
Lemma evenly_unique x0 d n l l' : evenly x0 d n l -> evenly x0 d n l' -> l = l'.
Proof. intros (_ & L & E) (_ & L' & E'). apply nth_ext with 0 0; [congruence|]. intros i Hi. rewrite E, E' by lia. reflexivity. Qed.

(** the longitudes of the longer grid place the points as those of the file do *)
Definition same_frame (src : series) (fr : frame) (around : bool) (x0 dx : R) (nx : nat) (pts : list (R * R)) : Prop :=
  around = false \/
  fr = Eastern /\ (dx <= x0 \/ (exists p, In p pts /\ fst p < 0) \/ (forall p, In p pts -> fst p <= 180)) \/
  fr = Western /\ node_x Heights x0 dx (last_of (behind src) around nx) <= 180.
Lemma evenly_in x0 d n l a : evenly x0 d n l -> In a l -> exists i, (i < n)%nat /\ a = x0 + INR i * d.
Proof. intros (_ & L & E) H. apply In_nth with (d := 0) in H as (i & Hi & <-). exists i. rewrite L in Hi. auto. Qed.
Lemma adjust_longer src fr around x0 dx nx y0 dy ny s lon pts : sheet_grid around x0 dx nx y0 dy ny s -> framed fr (slon s) ->
  evenly (x0 - INR (bef around) * dx) dx (bef around + nx + aft src around) lon -> pts <> [] -> same_frame src fr around x0 dx nx pts ->
  adjust lon pts = Ok (map (fun p => (placed fr (fst p), snd p)) pts).
Proof.
  intros G F Hx Hn Hs. pose proof G as (Gx & _ & Nx & _). assert (Hdx : 0 < dx) by apply Gx.
  destruct (adjust_ok lon pts) as (pts' & Ea); auto. { intros ->. destruct Hx as (_ & L & _). cbn in L. lia. }
  rewrite Ea. f_equal. destruct Hs as [-> | Hs].
  - apply (adjust_placed fr lon); auto. unfold bef, aft in Hx. cbn [INR] in Hx. replace (x0 - 0 * dx) with x0 in Hx by ring. replace (0 + nx + 0)%nat with nx in Hx by lia. now rewrite (evenly_unique _ _ _ _ _ Hx Gx).
  - destruct (first_last_lon src around x0 dx nx lon Nx Hx) as [F1 F2]. assert (A1 : axis lon) by (apply (evenly_axis _ _ _ _ Hx); lia).
    assert (Ein : forall a, In a (slon s) -> In a lon).
    { intros a Ha. destruct (evenly_in _ _ _ _ _ Gx Ha) as (i & Hi & ->). replace (x0 + INR i * dx) with (nth (ec (bef around) (Z.of_nat i)) lon 0).
      - apply nth_In. destruct Hx as (_ & -> & _). apply ec_lt. unfold within. lia.
      - rewrite (ec_x (bef around) (aft src around) nx x0 dx lon Hx) by (unfold within; lia). unfold node_x. now rewrite <- INR_IZR_INZ. }
    assert (Low : forall a, In a lon -> x0 - dx <= a).
    { intros a Ha. destruct (evenly_in _ _ _ _ _ Hx Ha) as (i & Hi & ->). assert (0 <= INR i) by apply pos_INR. unfold bef. destruct around; cbn [INR]; nra. }
    assert (High : forall a, In a lon -> a <= node_x Heights x0 dx (last_of (behind src) around nx)).
    { intros a Ha. rewrite <- F2. apply In_nth with (d := 0) in Ha as (i & Hi & <-). apply axis_mono; auto. lia. }
    destruct Hs as [(-> & Hs)|(-> & Hs)].
    + destruct F as [(a & Ha & La) F]. destruct (Rle_lt_dec 0 (x0 - dx)) as [K|K].
      { apply (adjust_placed Eastern lon); auto. split; [exists a; auto|]. intros b Hb. specialize (Low b Hb). lra. }
      unfold adjust in Ea. destruct (amin (map fst pts)) as [mn|] eqn:E1; [|discriminate]. cbn [bind] in Ea. destruct (amax (map fst pts)) as [mx|] eqn:E2; [|discriminate]. cbn [bind] in Ea.
      destruct (amin lon) as [lo|] eqn:E3; [|discriminate]. cbn [bind] in Ea. destruct (amax lon) as [hi|] eqn:E4; [|discriminate]. cbn [bind] in Ea. apply Ok_inj in Ea as <-.
      apply amax_most in E4 as [_ E4]. rewrite (rlt_t 180 hi) by (specialize (E4 a (Ein a Ha)); lra). rewrite andb_true_r.
      destruct (rlt mn 0) eqn:Km; [apply map_ext; intros p; now rewrite east_eq|].
      apply amin_least in E1 as [E1 E1']. unfold rlt in Km. destruct (Rlt_dec mn 0); [discriminate|].
      destruct Hs as [Hs|[(p & Hp & Lp)|Hs]]; [lra|exfalso; specialize (E1' (fst p) (in_map fst _ _ Hp)); lra|].
      apply amax_most in E2 as [E2 _]. apply in_map_iff in E2 as (p & <- & Hp). rewrite (rlt_f 180 (fst p)) by auto. cbn [andb].
      rewrite <- (map_id pts) at 1. apply map_ext_in. intros q Hq. specialize (E1' (fst q) (in_map fst _ _ Hq)). cbn [placed]. unfold eastward. destruct (Rlt_dec (fst q) 0); [lra|]. now destruct q.
    + apply (adjust_placed Western lon); auto. destruct F as [(a & Ha & La) F]. split; [exists a; auto|]. intros b Hb. specialize (High b Hb). lra.
Qed.

(** ** C69: reading the constants and interpolating them gives the same as extracting them *)
Theorem C69_read : forall src me sc fr files pts around x0 dx nx y0 dy ny,
  files <> [] ->
  (forall s, In s files -> framed fr (slon s) /\ sheet_grid around x0 dx nx y0 dy ny s /\ (me = Spline -> numbers ny nx s)) ->
  (forall q, In q pts -> -360 <= fst q <= 540) -> same_frame src fr around x0 dx nx pts ->
  exists t, read_series src files = Ok t /\ interpolate_series src me sc t pts = extract_series src me sc files pts.
Proof.
  intros src me sc fr files pts around x0 dx nx y0 dy ny Hne Hf Hp Hs.
  assert (Re : exists es, mapM (extend_sheet src) files = Ok es).
  { clear Hne. induction files as [|s files IH]; [exists []; reflexivity|]. destruct (Hf s (or_introl eq_refl)) as (_ & G & _). destruct (extend_sheet_grid src _ _ _ _ _ _ _ _ G) as (e & Ee & _).
    destruct IH as (es & E); [intros; apply Hf; now right|]. exists (e :: es). cbn [mapM]. rewrite Ee. cbn [bind]. rewrite E. reflexivity. }
  destruct Re as (es & Ees). unfold read_series. rewrite Ees. cbn [bind]. eexists. split; [reflexivity|]. unfold interpolate_series. cbn [taxes tfields].
  assert (Le : length es = length files) by apply (mapM_len _ _ _ Ees).
  (* all the extended grids have the same axes *)
  assert (Ge : forall n s e, nth_error files n = Some s -> nth_error es n = Some e -> extend_sheet src s = Ok e).
  { intros n s e H1 H2. destruct (mapM_nth _ _ _ _ _ Ees H1) as (e' & E1 & E2). congruence. }
  destruct files as [|s0 files']; [congruence|]. clear Hne.
  destruct (Hf s0 (or_introl eq_refl)) as (Fr0 & G0 & _). destruct (extend_sheet_grid src _ _ _ _ _ _ _ _ G0) as (e0 & _ & Hx0 & Hlat0 & _).
  assert (Gy0 : evenly y0 dy ny (slat s0)) by apply G0.
  assert (Ax : forall e, In e es -> slon e = slon e0 /\ slat e = slat s0).
  { intros e He. apply In_nth_error in He as (n & Hn). assert (Hn' : (n < length (s0 :: files'))%nat) by (rewrite <- Le; apply nth_error_Some; congruence).
    apply nth_error_Some in Hn'. destruct (nth_error (s0 :: files') n) as [s|] eqn:Es; [|congruence]. specialize (Ge n s e Es Hn).
    destruct (Hf s (nth_error_In _ _ Es)) as (_ & G & _). destruct (extend_sheet_grid src _ _ _ _ _ _ _ _ G) as (e' & Ee & Hx & Hlat & _). rewrite Ge in Ee. apply Ok_inj in Ee as <-.
    split; [now apply (evenly_unique _ _ _ _ _ Hx Hx0)|]. rewrite Hlat. apply (evenly_unique y0 dy ny); [apply G|auto]. }
  assert (Last : fold_left (fun (_ : option (list R * list R)) e => Some (slon e, slat e)) es None = Some (slon e0, slat s0)).
  { destruct es as [|e1 es]; [discriminate|]. cbn [fold_left]. rewrite (proj1 (Ax e1 (or_introl eq_refl))), (proj2 (Ax e1 (or_introl eq_refl))).
    assert (K : forall e, In e es -> slon e = slon e0 /\ slat e = slat s0) by (intros; apply Ax; now right). clear - K. induction es as [|e es IH]; [reflexivity|].
    cbn [fold_left]. rewrite (proj1 (K e (or_introl eq_refl))), (proj2 (K e (or_introl eq_refl))). apply IH. intros; apply K; now right. }
  rewrite Last. destruct pts as [|q0 t0] eqn:Ept; [reflexivity|]. rewrite <- Ept in *. assert (Hn : pts <> []) by (rewrite Ept; discriminate).
  rewrite (adjust_longer src fr around x0 dx nx y0 dy ny s0 (slon e0) pts G0 Fr0 Hx0 Hn Hs). cbn [bind]. unfold extract_series.
  replace (amin (map fst pts)) with (Ok (rmin_list (fst q0) (map fst t0))) by (rewrite Ept; reflexivity). cbn [bind].
  rewrite (extract_files_mapM src me sc fr) by (auto; intros s Hs'; destruct (Hf s Hs') as (F & G & _); split; auto; exists dx; apply (evenly_spacing x0 dx nx); apply G).
  (* pointwise *)
  assert (Pw : forall s e q, In s (s0 :: files') -> extend_sheet src s = Ok e -> sheet_constant src me sc e q = tide_constant src me sc (slon e0) (slat s0) (shc e) q).
  { intros s e q Hin Ee. destruct (Hf s Hin) as (_ & G & Hnum). destruct (extend_sheet_grid src _ _ _ _ _ _ _ _ G) as (e' & Ee' & Hx & Hlat & Rh & Nh). rewrite Ee in Ee'. apply Ok_inj in Ee' as <-.
    destruct G as (Gx & Gy & Nx & Ny & _). assert (E1 : slon e = slon e0) by apply (evenly_unique _ _ _ _ _ Hx Hx0). assert (E2 : slat e = slat s0) by (rewrite Hlat; apply (evenly_unique _ _ _ _ _ Gy Gy0)).
    unfold sheet_constant, tide_constant. rewrite <- E1, <- E2. destruct (outside_sheet src (slon e) (slat e) q) as [b|]; [|reflexivity]. cbn [bind]. destruct me.
    - apply bilinear_same.
    - rewrite <- Hlat in Gy. destruct (st_axes (bef around) (aft src around) nx ny x0 dx y0 dy (slon e) (slat e) Hx Gy Nx Ny) as [A1 A2].
      destruct (st_lengths (bef around) (aft src around) nx ny x0 dx y0 dy (slon e) (slat e) Hx Gy) as [L1 L2]. apply spline_same; auto; [now rewrite L1, L2|]. rewrite L1, L2.
      intros j i Hj Hi. replace i with (ec (bef around) (Z.of_nat i - Z.of_nat (bef around))) by (unfold ec; lia). rewrite Nh by (auto; unfold within; lia).
      apply (Hnum eq_refl); auto. now apply column_lt. }
  clear Last Ax Le Ge. revert es Ees Pw. clear Hf Fr0 G0. generalize (s0 :: files') as fl. intros fl. induction fl as [|s fl IH]; intros es Ees Pw.
  - cbn in Ees. apply Ok_inj in Ees as <-. reflexivity.
  - cbn [mapM] in Ees. destruct (extend_sheet src s) as [e|] eqn:Ee; [|discriminate]. cbn [bind] in Ees. destruct (mapM (extend_sheet src) fl) as [es'|] eqn:E'; [|discriminate]. cbn [bind] in Ees. apply Ok_inj in Ees as <-.
    cbn [map mapM]. rewrite Ee. cbn [bind]. rewrite (IH es' eq_refl) by (intros s' e' q' Hin He'; apply (Pw s'); auto; now right).
    rewrite (mapM_ext_in (tide_constant src me sc (slon e0) (slat s0) (shc e)) (sheet_constant src me sc e)); [reflexivity|]. intros q _. symmetry. apply (Pw s); auto. now left.
Qed.
Print Assumptions C69_read.

(** ** C69 refuted: with a global model from 0 to 360 nothing is found for points of the
    western hemisphere given as 180 to 360, since the longer grid starts west of Greenwich
    (where extraction finds their constants, see C69_cell) *)
Lemma adjust_westward lon pts : (forall q, In q pts -> 0 <= fst q) -> (exists q, In q pts /\ 180 < fst q) -> (exists a, In a lon /\ a < 0) ->
  adjust lon pts = Ok (map (fun p => (westward (fst p), snd p)) pts).
Proof.
  intros H1 (q & Hq & Lq) (a & Ha & La). destruct (adjust_ok lon pts) as (pts' & E); [now intros ->|now intros ->|]. rewrite E. f_equal.
  unfold adjust in E. destruct (amin (map fst pts)) as [mn|] eqn:E1; [|discriminate]. cbn [bind] in E. destruct (amax (map fst pts)) as [mx|] eqn:E2; [|discriminate]. cbn [bind] in E.
  destruct (amin lon) as [lo|] eqn:E3; [|discriminate]. cbn [bind] in E. destruct (amax lon) as [hi|] eqn:E4; [|discriminate]. cbn [bind] in E. apply Ok_inj in E as <-.
  apply amin_least in E1 as [E1 _]. apply in_map_iff in E1 as (p & <- & Hp). apply amax_most in E2 as [_ E2]. specialize (E2 _ (in_map fst _ _ Hq)). apply amin_least in E3 as [_ E3]. specialize (E3 _ Ha).
  rewrite (rlt_f (fst p) 0) by (specialize (H1 p Hp); lra). rewrite (rlt_t 180 mx), (rlt_t lo 0) by lra. cbn [andb]. apply map_ext. intros r. now rewrite west_eq.
Qed.
Theorem C69_read_refuted : forall src me sc files pts t out s n p x0 dx nx y0 dy ny,
  (forall s, In s files -> sheet_grid true x0 dx nx y0 dy ny s) -> In s files ->
  x0 - dx < 0 -> (forall q, In q pts -> 0 <= fst q) ->
  src = FES \/ me = Bilinear ->
  read_series src files = Ok t -> interpolate_series src me sc t pts = Ok out ->
  nth_error pts n = Some p -> 180 < fst p < 360 + (x0 - dx) ->
  forall cs, In cs out -> nth_error cs n = Some None.
Proof.
  intros src me sc files pts t out s n p x0 dx nx y0 dy ny Hf Hin Hw Hp Hm Hr Hi Hn Hx' cs Hcs.
  unfold read_series in Hr. destruct (mapM (extend_sheet src) files) as [es|] eqn:Ees; [|discriminate]. cbn [bind] in Hr. apply Ok_inj in Hr as <-.
  unfold interpolate_series in Hi. cbn [taxes tfields] in Hi.
  assert (Ge : forall e, In e es -> evenly (x0 - INR (bef true) * dx) dx (bef true + nx + aft src true) (slon e) /\ evenly y0 dy ny (slat e)).
  { intros e He. apply In_nth_error in He as (k & Hk). assert (Hk' : (k < length files)%nat) by (rewrite <- (mapM_len _ _ _ Ees); apply nth_error_Some; congruence).
    apply nth_error_Some in Hk'. destruct (nth_error files k) as [s'|] eqn:Es; [|congruence]. destruct (mapM_nth _ _ _ _ _ Ees Es) as (e' & E1 & E2). assert (e' = e) by congruence. subst e'.
    pose proof (Hf s' (nth_error_In _ _ Es)) as G. destruct (extend_sheet_grid src _ _ _ _ _ _ _ _ G) as (e' & Ee & Hx & Hlat & _). rewrite Ee in E1. apply Ok_inj in E1 as <-. rewrite Hlat. split; auto. apply G. }
  destruct (fold_left (fun (_ : option (list R * list R)) e => Some (slon e, slat e)) es None) as [[lon lat]|] eqn:El; [|discriminate].
  assert (He : exists e, In e es /\ slon e = lon /\ slat e = lat).
  { destruct (@exists_last _ es) as (es' & e & ->); [intros ->; discriminate|]. rewrite fold_left_app in El. cbn [fold_left] in El. exists e. split; [apply in_or_app; right; now left|]. injection El as <- <-. auto. }
  destruct He as (e & He & <- & <-). destruct (Ge e He) as [Hx Hy]. destruct (Hf s Hin) as (Gx & _ & Nx & Ny & _).
  destruct (st_axes (bef true) (aft src true) nx ny x0 dx y0 dy (slon e) (slat e) Hx Hy Nx Ny) as [A1 A2].
  destruct (first_last_lon src true x0 dx nx (slon e) Nx Hx) as [F1 F2].
  assert (F1' : nth 0 (slon e) 0 = x0 - dx) by (rewrite F1; unfold node_x, first_of; cbn; ring). assert (L : (0 < length (slon e))%nat) by (destruct Hx as (_ & -> & _); lia).
  rewrite (adjust_westward (slon e) pts) in Hi; auto.
  2:{ exists p. split; [now apply nth_error_In in Hn|lra]. }
  2:{ exists (nth 0 (slon e) 0). split; [now apply nth_In|lra]. }
  cbn [bind] in Hi. apply In_nth_error in Hcs as (k & Hk).
  assert (Hk' : (k < length (map shc es))%nat) by (rewrite <- (mapM_len _ _ _ Hi); apply nth_error_Some; congruence). apply nth_error_Some in Hk'.
  destruct (nth_error (map shc es) k) as [f|] eqn:Ef; [|congruence]. destruct (mapM_nth _ _ _ _ _ Hi Ef) as (cs' & E1 & E2). assert (cs' = cs) by congruence. subst cs'.
  assert (Hn' : nth_error (map (fun p : R * R => (westward (fst p), snd p)) pts) n = Some (westward (fst p), snd p)) by (rewrite nth_error_map, Hn; reflexivity).
  destruct (mapM_nth _ _ _ _ _ E1 Hn') as (r & E3 & ->). f_equal.
  assert (Ew : westward (fst p) = fst p - 360) by (unfold westward; destruct (Rlt_dec 180 (fst p)); lra). rewrite Ew in E3.
  assert (Out : fst p - 360 < nth 0 (slon e) 0) by (rewrite F1'; lra).
  unfold tide_constant in E3. destruct Hm as [-> | ->].
  - unfold outside_sheet, outside_axes in E3. cbn [fst snd] in E3. rewrite (axis_min _ A1), (axis_max _ A1), (axis_min _ A2), (axis_max _ A2) in E3. cbn [bind] in E3. rewrite (rlt_t _ _ Out) in E3. cbn [orb] in E3.
    match type of E3 with bind ?m _ = _ => destruct m as [h|]; [|discriminate] end. cbn [bind] in E3. apply Ok_inj in E3 as <-. unfold settled. now rewrite orb_true_r.
  - destruct (outside_sheet src (slon e) (slat e) _) as [b|]; [|discriminate]. cbn [bind] in E3.
    assert (Eb : cbilinear (slon e) (slat e) (map (map (filled Bilinear)) f) (fst p - 360, snd p) = Ok (None, true)) by (unfold cbilinear; apply gpoint_outside; auto).
    match type of E3 with bind ?m _ = _ => replace m with (@Ok (gcell cpx) (None, true)) in E3 by (symmetry; exact Eb) end. cbn [bind] in E3. apply Ok_inj in E3 as <-. unfold settled. reflexivity.
Qed.
Print Assumptions C69_read_refuted.
