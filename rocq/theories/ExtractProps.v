(** C68: constants extracted from OTIS grids. *)
From Coq Require Import Reals List Bool Arith ZArith Lra Lia.
From Verif Require Import PyBase RBase MathModel GeoModel ConvertProps GridModel InterpModel InterpProps ExtractModel ExtractSpec NodeProps ExtractProofs.
Import ListNotations.
Open Scope R_scope.

(** ** Amplitude and phase *)
Lemma phase_of_spec z : amplitude_phase z (cabs z) (phase_of z).
Proof.
  destruct z as [a b]. unfold phase_of, amplitude_phase, cabs, cre, cim. cbn [fst snd].
  pose proof (atan2_range (- b) a) as Hr. pose proof PI_RGT_0 as Hp. set (t := atan2 (- b) a) in *.
  pose proof (atan2_cos (- b) a) as C. pose proof (atan2_sin (- b) a) as Sn. fold t in C, Sn. replace (- b * - b) with (b * b) in * by ring.
  split; [apply sqrt_pos|]. set (p := t * 180 / PI).
  assert (Ep : p * PI / 180 = t) by (unfold p; field; lra).
  assert (-180 < p <= 180).
  { split; apply Rmult_lt_reg_r with (PI / 180) || apply Rmult_le_reg_r with (PI / 180); try lra; unfold Rdiv in *; rewrite <- ?Rmult_assoc, Ep; lra. }
  destruct (rlt p 0) eqn:E; unfold rlt in E; destruct (Rlt_dec p 0); try discriminate.
  - replace ((p + 360) * PI / 180) with (t + 2 * IZR 1 * PI) by (rewrite <- Ep; field). rewrite cos_turns, sin_turns. repeat split; lra.
  - rewrite Ep. repeat split; lra.
Qed.

(** ** Weighted means *)
Definition value_of {V} (c : gcell V) : option V := if gusable c then fst c else None.
Lemma gusable_value {V} (c : gcell V) v : value_of c = Some v -> gusable c = true /\ fst c = Some v.
Proof. unfold value_of. destruct (gusable c); [auto|discriminate]. Qed.
Lemma gusable_none {V} (c : gcell V) : value_of c = None -> gusable c = false.
Proof. unfold value_of, gusable. destruct c as [[v|] []]; cbn; auto; discriminate. Qed.

Section Means.
  Context {V : Type} (vzero : V) (vadd : V -> V -> V) (vscale : R -> V -> V).
  Definition pairs (l : list (gcell V * R)) : list (R * option V) := map (fun p => (snd p, value_of (fst p))) l.
  Lemma filter_weight l : fold_right Rplus 0 (map snd (filter (fun p : gcell V * R => gusable (fst p)) l)) = weight (pairs l).
  Proof.
    unfold weight, pairs. induction l as [|[c w] l IH]; cbn; auto. destruct (value_of c) eqn:E.
    - apply gusable_value in E as [-> _]. cbn. now rewrite IH.
    - apply gusable_none in E as ->. rewrite IH. cbn. ring.
  Qed.
  Lemma filter_sum (f : V -> R) l : f vzero = 0 -> (forall a b, f (vadd a b) = f a + f b) -> (forall k a, f (vscale k a) = k * f a) ->
    f (fold_right vadd vzero (map (fun p : gcell V * R => vscale (snd p) (gnumber vzero (fst p))) (filter (fun p => gusable (fst p)) l))) = total (part f (pairs l)).
  Proof.
    intros F0 F1 F2. unfold total, part, pairs. induction l as [|[c w] l IH]; cbn; auto. destruct (value_of c) eqn:E.
    - apply gusable_value in E as [-> E]. cbn [map fold_right snd fst]. rewrite F1, F2, IH. unfold gnumber. rewrite E. cbn. reflexivity.
    - apply gusable_none in E as ->. rewrite IH. cbn. ring.
  Qed.
  Lemma weight_part (f : V -> R) l : weight (part f l) = weight l.
  Proof. unfold weight, part. induction l as [|[w [v|]] l IH]; cbn in *; auto; now rewrite IH. Qed.
  Lemma none_weight l : existsb (fun p : gcell V * R => gusable (fst p)) l = false -> weight (pairs l) = 0.
  Proof.
    unfold weight, pairs. induction l as [|[c w] l IH]; cbn; auto. intros H. apply orb_false_iff in H as [H1 H2].
    replace (value_of c) with (@None V) by (unfold value_of; now rewrite H1). rewrite IH by auto. ring.
  Qed.
  Lemma gweighted_mean (f : V -> R) l : f vzero = 0 -> (forall a b, f (vadd a b) = f a + f b) -> (forall k a, f (vscale k a) = k * f a) ->
    option_map f (gweighted vzero vadd vscale l) = mean (part f (pairs l)).
  Proof.
    intros F0 F1 F2. unfold gweighted, mean. rewrite filter_weight, weight_part. unfold req. destruct (Req_EM_T (weight (pairs l)) 0); auto.
    cbn [option_map]. rewrite F2, filter_sum by auto. f_equal. unfold Rdiv. ring.
  Qed.
End Means.

(** what the bilinear interpolation gives at a point that is not at a node *)
Lemma bilinear_off {V} (vzero : V) vadd vscale ilon ilat g lon lat i j :
  axis ilon -> axis ilat -> rect (length ilat) (length ilon) g -> in_cell ilon ilat i j lon lat -> ~ near_corner ilon ilat i j lon lat ->
  exists m, gbilinear_point vzero vadd vscale ilon ilat g (lon, lat) =
    Ok (gweighted vzero vadd vscale
          [(entry (None, true) g j i, (nth (S i) ilon 0 - lon) * (nth (S j) ilat 0 - lat));
           (entry (None, true) g j (S i), (lon - nth i ilon 0) * (nth (S j) ilat 0 - lat));
           (entry (None, true) g (S j) i, (nth (S i) ilon 0 - lon) * (lat - nth j ilat 0));
           (entry (None, true) g (S j) (S i), (lon - nth i ilon 0) * (lat - nth j ilat 0))], m) /\
    (m = true -> gweighted vzero vadd vscale
          [(entry (None, true) g j i, (nth (S i) ilon 0 - lon) * (nth (S j) ilat 0 - lat));
           (entry (None, true) g j (S i), (lon - nth i ilon 0) * (nth (S j) ilat 0 - lat));
           (entry (None, true) g (S j) i, (nth (S i) ilon 0 - lon) * (lat - nth j ilat 0));
           (entry (None, true) g (S j) (S i), (lon - nth i ilon 0) * (lat - nth j ilat 0))] = None).
Proof.
  intros A1 A2 G C N. rewrite (gpoint_eq vzero vadd vscale ilon ilat g lon lat i j A1 A2 G C). cbv zeta.
  destruct (not_near _ _ _ _ _ _ N) as (-> & -> & -> & ->).
  match goal with |- context [existsb ?f ?l] => destruct (existsb f l) eqn:E; set (cs := l) in * end.
  - exists false. split; [reflexivity|discriminate].
  - exists true. assert (W : gweighted vzero vadd vscale cs = None).
    { unfold gweighted. rewrite filter_weight, none_weight by auto. now rewrite req_t. }
    rewrite W. auto.
Qed.

(** ** The grid of a model *)
Definition model_grid (geo around : bool) (x0 dx : R) (nx : nat) (y0 dy : R) (ny : nat) (g : grid) (hcs : list field) : Prop :=
  evenly x0 dx nx (gx g) /\ evenly y0 dy ny (gy g) /\ (2 <= nx)%nat /\ (2 <= ny)%nat /\
  rect ny nx (ghz g) /\ rect ny nx (gmz g) /\ (forall hc, In hc hcs -> rect ny nx hc) /\
  (around = true /\ geo = true /\ INR nx * dx = 360 \/
   around = false /\ (geo = false \/ ~ ExtractSpec.close (INR (nx - 1) * dx) (360 - dx))).
(** points between the first and last columns *)
Definition in_span (x0 dx : R) (nx : nat) (q : R * R) : Prop := x0 <= fst q <= x0 + INR (nx - 1) * dx.
Definition in_rows (y0 dy : R) (ny : nat) (q : R * R) : Prop := y0 <= snd q <= y0 + INR (ny - 1) * dy.

Lemma mapM_nth {A B} (f : A -> res B) l l' n a : mapM f l = Ok l' -> nth_error l n = Some a -> exists b, f a = Ok b /\ nth_error l' n = Some b.
Proof.
  revert l' n. induction l as [|x l IH]; intros l' n H Hn; [destruct n; discriminate|]. cbn in H.
  destruct (f x) as [y|] eqn:E; [|discriminate]. cbn in H. destruct (mapM f l) as [r|] eqn:E2; [|discriminate]. cbn in H. apply Ok_inj in H as <-.
  destruct n as [|n]; cbn in *; [injection Hn as <-; eauto|]. eapply IH; eauto.
Qed.
Lemma mapM_len {A B} (f : A -> res B) l l' : mapM f l = Ok l' -> length l' = length l.
Proof.
  revert l'. induction l as [|x l IH]; intros l' H; cbn in H; [now apply Ok_inj in H as <-|].
  destruct (f x); [|discriminate]. cbn in H. destruct (mapM f l) as [r|]; [|discriminate]. cbn in H. apply Ok_inj in H as <-. cbn. f_equal. auto.
Qed.
Lemma nth_error_combine {A B} (a : list A) (b : list B) n x y : nth_error a n = Some x -> nth_error b n = Some y -> nth_error (combine a b) n = Some (x, y).
Proof.
  revert b n. induction a as [|u a IH]; intros [|v b] [|n] H1 H2; cbn in *; try discriminate; [congruence|auto].
Qed.
Lemma wrap_none lo hi pts : pts <> [] -> (forall q, In q pts -> lo <= fst q <= hi) -> wrap_points lo hi pts = Ok pts.
Proof.
  intros Hn H. unfold wrap_points. destruct pts as [|a t]; [congruence|].
  assert (Hmin : exists mn, amin (map fst (a :: t)) = Ok mn /\ lo <= mn).
  { eexists. split; [reflexivity|]. apply rmin_list_ge; [apply H; now left|]. intros x Hx. apply in_map_iff in Hx as (q & <- & Hq). apply H. now right. }
  assert (Hmax : exists mx, amax (map fst (a :: t)) = Ok mx /\ mx <= hi).
  { eexists. split; [reflexivity|]. apply rmax_list_le; [apply H; now left|]. intros x Hx. apply in_map_iff in Hx as (q & <- & Hq). apply H. now right. }
  destruct Hmin as (mn & E1 & L1). destruct Hmax as (mx & E2 & L2). rewrite E1. cbn [bind]. rewrite (rlt_f mn lo) by lra. rewrite E2. cbn [bind].
  now rewrite (rlt_f hi mx) by lra.
Qed.
Lemma batch_none geo lo hi pts : pts <> [] -> (geo = true -> forall q, In q pts -> lo <= fst q <= hi) -> batch geo lo hi pts = Ok pts.
Proof. intros Hn H. unfold batch. destruct geo; [apply wrap_none; auto|]. destruct pts; congruence. Qed.

Lemma remask_entries b ny nx hc : rect ny nx b -> rect ny nx hc -> exists f, remask b hc = Ok f /\ rect ny nx f /\
  forall j i, (j < ny)%nat -> (i < nx)%nat ->
    entry (None, true) f j i = (fst (entry (None, true) hc j i), snd (entry (None, true) hc j i) || snd (entry (None, true) b j i)).
Proof.
  intros Hb Hh. unfold remask. rewrite (same_shape_t ny nx) by auto. eexists. split; [reflexivity|]. split; [now apply zip22_rect|].
  intros j i Hj Hi. now rewrite (zip22_entry _ ny nx hc b (None, true) (None, true)) by auto.
Qed.

(** the test for global axes *)
Lemma close_isclose a b : ExtractSpec.close a b <-> isclose a b = true.
Proof. unfold ExtractSpec.close, isclose, rle. destruct (Rle_dec _ _); split; auto; discriminate. Qed.
Lemma around_test geo around x0 dx nx y0 dy ny g hcs : model_grid geo around x0 dx nx y0 dy ny g hcs ->
  geo && isclose (last (gx g) 0 - hd 0 (gx g)) (360 - dx) = around.
Proof.
  intros (Ex & _ & Hx & _ & _ & _ & _ & H). rewrite (evenly_span x0 dx nx) by auto. destruct H as [(-> & -> & E) | (-> & [-> | H])]; auto.
  - cbn [andb]. apply close_isclose. rewrite minus_INR by lia. cbn [INR]. replace ((INR nx - 1) * dx) with (360 - dx) by lra.
    unfold ExtractSpec.close. replace (360 - dx - (360 - dx)) with 0 by ring. rewrite Rabs_R0. pose proof (Rabs_pos (360 - dx)). lra.
  - destruct geo; auto. cbn [andb]. apply not_true_is_false. rewrite <- close_isclose. auto.
Qed.
Lemma around_axis geo around x0 dx nx y0 dy ny g hcs : model_grid geo around x0 dx nx y0 dy ny g hcs ->
  exists xe, (if around then extend_axis (gx g) dx else Ok (gx g)) = Ok xe /\ evenly (if around then x0 - dx else x0) dx (ncols around nx) xe.
Proof.
  intros (Ex & _ & Hx & _). destruct around; cbn [ncols]; [now apply extend_axis_evenly|eauto].
Qed.
Lemma fields_entries around ny nx b hcs fs : rect ny (ncols around nx) b -> (2 <= nx)%nat -> (forall hc, In hc hcs -> rect ny nx hc) ->
  mapM (fun hc => do e <- extend_if around hc ;; remask b e) hcs = Ok fs ->
  forall c hc, nth_error hcs c = Some hc -> exists f, nth_error fs c = Some f /\ rect ny (ncols around nx) f /\
    forall j e, (j < ny)%nat -> (e < ncols around nx)%nat ->
      entry (None, true) f j e = (fst (entry (None, true) hc j (col around nx e)), snd (entry (None, true) hc j (col around nx e)) || snd (entry (None, true) b j e)).
Proof.
  intros Hb Hx Hh H c hc Hc. destruct (mapM_nth _ _ _ _ _ H Hc) as (f & E & Hf). exists f. split; auto.
  assert (Hr : rect ny nx hc) by (apply Hh; eapply nth_error_In; eauto).
  destruct (@extend_if_entries (gcell (R * R)) (None, true) around ny nx hc Hr ltac:(lia)) as (h' & E' & R' & N'). rewrite E' in E. cbn [bind] in E.
  destruct (remask_entries b ny (ncols around nx) h' Hb R') as (f' & Ef & Rf & Nf). rewrite Ef in E. apply Ok_inj in E as ->. split; auto.
  intros j e Hj He. now rewrite Nf, N' by auto.
Qed.

(** everything extraction computes for a point *)
Lemma extract_inv0 fwd geo around me t k x0 dx nx y0 dy ny g hcs lonlat out :
  model_grid geo around x0 dx nx y0 dy ny g hcs -> kind_of t = Some k ->
  extract_constants fwd geo me t g hcs lonlat = Ok out ->
  exists xe xi yi b fs pts,
    evenly (if around then x0 - dx else x0) dx (ncols around nx) xe /\
    evenly (node_x k (if around then x0 - dx else x0) dx 0) dx (ncols around nx) xi /\
    evenly (node_y k y0 dy 0) dy ny yi /\ rect ny (ncols around nx) b /\
    (forall j e, (j < ny)%nat -> (e < ncols around nx)%nat -> sound_column k around (col around nx e) ->
      depth_entry (water (entry 0 (ghz g)) (entry 0%Z (gmz g)) around nx k j (col around nx e)) (entry (None, true) b j e)) /\
    mapM (fun hc => do e <- extend_if around hc ;; remask b e) hcs = Ok fs /\
    (if around then extend_axis (gx g) dx else Ok (gx g)) = Ok xe /\
    layer around dx dy xe (gy g) g t = Ok (xi, yi, b) /\
    batch geo x0 (x0 + INR (nx - 1) * dx) (map fwd lonlat) = Ok pts /\ length out = length pts /\
    forall n q, nth_error pts n = Some q ->
      exists D inv cs, nth_error out n = Some (D, cs) /\ extract_depth me xi yi b q = Ok D /\
        outside_axes xe (gy g) q = Ok inv /\ mapM (constant me xi yi t D inv q) fs = Ok cs.
Proof.
  intros M Hk H. pose proof (around_test _ _ _ _ _ _ _ _ _ _ M) as Ha. destruct (around_axis _ _ _ _ _ _ _ _ _ _ M) as (xe & Exe & Hxe).
  destruct M as (Ex & Ey & Hx & Hy & Rh & Rm & Rc & _).
  unfold extract_constants in H. rewrite (evenly_spacing x0 dx nx), (evenly_spacing y0 dy ny) in H by auto. cbn [bind] in H.
  destruct (evenly_ends x0 dx nx (gx g) Ex Hx) as [-> ->] in H. cbn [bind] in H.
  destruct (batch geo x0 (x0 + INR (nx - 1) * dx) (map fwd lonlat)) as [pts|] eqn:Eb in H; [|discriminate]. cbn [bind] in H.
  rewrite Ha in H. rewrite Exe in H. cbn [bind] in H.
  destruct (mapM (outside_axes xe (gy g)) pts) as [invs|] eqn:Ei in H; [|discriminate]. cbn [bind] in H.
  destruct (layer_entries around dx dy x0 y0 xe (gy g) g t k ny nx Hk Rh Rm Hy Hx Hxe Ey) as (xi & yi & b & El & Hxi & Hyi & Rb & Nb).
  rewrite El in H. cbn [bind] in H.
  destruct (mapM (extract_depth me xi yi b) pts) as [ds|] eqn:Ed in H; [|discriminate]. cbn [bind] in H.
  destruct (mapM (fun hc => do e <- extend_if around hc ;; remask b e) hcs) as [fs|] eqn:Ef in H; [|discriminate]. cbn [bind] in H.
  exists xe, xi, yi, b, fs, pts. repeat (split; [assumption|]).
  pose proof (mapM_len _ _ _ Ei) as L1. pose proof (mapM_len _ _ _ Ed) as L2. pose proof (mapM_len _ _ _ H) as L3.
  split; [rewrite L3, !combine_length; lia|].
  intros n q Hq.
  destruct (mapM_nth _ _ _ _ _ Ei Hq) as (inv & I1 & I2). destruct (mapM_nth _ _ _ _ _ Ed Hq) as (D & D1 & D2).
  destruct (mapM_nth _ _ _ n (q, (inv, D)) H) as (r & R1 & R2); [now repeat apply nth_error_combine|].
  cbn beta iota in R1. destruct (mapM (constant me xi yi t D inv q) fs) as [cs|] eqn:Ec in R1; [|discriminate]. cbn [bind] in R1. apply Ok_inj in R1 as <-.
  exists D, inv, cs. auto.
Qed.
Lemma batch_inside geo x0 dx nx (fwd : R * R -> R * R) lonlat pts : batch geo x0 (x0 + INR (nx - 1) * dx) (map fwd lonlat) = Ok pts ->
  (geo = true -> forall p, In p lonlat -> in_span x0 dx nx (fwd p)) -> pts = map fwd lonlat.
Proof.
  intros Eb Hp. destruct lonlat as [|p0 lonlat]; [unfold batch in Eb; destruct geo; discriminate|].
  rewrite batch_none in Eb; [now apply Ok_inj in Eb|discriminate|]. intros Hg q Hq. apply in_map_iff in Hq as (p & <- & Hin). now apply Hp.
Qed.
Lemma amin_least l m : amin l = Ok m -> In m l /\ forall a, In a l -> m <= a.
Proof.
  destruct l as [|a l]; [discriminate|]. cbn [amin]. intros H. apply Ok_inj in H as <-. split.
  - unfold rmin_list. induction l as [|b l IH]; cbn [fold_right]; [now left|]. unfold Rmin. destruct (Rle_dec b _); [now (right; left)|].
    destruct IH as [IH|IH]; [now left|now (right; right)].
  - intros b [<-|Hb]; [apply rmin_list_le|now apply rmin_list_in].
Qed.
Lemma amax_most l m : amax l = Ok m -> In m l /\ forall a, In a l -> a <= m.
Proof.
  destruct l as [|a l]; [discriminate|]. cbn [amax]. intros H. apply Ok_inj in H as <-. split.
  - unfold rmax_list. induction l as [|b l IH]; cbn [fold_right]; [now left|]. unfold Rmax. destruct (Rle_dec b _); [|now (right; left)].
    destruct IH as [IH|IH]; [now left|now (right; right)].
  - intros b [<-|Hb]; [apply rmax_list_ge|now apply rmax_list_in].
Qed.
Lemma amin_lt l m lo : amin l = Ok m -> (exists a, In a l /\ a < lo) -> rlt m lo = true.
Proof. intros H (a & Ha & L). apply amin_least in H as [_ H]. apply rlt_t. specialize (H a Ha). lra. Qed.
Lemma amin_ge l m lo : amin l = Ok m -> (forall a, In a l -> lo <= a) -> rlt m lo = false.
Proof. intros H L. apply amin_least in H as [H _]. apply rlt_f. auto. Qed.
Lemma amax_gt l m hi : amax l = Ok m -> (exists a, In a l /\ hi < a) -> rlt hi m = true.
Proof. intros H (a & Ha & L). apply amax_most in H as [_ H]. apply rlt_t. specialize (H a Ha). lra. Qed.
Lemma amax_le l m hi : amax l = Ok m -> (forall a, In a l -> a <= hi) -> rlt hi m = false.
Proof. intros H L. apply amax_most in H as [H _]. apply rlt_f. auto. Qed.
Lemma east_eq x : (if rlt x 0 then x + 360 else x) = eastward x.
Proof. unfold eastward, rlt. now destruct (Rlt_dec x 0). Qed.
Lemma west_eq x : (if rlt 180 x then x - 360 else x) = westward x.
Proof. unfold westward, rlt. now destruct (Rlt_dec 180 x). Qed.
Lemma batch_nth geo lo hi pts pts' n q x : batch geo lo hi pts = Ok pts' -> nth_error pts n = Some q -> convention geo lo hi (map fst pts) (fst q) x ->
  nth_error pts' n = Some (x, snd q).
Proof.
  intros H Hn C. unfold batch in H. destruct geo.
  2:{ destruct C; try discriminate. destruct pts; [discriminate|]. apply Ok_inj in H as <-. rewrite Hn. now destruct q. }
  assert (We : map (fun p : R * R => (if rlt (fst p) 0 then fst p + 360 else fst p, snd p)) pts = map (fun p => (eastward (fst p), snd p)) pts)
    by (apply map_ext; intros p; now rewrite east_eq).
  assert (Ww : forall l, map (fun p : R * R => (if rlt 180 (fst p) then fst p - 360 else fst p, snd p)) l = map (fun p => (westward (fst p), snd p)) l)
    by (intros l; apply map_ext; intros p; now rewrite west_eq).
  unfold wrap_points in H. destruct (amin (map fst pts)) as [mn|] eqn:E1; [|discriminate]. cbn [bind] in H. rewrite We in H.
  assert (Me : map fst (map (fun p : R * R => (eastward (fst p), snd p)) pts) = map eastward (map fst pts)) by (rewrite !map_map; reflexivity).
  inversion C as [D|_ D|_ D1 D2|_ D1 D2|_ D1 D2]; [discriminate| | | |]; clear C.
  - rewrite (amin_ge _ _ _ E1) in H by (intros; now apply D). destruct (amax (map fst pts)) as [mx|] eqn:E2; [|discriminate]. cbn [bind] in H.
    rewrite (amax_le _ _ _ E2) in H by (intros; now apply D). apply Ok_inj in H as <-. rewrite Hn. now destruct q.
  - rewrite (amin_lt _ _ _ E1 D1) in H. rewrite Me in H. destruct (amax _) as [mx|] eqn:E2; [|discriminate]. cbn [bind] in H.
    rewrite (amax_le _ _ _ E2) in H by (intros a Ha; apply in_map_iff in Ha as (b & <- & Hb); now apply D2). apply Ok_inj in H as <-.
    now apply (map_nth_error (fun p => (eastward (fst p), snd p))) in Hn.
  - rewrite (amin_ge _ _ _ E1 D1) in H. destruct (amax (map fst pts)) as [mx|] eqn:E2; [|discriminate]. cbn [bind] in H.
    rewrite (amax_gt _ _ _ E2 D2), Ww in H. apply Ok_inj in H as <-. now apply (map_nth_error (fun p => (westward (fst p), snd p))) in Hn.
  - rewrite (amin_lt _ _ _ E1 D1) in H. rewrite Me in H. destruct (amax _) as [mx|] eqn:E2; [|discriminate]. cbn [bind] in H.
    rewrite (amax_gt _ _ _ E2) in H by (destruct D2 as (a & Ha & La); exists (eastward a); split; auto; now apply in_map). rewrite Ww in H. apply Ok_inj in H as <-.
    apply (map_nth_error (fun p => (eastward (fst p), snd p))) in Hn. now apply (map_nth_error (fun p => (westward (fst p), snd p))) in Hn.
Qed.
Lemma batch_len geo lo hi pts pts' : batch geo lo hi pts = Ok pts' -> length pts' = length pts.
Proof.
  unfold batch, wrap_points. destruct geo; [|destruct pts; [discriminate|]; intros H; now apply Ok_inj in H as <-].
  destruct (amin _); [|discriminate]. cbn [bind]. destruct (amax _); [|discriminate]. cbn [bind]. intros H. apply Ok_inj in H as <-.
  destruct (rlt _ _), (rlt _ _); rewrite ?map_length; reflexivity.
Qed.
(** the longitudes of the points are those of the model for each of them *)
Notation placed fwd geo x0 dx nx lonlat p x := (convention geo x0 (x0 + INR (nx - 1) * dx) (map (fun p => fst (fwd p)) lonlat) (fst (fwd p)) x) (only parsing).
Lemma extract_inv fwd geo around me t k x0 dx nx y0 dy ny g hcs lonlat out :
  model_grid geo around x0 dx nx y0 dy ny g hcs -> kind_of t = Some k ->
  extract_constants fwd geo me t g hcs lonlat = Ok out ->
  exists xe xi yi b fs,
    evenly (if around then x0 - dx else x0) dx (ncols around nx) xe /\
    evenly (node_x k (if around then x0 - dx else x0) dx 0) dx (ncols around nx) xi /\
    evenly (node_y k y0 dy 0) dy ny yi /\ rect ny (ncols around nx) b /\
    (forall j e, (j < ny)%nat -> (e < ncols around nx)%nat -> sound_column k around (col around nx e) ->
      depth_entry (water (entry 0 (ghz g)) (entry 0%Z (gmz g)) around nx k j (col around nx e)) (entry (None, true) b j e)) /\
    mapM (fun hc => do e <- extend_if around hc ;; remask b e) hcs = Ok fs /\
    length out = length lonlat /\
    forall n p x, nth_error lonlat n = Some p -> placed fwd geo x0 dx nx lonlat p x ->
      exists D inv cs, nth_error out n = Some (D, cs) /\ extract_depth me xi yi b (x, snd (fwd p)) = Ok D /\
        outside_axes xe (gy g) (x, snd (fwd p)) = Ok inv /\ mapM (constant me xi yi t D inv (x, snd (fwd p))) fs = Ok cs.
Proof.
  intros M Hk H.
  destruct (extract_inv0 _ _ _ _ _ _ _ _ _ _ _ _ _ _ _ _ M Hk H) as (xe & xi & yi & b & fs & pts & Hxe & Hxi & Hyi & Rb & Nb & Ef & _ & _ & Eb & L & V).
  pose proof (batch_len _ _ _ _ _ Eb) as L'. rewrite map_length in L'. exists xe, xi, yi, b, fs. repeat (split; [assumption|]). split; [congruence|].
  intros n p x Hn C. apply V. apply (batch_nth _ _ _ _ _ n (fwd p) x Eb); [now apply map_nth_error|]. now rewrite map_map.
Qed.

(** columns of the extended arrays *)
Definition ecol (around : bool) (i : Z) : nat := Z.to_nat (if around then i + 1 else i).
Lemma ecol_lt around nx i : (2 <= nx)%nat -> columns around nx i -> (ecol around i < ncols around nx)%nat.
Proof. unfold columns, ecol, ncols. destruct around; lia. Qed.
Lemma ecol_col around nx i : (2 <= nx)%nat -> columns around nx i -> col around nx (ecol around i) = column nx i.
Proof.
  unfold columns, ecol, col, column. intros Hx Hi. destruct around.
  - destruct (Z.eq_dec i (-1)) as [->|N].
    + change (Z.to_nat (-1 + 1)) with 0%nat. cbn iota.
      rewrite <- (Z.mod_unique (-1) (Z.of_nat nx) (-1) (Z.of_nat nx - 1)) by lia. lia.
    + replace (Z.to_nat (i + 1)) with (S (Z.to_nat i)) by lia. cbn iota. destruct (Nat.eqb (Z.to_nat i) nx) eqn:K.
      * apply Nat.eqb_eq in K. replace i with (Z.of_nat nx) by lia. now rewrite Z_mod_same_full.
      * apply Nat.eqb_neq in K. rewrite Z.mod_small by lia. reflexivity.
  - now rewrite Z.mod_small by lia.
Qed.
Lemma ecol_x (around : bool) k x0 dx nx xi i : evenly (node_x k (if around then x0 - dx else x0) dx 0) dx (ncols around nx) xi -> (2 <= nx)%nat -> columns around nx i ->
  nth (ecol around i) xi 0 = node_x k x0 dx i.
Proof.
  intros (_ & _ & E) Hx Hi. rewrite E by now apply ecol_lt. unfold ecol, columns in *. rewrite INR_IZR_INZ, Z2Nat.id by (destruct around; lia).
  unfold node_x. destruct around; destruct k; rewrite ?plus_IZR; lra.
Qed.
Lemma ecol_succ around nx i : columns around nx i -> ecol around (i + 1) = S (ecol around i).
Proof. unfold columns, ecol. destruct around; lia. Qed.
Lemma node_y_nth k y0 dy ny yi j : evenly (node_y k y0 dy 0) dy ny yi -> (j < ny)%nat -> nth j yi 0 = node_y k y0 dy j.
Proof. intros (_ & _ & E) Hj. rewrite E by auto. unfold node_y. destruct k; cbn [INR]; lra. Qed.

(** the cells entering the interpolation of the depths and of the constituents *)
Definition clean_depth (c : gcell R) : gcell R := (if snd c then None else fst c, snd c).
Lemma depth_value w c : depth_entry w c -> value_of (clean_depth c) = w /\ clean_depth c = (w, match w with None => true | Some _ => false end).
Proof.
  destruct w as [d|]; cbn [depth_entry].
  - intros [-> _]. split; reflexivity.
  - destruct c as [[v|] []]; cbn; intros [H1 H2]; try discriminate; try congruence. split; reflexivity.
Qed.
Lemma tide_value w c h : depth_entry w c -> value_of (drop_cell (fst h, snd h || snd c)) = tide w h /\ fst (drop_cell (fst h, snd h || snd c)) = tide w h.
Proof.
  destruct h as [[[a b]|] m]; unfold drop_cell, tide; cbn [fst snd].
  - unfold czero, cre, cim, req. cbn [fst snd]. destruct w as [d|]; cbn [depth_entry].
    + intros [-> _]. cbn [snd]. rewrite orb_false_r. destruct m; [rewrite orb_true_r; split; reflexivity|]. rewrite orb_false_r.
      destruct (Req_EM_T a 0); [destruct (Req_EM_T b 0)|]; cbn [andb]; split; reflexivity.
    + intros [-> _]. rewrite orb_true_r, orb_true_r. split; reflexivity.
  - intros H. unfold value_of, gusable. cbn. destruct w; split; reflexivity.
Qed.

Definition velocity (t : variable) : bool := match t with Vu | Vv => true | _ => false end.
Definition no_value {V} (v : option V) : bool := match v with None => true | Some _ => false end.

Lemma cell_facts (around : bool) k x0 dx nx y0 dy ny xi yi x y i j :
  evenly (node_x k (if around then x0 - dx else x0) dx 0) dx (ncols around nx) xi -> evenly (node_y k y0 dy 0) dy ny yi ->
  (2 <= nx)%nat -> (2 <= ny)%nat -> columns around nx i -> columns around nx (i + 1) -> (S j < ny)%nat ->
  between_nodes k x0 dx y0 dy x y i j ->
  axis xi /\ axis yi /\ in_cell xi yi (ecol around i) j x y /\
  (near_corner xi yi (ecol around i) j x y <-> at_node k x0 dx y0 dy x y i j) /\
  nth (ecol around i) xi 0 = node_x k x0 dx i /\ nth (S (ecol around i)) xi 0 = node_x k x0 dx (i + 1) /\
  nth j yi 0 = node_y k y0 dy j /\ nth (S j) yi 0 = node_y k y0 dy (S j) /\ (S (ecol around i) < ncols around nx)%nat.
Proof.
  intros Hxi Hyi Hx Hy Hi Hi1 Hj (Bx & By & Lo).
  assert (N2 : (2 <= ncols around nx)%nat) by (unfold ncols; destruct around; lia).
  pose proof (ecol_lt around nx (i + 1) Hx Hi1) as L1. rewrite (ecol_succ around nx) in L1 by auto.
  assert (X0 := ecol_x around k x0 dx nx xi i Hxi Hx Hi). assert (X1 := ecol_x around k x0 dx nx xi (i + 1) Hxi Hx Hi1).
  rewrite (ecol_succ around nx) in X1 by auto.
  assert (Y0 := node_y_nth k y0 dy ny yi j Hyi ltac:(lia)). assert (Y1 := node_y_nth k y0 dy ny yi (S j) Hyi ltac:(lia)).
  assert (Y2 := node_y_nth k y0 dy ny yi 0 Hyi ltac:(lia)).
  split; [eapply evenly_axis; eauto|]. split; [eapply evenly_axis; eauto|].
  split. { unfold in_cell. rewrite (proj1 (proj2 Hxi)), (proj1 (proj2 Hyi)), X0, X1, Y0, Y1, Y2. auto. }
  split. { unfold near_corner, at_node. rewrite X0, X1, Y0, Y1. reflexivity. }
  auto.
Qed.
Lemma inside_valid (around : bool) x0 dx nx y0 dy ny xe yg q :
  evenly (if around then x0 - dx else x0) dx (ncols around nx) xe -> evenly y0 dy ny yg -> (2 <= nx)%nat -> (2 <= ny)%nat ->
  reach around x0 dx nx (fst q) -> in_rows y0 dy ny q -> outside_axes xe yg q = Ok false.
Proof.
  intros Hx Hy Nx Ny Hs [T1 T2]. unfold outside_axes.
  destruct (evenly_ends _ _ _ _ Hx) as [-> ->]; [unfold ncols; destruct around; lia|]. destruct (evenly_ends _ _ _ _ Hy) as [-> ->]; auto. cbn [bind].
  assert (0 < dx) by apply Hx. unfold reach, ncols in *. destruct around.
  - replace (nx + 2 - 1)%nat with (S nx) by lia. rewrite S_INR. rewrite !rlt_f by lra. reflexivity.
  - rewrite !rlt_f by lra. reflexivity.
Qed.
Lemma weight_nonneg {V} (l : list (R * option V)) : (forall p, In p l -> 0 <= fst p) -> 0 <= weight l.
Proof.
  unfold weight. induction l as [|[w [v|]] l IH]; cbn; intros H; [lra| |].
  - specialize (IH (fun q Hq => H q (or_intror Hq))). specialize (H (w, Some v) (or_introl eq_refl)). cbn in H. lra.
  - specialize (IH (fun q Hq => H q (or_intror Hq))). lra.
Qed.
(** fewer values weigh less *)
Lemma weight_mono {V W} (l : list (R * option V)) (m : list (R * option W)) :
  Forall2 (fun p q => fst p = fst q /\ 0 <= fst p /\ (snd p <> None -> snd q <> None)) l m -> weight l <= weight m.
Proof.
  unfold weight. induction 1 as [|[w v] [w' v'] l m (E & P & Q) F IH]; cbn in *; [lra|]. subst w'.
  destruct v as [v|]; destruct v' as [v'|]; try lra. exfalso. apply Q; congruence.
Qed.
Lemma mean_none l : mean l = None <-> weight l = 0.
Proof. unfold mean. destruct (Req_EM_T _ _); split; auto; congruence. Qed.

(** what extraction by bilinear interpolation does for a point within a cell of nodes *)
Lemma cell_state fwd geo around t k x0 dx nx y0 dy ny g hcs lonlat out n p x y i j :
  model_grid geo around x0 dx nx y0 dy ny g hcs -> kind_of t = Some k ->
  extract_constants fwd geo Bilinear t g hcs lonlat = Ok out -> nth_error lonlat n = Some p ->
  convention geo x0 (x0 + INR (nx - 1) * dx) (map (fun p => fst (fwd p)) lonlat) (fst (fwd p)) x -> snd (fwd p) = y ->
  reach around x0 dx nx x -> in_rows y0 dy ny (x, y) ->
  columns around nx i -> columns around nx (i + 1) -> (S j < ny)%nat -> between_nodes k x0 dx y0 dy x y i j ->
  (k = Zonal -> around = true \/ (0 < i)%Z) ->
  let w := water (entry 0 (ghz g)) (entry 0%Z (gmz g)) around nx k in
  exists xi yi e bc d cs,
    axis xi /\ axis yi /\ in_cell xi yi e j x y /\ (near_corner xi yi e j x y <-> at_node k x0 dx y0 dy x y i j) /\
    nth e xi 0 = node_x k x0 dx i /\ nth (S e) xi 0 = node_x k x0 dx (i + 1) /\ nth j yi 0 = node_y k y0 dy j /\ nth (S j) yi 0 = node_y k y0 dy (S j) /\
    rect (length yi) (length xi) bc /\
    (forall j', (j' < ny)%nat -> entry (None, true) bc j' e = (w j' (column nx i), no_value (w j' (column nx i))) /\
                                 entry (None, true) bc j' (S e) = (w j' (column nx (i + 1)), no_value (w j' (column nx (i + 1))))) /\
    rbilinear xi yi bc (x, y) = Ok d /\ nth_error out n = Some ((fst d, snd d || is_nan d), cs) /\ length cs = length hcs /\
    forall c hc, nth_error hcs c = Some hc -> exists fd h,
      rect (length yi) (length xi) fd /\
      (forall j', (j' < ny)%nat ->
        value_of (entry (None, true) fd j' e) = tide (w j' (column nx i)) (entry (None, true) hc j' (column nx i)) /\
        fst (entry (None, true) fd j' e) = tide (w j' (column nx i)) (entry (None, true) hc j' (column nx i)) /\
        value_of (entry (None, true) fd j' (S e)) = tide (w j' (column nx (i + 1))) (entry (None, true) hc j' (column nx (i + 1))) /\
        fst (entry (None, true) fd j' (S e)) = tide (w j' (column nx (i + 1))) (entry (None, true) hc j' (column nx (i + 1)))) /\
      cbilinear xi yi fd (x, y) = Ok h /\
      nth_error cs c = Some (if is_nan h || (snd d || is_nan d) then None
                             else match fst h with Some z => Some (convert t (fst d, snd d || is_nan d) z, phase_of z) | None => None end).
Proof.
  intros M Hk H Hn Hc' Hq Hs Hr Ci Ci1 Hj B HZ w.
  destruct (extract_inv _ _ _ _ _ _ _ _ _ _ _ _ _ _ _ _ M Hk H) as (xe & xi & yi & b & fs & Hxe & Hxi & Hyi & Rb & Nb & Ef & _ & V).
  destruct M as (Ex & Ey & Hx & Hy & Rh & Rm & Rc & _).
  destruct (V n p x Hn Hc') as (D & inv & cs & O1 & O2 & O3 & O4). rewrite Hq in O2, O3, O4.
  rewrite (inside_valid around x0 dx nx y0 dy ny) in O3 by auto. apply Ok_inj in O3 as <-.
  destruct (cell_facts around k x0 dx nx y0 dy ny xi yi x y i j Hxi Hyi Hx Hy Ci Ci1 Hj B) as (A1 & A2 & C & NC & X0 & X1 & Y0 & Y1 & L1).
  set (e := ecol around i) in *.
  assert (Ce : col around nx e = column nx i) by (apply ecol_col; auto).
  assert (Ce1 : col around nx (S e) = column nx (i + 1)) by (unfold e; rewrite <- (ecol_succ around nx) by auto; apply ecol_col; auto).
  assert (Snd : forall e', e' = e \/ e' = S e -> sound_column k around (col around nx e')).
  { intros e' He. unfold sound_column. destruct k; auto. destruct (HZ eq_refl) as [Ha|Ha]; auto. destruct around; auto. right.
    unfold col. unfold e, ecol, columns in *. destruct He as [-> | ->]; lia. }
  assert (Len : length xi = ncols around nx /\ length yi = ny) by (split; [apply Hxi | apply Hyi]). destruct Len as [Lx Ly].
  assert (De : forall j' e', (j' < ny)%nat -> e' = e \/ e' = S e -> depth_entry (w j' (col around nx e')) (entry (None, true) b j' e')).
  { intros j' e' Hj' He'. apply Nb; auto. destruct He' as [-> | ->]; lia. }
  set (bc := map (map clean_depth) b). assert (Rbc : rect ny (ncols around nx) bc) by now apply map_rect.
  assert (Nbc : forall j' e', (j' < ny)%nat -> e' = e \/ e' = S e -> entry (None, true) bc j' e' = (w j' (col around nx e'), no_value (w j' (col around nx e')))).
  { intros j' e' Hj' He'. unfold bc. rewrite (map_entry clean_depth ny (ncols around nx) b (None, true)) by (auto; destruct He' as [-> | ->]; lia).
    apply depth_value. auto. }
  cbn [extract_depth] in O2. change (bind (rbilinear xi yi bc (x, y)) (fun d => Ok (fst d, snd d || is_nan d)) = Ok D) in O2.
  destruct (rbilinear xi yi bc (x, y)) as [d|] eqn:Ed; [|discriminate]. cbn [bind] in O2. apply Ok_inj in O2 as <-.
  exists xi, yi, e, bc, d, cs. rewrite Lx, Ly. rewrite <- Ce, <- Ce1.
  repeat (split; [solve [assumption | intros j' Hj'; split; apply Nbc; auto]|]).
  split; [now rewrite (mapM_len _ _ _ O4), (mapM_len _ _ _ Ef)|].
  intros c hc Hc. destruct (fields_entries around ny nx b hcs fs Rb Hx Rc Ef c hc Hc) as (f & Hf & Rf & Nf).
  destruct (mapM_nth _ _ _ _ _ O4 Hf) as (r & Er & Hr').
  set (fd := drop_invalid f). assert (Rfd : rect ny (ncols around nx) fd) by now apply map_rect.
  assert (Nfd : forall j' e', (j' < ny)%nat -> e' = e \/ e' = S e ->
            value_of (entry (None, true) fd j' e') = tide (w j' (col around nx e')) (entry (None, true) hc j' (col around nx e')) /\
            fst (entry (None, true) fd j' e') = tide (w j' (col around nx e')) (entry (None, true) hc j' (col around nx e'))).
  { intros j' e' Hj' He'. unfold fd, drop_invalid. rewrite (map_entry drop_cell ny (ncols around nx) f (None, true)) by (auto; destruct He' as [-> | ->]; lia).
    rewrite Nf by (auto; destruct He' as [-> | ->]; lia). apply tide_value. auto. }
  unfold constant in Er. fold fd in Er. destruct (cbilinear xi yi fd (x, y)) as [h|] eqn:Eh; [|discriminate]. cbn [bind snd] in Er. apply Ok_inj in Er.
  exists fd, h. split; [assumption|]. split.
  { intros j' Hj'. destruct (Nfd j' e Hj' (or_introl eq_refl)), (Nfd j' (S e) Hj' (or_intror eq_refl)). auto. }
  split; [assumption|]. rewrite Hr', <- Er, orb_false_r. reflexivity.
Qed.

(** ** C68: the constants of a point within a cell of the nodes of the variable: the
    weighted means of the valid nodes around it *)
Theorem C68_cell_partial : forall fwd geo around t k x0 dx nx y0 dy ny g hcs lonlat out n p x y i j,
  model_grid geo around x0 dx nx y0 dy ny g hcs -> kind_of t = Some k ->
  extract_constants fwd geo Bilinear t g hcs lonlat = Ok out -> nth_error lonlat n = Some p ->
  convention geo x0 (x0 + INR (nx - 1) * dx) (map (fun p => fst (fwd p)) lonlat) (fst (fwd p)) x -> snd (fwd p) = y ->
  reach around x0 dx nx x -> in_rows y0 dy ny (x, y) ->
  columns around nx i -> columns around nx (i + 1) -> (S j < ny)%nat ->
  between_nodes k x0 dx y0 dy x y i j -> ~ at_node k x0 dx y0 dy x y i j ->
  (k = Zonal -> around = true \/ (0 < i)%Z) ->
  let w := water (entry 0 (ghz g)) (entry 0%Z (gmz g)) around nx k in
  let depth := mean (corners k x0 dx y0 dy nx x y i j w) in
  exists cs, nth_error out n = Some ((depth, no_value depth), cs) /\ length cs = length hcs /\
    forall c hc, nth_error hcs c = Some hc ->
      let z := corners k x0 dx y0 dy nx x y i j (fun j i => tide (w j i) (entry (None, true) hc j i)) in
      exists r, nth_error cs c = Some r /\ returned (velocity t) depth (both (mean (part fst z)) (mean (part snd z))) r.
Proof.
  intros fwd geo around t k x0 dx nx y0 dy ny g hcs lonlat out n p x y i j M Hk H Hn Hc' Hq Hs Hr Ci Ci1 Hj B NA HZ w depth.
  destruct (cell_state _ _ _ _ _ _ _ _ _ _ _ _ _ _ _ _ _ _ _ _ _ M Hk H Hn Hc' Hq Hs Hr Ci Ci1 Hj B HZ)
    as (xi & yi & e & bc & d & cs & A1 & A2 & C & NC & X0 & X1 & Y0 & Y1 & Rbc & Nbc & Ed & O1 & Lc & V).
  assert (NN : ~ near_corner xi yi e j x y) by (now rewrite NC). clear NC. fold w in Nbc, V.
  destruct (Nbc j ltac:(lia)) as [B00 B01]. destruct (Nbc (S j) ltac:(lia)) as [B10 B11].
  destruct (bilinear_off 0 Rplus Rmult xi yi bc x y e j A1 A2 Rbc C NN) as (m & Em & Hm).
  change (gbilinear_point 0 Rplus Rmult) with rbilinear in Em. rewrite Em in Ed. apply Ok_inj in Ed as <-. clear Em.
  rewrite X0, X1, Y0, Y1, B00, B01, B10, B11 in O1, Hm, V.
  match type of Hm with _ -> gweighted _ _ _ ?l = None => set (cw := l) in * end.
  assert (Ew : gweighted 0 Rplus Rmult cw = depth).
  { assert (E := gweighted_mean 0 Rplus Rmult (fun v => v) cw eq_refl ltac:(auto) ltac:(auto)).
    assert (Ep : part (fun v => v) (pairs cw) = corners k x0 dx y0 dy nx x y i j w).
    { unfold part, pairs, cw, corners. cbn [map snd fst]. unfold value_of, gusable. destruct (w j (column nx i)), (w j (column nx (i + 1))), (w (S j) (column nx i)), (w (S j) (column nx (i + 1))); reflexivity. }
    rewrite Ep in E. fold depth in E. destruct (gweighted 0 Rplus Rmult cw); exact E. }
  rewrite Ew in O1, Hm, V. cbn [fst snd] in O1, V.
  assert (Em : m || is_nan (depth, m) = no_value depth).
  { unfold is_nan. cbn [fst]. destruct m; [now rewrite (Hm eq_refl)|]. destruct depth; reflexivity. }
  rewrite Em in O1, V. exists cs. split; [exact O1|]. split; [exact Lc|].
  intros c hc Hc z. destruct (V c hc Hc) as (fd & h & Rfd & Nfd & Eh & Hr').
  destruct (bilinear_off (0, 0) cadd cscale xi yi fd x y e j A1 A2 Rfd C NN) as (m2 & Em2 & Hm2).
  change (gbilinear_point (0, 0) cadd cscale) with cbilinear in Em2. rewrite Em2 in Eh. apply Ok_inj in Eh as <-. clear Em2.
  rewrite X0, X1, Y0, Y1 in Hr', Hm2.
  match type of Hm2 with _ -> gweighted _ _ _ ?l = None => set (cf := l) in * end.
  assert (Pz : pairs cf = z).
  { destruct (Nfd j ltac:(lia)) as (F00 & _ & F01 & _). destruct (Nfd (S j) ltac:(lia)) as (F10 & _ & F11 & _).
    unfold pairs, cf, z, corners. cbn [map snd fst]. now rewrite F00, F01, F10, F11. }
  assert (E1 := gweighted_mean (0, 0) cadd cscale fst cf eq_refl ltac:(auto) ltac:(auto)).
  assert (E2 := gweighted_mean (0, 0) cadd cscale snd cf eq_refl ltac:(auto) ltac:(auto)).
  rewrite Pz in E1, E2. rewrite <- E1, <- E2. eexists. split; [exact Hr'|]. clear Hr' O1.
  destruct (gweighted (0, 0) cadd cscale cf) as [[a bb]|] eqn:G; cbn [option_map both is_nan fst snd orb].
  - assert (Hd : depth <> None).
    { intros Hd. apply mean_none in Hd. cbn [option_map] in E1. symmetry in E1.
      assert (Wz : weight (part fst z) <> 0) by (intros W0; apply mean_none in W0; congruence). rewrite weight_part in Wz. apply Wz.
      destruct B as (Bx & By & _).
      assert (P1 : 0 <= node_x k x0 dx (i + 1) - x) by lra. assert (P2 : 0 <= x - node_x k x0 dx i) by lra.
      assert (P3 : 0 <= node_y k y0 dy (S j) - y) by lra. assert (P4 : 0 <= y - node_y k y0 dy j) by lra.
      assert (Tn : forall d h, tide d h <> None -> d <> None) by (intros [?|] h; unfold tide; [discriminate|congruence]).
      apply Rle_antisym.
      - rewrite <- Hd. apply weight_mono. unfold z, corners. repeat (apply Forall2_cons; [cbn [fst snd]; split; [reflexivity|split; [apply Rmult_le_pos; auto|apply Tn]]|]). apply Forall2_nil.
      - apply weight_nonneg. unfold z, corners. intros q Hq'. cbn [In] in Hq'. repeat (destruct Hq' as [<-|Hq']; [cbn [fst]; apply Rmult_le_pos; auto|]). contradiction. }
    destruct depth as [dd|]; [|congruence]. cbn [no_value orb returned].
    exists (cabs (a, bb)), (phase_of (a, bb)). split; [apply phase_of_spec|].
    unfold convert, velocity. destruct t; reflexivity.
  - cbn [orb returned]. reflexivity.
Qed.
Print Assumptions C68_cell_partial.

Lemma isclose_close a b : isclose a b = true -> ExtractSpec.close a b.
Proof. unfold isclose, ExtractSpec.close, rle. destruct (Rle_dec _ _); [auto|discriminate]. Qed.
Lemma isclose_refl a : isclose a a = true.
Proof. unfold isclose. apply rle_t. replace (a - a) with 0 by ring; rewrite Rabs_R0. pose proof (Rabs_pos a). lra. Qed.

(** the value of one node, when the interpolation takes the same node for the depth and
    for the constituents *)
Lemma node_result {t : variable} {w : option R} {h : option (R * R)} (f : gcell (R * R)) c :
  fst f = tide w c -> returned (velocity t) w (tide w c)
    (if is_nan f || (no_value w || is_nan (w, no_value w)) then None
     else match fst f with Some z => Some (convert t (w, no_value w || is_nan (w, no_value w)) z, phase_of z) | None => None end).
Proof.
  intros E. unfold is_nan. cbn [fst]. rewrite E. destruct w as [d|]; [|reflexivity]. destruct (tide (Some d) c) as [z|]; [|reflexivity].
  cbn [no_value orb returned]. exists (cabs z), (phase_of z). split; [apply phase_of_spec|]. unfold convert, velocity. destruct t; reflexivity.
Qed.

(** ** C68: within tolerance of a node its values are returned *)
Theorem C68_node : forall fwd geo around t k x0 dx nx y0 dy ny g hcs lonlat out n p x y i j,
  model_grid geo around x0 dx nx y0 dy ny g hcs -> kind_of t = Some k ->
  extract_constants fwd geo Bilinear t g hcs lonlat = Ok out -> nth_error lonlat n = Some p ->
  convention geo x0 (x0 + INR (nx - 1) * dx) (map (fun p => fst (fwd p)) lonlat) (fst (fwd p)) x -> snd (fwd p) = y ->
  reach around x0 dx nx x -> in_rows y0 dy ny (x, y) ->
  columns around nx i -> columns around nx (i + 1) -> (S j < ny)%nat ->
  between_nodes k x0 dx y0 dy x y i j -> at_node k x0 dx y0 dy x y i j ->
  (k = Zonal -> around = true \/ (0 < i)%Z) ->
  let w := water (entry 0 (ghz g)) (entry 0%Z (gmz g)) around nx k in
  exists a b cs, (a = i \/ a = i + 1)%Z /\ (b = j \/ b = S j) /\
    ExtractSpec.close x (node_x k x0 dx a) /\ ExtractSpec.close y (node_y k y0 dy b) /\
    (x = node_x k x0 dx i -> y = node_y k y0 dy j -> a = i /\ b = j) /\
    let depth := w b (column nx a) in
    nth_error out n = Some ((depth, no_value depth), cs) /\ length cs = length hcs /\
    forall c hc, nth_error hcs c = Some hc ->
      exists r, nth_error cs c = Some r /\ returned (velocity t) depth (tide depth (entry (None, true) hc b (column nx a))) r.
Proof.
  intros fwd geo around t k x0 dx nx y0 dy ny g hcs lonlat out n p x y i j M Hk H Hn Hc' Hq Hs Hr Ci Ci1 Hj B NA HZ w.
  destruct (cell_state _ _ _ _ _ _ _ _ _ _ _ _ _ _ _ _ _ _ _ _ _ M Hk H Hn Hc' Hq Hs Hr Ci Ci1 Hj B HZ)
    as (xi & yi & e & bc & d & cs & A1 & A2 & C & NC & X0 & X1 & Y0 & Y1 & Rbc & Nbc & Ed & O1 & Lc & V).
  fold w in Nbc, V. destruct (Nbc j ltac:(lia)) as [B00 B01]. destruct (Nbc (S j) ltac:(lia)) as [B10 B11].
  change rbilinear with (gbilinear_point 0 Rplus Rmult) in Ed. rewrite (gpoint_eq 0 Rplus Rmult xi yi bc x y e j A1 A2 Rbc C) in Ed. cbv zeta in Ed. apply Ok_inj in Ed.
  assert (Cc : forall fd, rect (length yi) (length xi) fd -> cbilinear xi yi fd (x, y) = _) by
    (intros fd Rfd; exact (gpoint_eq (0, 0) cadd cscale xi yi fd x y e j A1 A2 Rfd C)). cbv zeta in Cc.
  rewrite X0, X1, Y0, Y1 in Ed, Cc. rewrite B00, B01, B10, B11 in Ed.
  assert (Sum : forall a b e', (a = i \/ a = i + 1)%Z -> (b = j \/ b = S j) -> ExtractSpec.close x (node_x k x0 dx a) -> ExtractSpec.close y (node_y k y0 dy b) ->
    (x = node_x k x0 dx i -> y = node_y k y0 dy j -> a = i /\ b = j) ->
    d = (w b (column nx a), no_value (w b (column nx a))) ->
    (forall c hc, nth_error hcs c = Some hc -> forall fd h, rect (length yi) (length xi) fd -> cbilinear xi yi fd (x, y) = Ok h -> h = entry (None, true) fd b e') ->
    (forall fd : list (list (gcell (R * R))), forall hc, (forall j', (j' < ny)%nat ->
        value_of (entry (None, true) fd j' e) = tide (w j' (column nx i)) (entry (None, true) hc j' (column nx i)) /\
        fst (entry (None, true) fd j' e) = tide (w j' (column nx i)) (entry (None, true) hc j' (column nx i)) /\
        value_of (entry (None, true) fd j' (S e)) = tide (w j' (column nx (i + 1))) (entry (None, true) hc j' (column nx (i + 1))) /\
        fst (entry (None, true) fd j' (S e)) = tide (w j' (column nx (i + 1))) (entry (None, true) hc j' (column nx (i + 1)))) ->
      fst (entry (None, true) fd b e') = tide (w b (column nx a)) (entry (None, true) hc b (column nx a))) ->
    exists a b cs, (a = i \/ a = i + 1)%Z /\ (b = j \/ b = S j) /\
    ExtractSpec.close x (node_x k x0 dx a) /\ ExtractSpec.close y (node_y k y0 dy b) /\
    (x = node_x k x0 dx i -> y = node_y k y0 dy j -> a = i /\ b = j) /\
    let depth := w b (column nx a) in
    nth_error out n = Some ((depth, no_value depth), cs) /\ length cs = length hcs /\
    forall c hc, nth_error hcs c = Some hc ->
      exists r, nth_error cs c = Some r /\ returned (velocity t) depth (tide depth (entry (None, true) hc b (column nx a))) r).
  { intros a b e' Ha Hb Ka Kb Kx Kd Kh Kt. exists a, b, cs. do 5 (split; [assumption|]). rewrite Kd in O1, V. cbn [fst snd] in O1, V.
    assert (En : no_value (w b (column nx a)) || is_nan (w b (column nx a), no_value (w b (column nx a))) = no_value (w b (column nx a))).
    { unfold is_nan. cbn [fst]. destruct (w b (column nx a)); reflexivity. }
    rewrite En in O1. split; [exact O1|]. split; [exact Lc|]. intros c hc Hc.
    destruct (V c hc Hc) as (fd & h & Rfd & Nfd & Eh & Hr'). eexists. split; [exact Hr'|].
    rewrite (Kh c hc Hc fd h Rfd Eh). apply (@node_result t (w b (column nx a)) None (entry (None, true) fd b e')). now apply Kt. }
  rewrite <- Ed in *. clear Ed.
  destruct (isclose y (node_y k y0 dy j) && isclose x (node_x k x0 dx i)) eqn:T1.
  { apply andb_prop in T1 as [T1 T2]. apply (Sum i j e); auto using isclose_close.
    - intros c hc _ fd h Rfd Eh. rewrite (Cc fd Rfd) in Eh. now apply Ok_inj in Eh.
    - intros fd hc Nfd. apply (Nfd j). lia. }
  assert (N0 : x = node_x k x0 dx i -> y = node_y k y0 dy j -> False).
  { intros -> ->. now rewrite !isclose_refl in T1. }
  destruct (isclose y (node_y k y0 dy (S j)) && isclose x (node_x k x0 dx i)) eqn:T2.
  { apply andb_prop in T2 as [T2 T3]. apply (Sum i (S j) e); auto using isclose_close.
    - intros Kx Ky. now destruct (N0 Kx Ky).
    - intros c hc _ fd h Rfd Eh. rewrite (Cc fd Rfd) in Eh. now apply Ok_inj in Eh.
    - intros fd hc Nfd. apply (Nfd (S j)). lia. }
  destruct (isclose y (node_y k y0 dy j) && isclose x (node_x k x0 dx (i + 1))) eqn:T3.
  { apply andb_prop in T3 as [T3 T4]. apply (Sum (i + 1)%Z j (S e)); auto using isclose_close.
    - intros Kx Ky. now destruct (N0 Kx Ky).
    - intros c hc _ fd h Rfd Eh. rewrite (Cc fd Rfd) in Eh. now apply Ok_inj in Eh.
    - intros fd hc Nfd. apply (Nfd j). lia. }
  destruct (isclose y (node_y k y0 dy (S j)) && isclose x (node_x k x0 dx (i + 1))) eqn:T4.
  { apply andb_prop in T4 as [T4 T5]. apply (Sum (i + 1)%Z (S j) (S e)); auto using isclose_close.
    - intros Kx Ky. now destruct (N0 Kx Ky).
    - intros c hc _ fd h Rfd Eh. rewrite (Cc fd Rfd) in Eh. now apply Ok_inj in Eh.
    - intros fd hc Nfd. apply (Nfd (S j)). lia. }
  exfalso. assert (Cl : forall a b, ExtractSpec.close a b -> isclose a b = true) by (intros a b K; unfold isclose; now apply rle_t).
  destruct NA as [[Kx|Kx] [Ky|Ky]]; apply Cl in Kx; apply Cl in Ky; rewrite Kx, Ky in *; discriminate.
Qed.
Print Assumptions C68_node.
