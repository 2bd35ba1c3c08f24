(** C68: reading the constants of a whole OTIS grid and interpolating them. *)
From Coq Require Import Reals List Bool Arith ZArith Lra Lia.
From Verif Require Import PyBase RBase MathModel GeoModel ConvertProps GridModel InterpModel InterpProps ExtractModel ExtractSpec NodeProps ExtractProofs ExtractProps SplineProps.
Import ListNotations.
Open Scope R_scope.

(** ** Points outside the model *)
Lemma outside_value (around : bool) x0 dx nx y0 dy ny xe yg q :
  evenly (if around then x0 - dx else x0) dx (ncols around nx) xe -> evenly y0 dy ny yg -> (2 <= nx)%nat -> (2 <= ny)%nat ->
  ~ in_rows y0 dy ny q \/ ~ reach around x0 dx nx (fst q) -> outside_axes xe yg q = Ok true.
Proof.
  intros Hx Hy Nx Ny H. unfold outside_axes.
  destruct (evenly_ends _ _ _ _ Hx) as [-> ->]; [unfold ncols; destruct around; lia|]. destruct (evenly_ends _ _ _ _ Hy) as [-> ->]; auto. cbn [bind]. f_equal.
  destruct H as [H|H].
  - unfold in_rows in H. destruct (Rlt_le_dec (snd q) y0); [rewrite (rlt_t (snd q) y0) by auto; now rewrite !orb_true_r|].
    rewrite (rlt_t _ (snd q)) by (apply Rnot_le_lt; tauto). now rewrite !orb_true_r.
  - assert (0 < dx) by apply Hx. unfold reach, ncols in *. destruct around.
    + replace (nx + 2 - 1)%nat with (S nx) by lia. rewrite S_INR. destruct (Rlt_le_dec (fst q) (x0 - dx)); [now rewrite (rlt_t (fst q) (x0 - dx)) by auto|].
      rewrite (rlt_t _ (fst q)); [now rewrite orb_true_r|]. apply Rnot_le_lt. intros K. apply H. split; lra.
    + destruct (Rlt_le_dec (fst q) x0); [now rewrite (rlt_t (fst q) x0) by auto|].
      rewrite (rlt_t _ (fst q)) by (apply Rnot_le_lt; tauto). now rewrite orb_true_r.
Qed.
Lemma span_reach (around : bool) x0 dx nx q : 0 < dx -> (2 <= nx)%nat -> in_span x0 dx nx q -> reach around x0 dx nx (fst q).
Proof.
  intros Hd Hn [A B]. unfold reach. destruct around; [|lra]. rewrite minus_INR in B by lia. cbn [INR] in B. lra.
Qed.
Lemma constant_outside me xi yi t D q fs cs : mapM (constant me xi yi t D true q) fs = Ok cs -> forall c r, nth_error cs c = Some r -> r = None.
Proof.
  intros H c r Hc. assert (Lt : (c < length fs)%nat) by (rewrite <- (mapM_len _ _ _ H); apply nth_error_Some; congruence).
  destruct (nth_error fs c) as [f|] eqn:E; [|apply nth_error_None in E; lia].
  destruct (mapM_nth _ _ _ _ _ H E) as (r' & E1 & E2). assert (r' = r) as -> by congruence. unfold constant in E1.
  destruct (match me with Bilinear => _ | Spline => _ end) as [h|]; [|discriminate]. cbn [bind] in E1. apply Ok_inj in E1 as <-. now rewrite orb_true_r.
Qed.
Theorem C68_outside : forall fwd geo around me t k x0 dx nx y0 dy ny g hcs lonlat out n p x,
  model_grid geo around x0 dx nx y0 dy ny g hcs -> kind_of t = Some k ->
  extract_constants fwd geo me t g hcs lonlat = Ok out -> nth_error lonlat n = Some p ->
  convention geo x0 (x0 + INR (nx - 1) * dx) (map (fun p => fst (fwd p)) lonlat) (fst (fwd p)) x ->
  ~ in_rows y0 dy ny (fwd p) \/ ~ reach around x0 dx nx x ->
  exists D cs, nth_error out n = Some (D, cs) /\ length cs = length hcs /\ forall c r, nth_error cs c = Some r -> r = None.
Proof.
  intros fwd geo around me t k x0 dx nx y0 dy ny g hcs lonlat out n p x M Hk H Hn C Ho.
  destruct (extract_inv _ _ _ _ _ _ _ _ _ _ _ _ _ _ _ _ M Hk H) as (xe & xi & yi & b & fs & Hxe & Hxi & Hyi & Rb & Nb & Ef & _ & V).
  destruct (V n p x Hn C) as (D & inv & cs & O1 & O2 & O3 & O4). exists D, cs.
  rewrite (outside_value around x0 dx nx y0 dy ny) in O3; try apply M; auto.
  apply Ok_inj in O3 as <-. split; auto. split; [now rewrite (mapM_len _ _ _ O4), (mapM_len _ _ _ Ef)|]. now apply (constant_outside _ _ _ _ _ _ _ _ O4).
Qed.
Print Assumptions C68_outside.

(** ** A single point is read at its longitude, whichever way longitudes are counted:
    global models from 0 to 360 and from -180 to 180 *)
Theorem C68_single : forall x0 dx nx x, 0 < dx -> (2 <= nx)%nat -> INR nx * dx = 360 ->
  0 <= x0 <= dx /\ -180 <= x <= 360 \/ x0 - dx <= -180 <= x0 /\ -180 <= x <= 360 ->
  exists x', convention true x0 (x0 + INR (nx - 1) * dx) [x] x x' /\ same_longitude x' x /\ reach true x0 dx nx x'.
Proof.
  intros x0 dx nx x Hd Hn H C. assert (Hi : x0 + INR (nx - 1) * dx = x0 + 360 - dx) by (rewrite minus_INR by lia; cbn [INR]; lra). rewrite Hi.
  assert (Dl : dx <= 180) by (assert (2 <= INR nx) by (change 2 with (INR 2); apply le_INR; lia); nra).
  assert (S0 : forall y, same_longitude y y) by (intros y; exists 0%Z; lra). assert (S1 : forall y, same_longitude (y + 360) y) by (intros y; exists 1%Z; lra).
  assert (S2 : forall y, same_longitude (y - 360) y) by (intros y; exists (-1)%Z; lra). assert (S3 : forall y, same_longitude (y + 360 - 360) y) by (intros y; exists 0%Z; lra).
  unfold reach. rewrite H. destruct (Rlt_le_dec x x0) as [L|L].
  - destruct (Rlt_le_dec (x0 + 360 - dx) (eastward x)) as [K|K].
    + exists (westward (eastward x)). split; [apply to_both; auto; exists x; cbn; auto|]. unfold eastward, westward in *.
      destruct (Rlt_dec x 0), (Rlt_dec 180 _); split; auto; try lra.
    + exists (eastward x). split; [apply to_east; auto; [exists x; cbn; auto|intros a [<-|[]]; auto]|]. unfold eastward in *. destruct (Rlt_dec x 0); split; auto; try lra.
  - destruct (Rlt_le_dec (x0 + 360 - dx) x) as [K|K].
    + exists (westward x). split; [apply to_west; auto; [intros a [<-|[]]; auto|exists x; cbn; auto]|]. unfold westward. destruct (Rlt_dec 180 x); split; auto; try lra.
    + exists x. split; [apply as_given; auto; intros a [<-|[]]; lra|]. split; auto; lra.
Qed.
Print Assumptions C68_single.

(** ** In a global model from 0 to 360 one point just west of Greenwich, beyond the last
    column, takes all other points of the western hemisphere out of the model *)
Theorem C68_seam_refuted : forall fwd me t k x0 dx nx y0 dy ny g hcs lonlat out west,
  model_grid true true x0 dx nx y0 dy ny g hcs -> kind_of t = Some k -> 0 <= x0 <= dx ->
  In west lonlat -> x0 - dx < fst (fwd west) < 0 ->
  extract_constants fwd true me t g hcs lonlat = Ok out ->
  forall n p, nth_error lonlat n = Some p -> -180 < fst (fwd p) < x0 - dx ->
  exists D cs, nth_error out n = Some (D, cs) /\ forall c r, nth_error cs c = Some r -> r = None.
Proof.
  intros fwd me t k x0 dx nx y0 dy ny g hcs lonlat out west M Hk Hx0 Hw Lw H n p Hn Hp.
  destruct (C68_outside fwd true true me t k x0 dx nx y0 dy ny g hcs lonlat out n p (fst (fwd p)) M Hk H Hn) as (D & cs & O1 & _ & O2); [| |eauto].
  - assert (Hw' : In (fst (fwd west)) (map (fun p => fst (fwd p)) lonlat)) by (apply in_map_iff; eauto).
    destruct M as (Ex & _ & Hx & _ & _ & _ & _ & [(_ & _ & E)|[K _]]); [|discriminate]. assert (0 < dx) by apply Ex.
    replace (fst (fwd p)) with (westward (eastward (fst (fwd p)))) at 2.
    + apply to_both; auto; exists (fst (fwd west)); split; auto; [lra|]. unfold eastward. destruct (Rlt_dec _ 0); [|lra]. rewrite minus_INR by lia. cbn [INR]. lra.
    + unfold westward, eastward. destruct (Rlt_dec (fst (fwd p)) 0); [|lra]. destruct (Rlt_dec 180 _); lra.
  - right. unfold reach. lra.
Qed.
Print Assumptions C68_seam_refuted.

(** ** A point's result depends on the other points: in a regional model in the
    eastern longitudes one point too far east takes all of them out of the model *)
Theorem C68_points_refuted : forall fwd me t k x0 dx nx y0 dy ny g hcs lonlat out far,
  model_grid true false x0 dx nx y0 dy ny g hcs -> kind_of t = Some k -> 180 < x0 -> x0 + INR (nx - 1) * dx < 540 ->
  (forall p, In p lonlat -> 0 <= fst (fwd p) < 540) ->
  In far lonlat -> x0 + INR (nx - 1) * dx < fst (fwd far) ->
  extract_constants fwd true me t g hcs lonlat = Ok out ->
  forall n p, nth_error lonlat n = Some p -> exists D cs, nth_error out n = Some (D, cs) /\ forall c r, nth_error cs c = Some r -> r = None.
Proof.
  intros fwd me t k x0 dx nx y0 dy ny g hcs lonlat out far M Hk Hx0 Hhi Hp Hf Hfar H n p Hn.
  destruct (C68_outside fwd true false me t k x0 dx nx y0 dy ny g hcs lonlat out n p (westward (fst (fwd p))) M Hk H Hn) as (D & cs & O1 & _ & O2); [| |eauto].
  - assert (Hf' : In (fst (fwd far)) (map (fun p => fst (fwd p)) lonlat)) by (apply in_map_iff; eauto).
    assert (Ea : forall p, In p lonlat -> eastward (fst (fwd p)) = fst (fwd p)).
    { intros q Hq. specialize (Hp q Hq). unfold eastward. destruct (Rlt_dec _ 0); lra. }
    destruct (Classical_Prop.classic (exists a, In a (map (fun p => fst (fwd p)) lonlat) /\ a < x0)) as [K|K].
    + rewrite <- (Ea p) at 2 by (eapply nth_error_In; eauto). apply to_both; auto. exists (fst (fwd far)). split; auto. now rewrite Ea.
    + apply to_west; auto; [|eauto]. intros a Ha. apply Rnot_lt_le. intros L. apply K. eauto.
  - right. unfold reach. specialize (Hp p (nth_error_In _ _ Hn)). unfold westward. destruct (Rlt_dec 180 (fst (fwd p))); lra.
Qed.
Print Assumptions C68_points_refuted.

(** ** Reading the constants first and interpolating them *)
Lemma gget2_mask {V W} (f : list (list (gcell V))) (b : list (list (gcell W))) iy ix c c' :
  map (map snd) f = map (map snd) b -> gget2 f iy ix = Ok c -> gget2 b iy ix = Ok c' -> snd c = snd c'.
Proof.
  intros E H1 H2. unfold gget2, get1 in *. destruct (nth_error f iy) as [r|] eqn:R1; [|discriminate]. destruct (nth_error b iy) as [r'|] eqn:R2; [|discriminate]. cbn [bind] in *.
  assert (Er : map snd r = map snd r').
  { pose proof (map_nth_error (map snd) iy f R1) as K1. pose proof (map_nth_error (map snd) iy b R2) as K2. rewrite E in K1. congruence. }
  destruct (nth_error r ix) as [d|] eqn:C1; [|discriminate]. destruct (nth_error r' ix) as [d'|] eqn:C2; [|discriminate].
  apply Ok_inj in H1 as <-. apply Ok_inj in H2 as <-.
  pose proof (map_nth_error snd ix r C1) as K1. pose proof (map_nth_error snd ix r' C2) as K2. rewrite Er in K1. congruence.
Qed.
Lemma spline_mask {V W} (z : V) a s (z' : W) a' s' xi yi (f : list (list (gcell V))) (b : list (list (gcell W))) q h d :
  map (map snd) f = map (map snd) b -> gspline_point z a s xi yi f q = Ok h -> gspline_point z' a' s' xi yi b q = Ok d -> snd h = snd d.
Proof.
  intros E H1 H2. unfold gspline_point in *. destruct (negb _); [discriminate|].
  destruct (amin xi); [|discriminate]. cbn [bind] in *. destruct (amax xi); [|discriminate]. cbn [bind] in *.
  destruct (amin yi); [|discriminate]. cbn [bind] in *. destruct (amax yi); [|discriminate]. cbn [bind] in *.
  do 4 (match type of H1 with bind (get1 ?l ?i) _ = _ => destruct (get1 l i); [|discriminate] end; cbn [bind] in * ).
  match type of H1 with bind (gget2 f ?j ?i) _ = _ => destruct (gget2 f j i) eqn:A1; [|discriminate]; destruct (gget2 b j i) eqn:B1; [|discriminate] end. cbn [bind] in *.
  match type of H1 with bind (gget2 f ?j ?i) _ = _ => destruct (gget2 f j i) eqn:A2; [|discriminate]; destruct (gget2 b j i) eqn:B2; [|discriminate] end. cbn [bind] in *.
  match type of H1 with bind (gget2 f ?j ?i) _ = _ => destruct (gget2 f j i) eqn:A3; [|discriminate]; destruct (gget2 b j i) eqn:B3; [|discriminate] end. cbn [bind] in *.
  match type of H1 with bind (gget2 f ?j ?i) _ = _ => destruct (gget2 f j i) eqn:A4; [|discriminate]; destruct (gget2 b j i) eqn:B4; [|discriminate] end. cbn [bind] in *.
  apply Ok_inj in H1 as <-. apply Ok_inj in H2 as <-. cbn [map fst snd].
  rewrite (gget2_mask f b _ _ _ _ E A1 B1), (gget2_mask f b _ _ _ _ E A2 B2), (gget2_mask f b _ _ _ _ E A3 B3), (gget2_mask f b _ _ _ _ E A4 B4). reflexivity.
Qed.

Lemma mask_ext {V W} ny nx (f : list (list (gcell V))) (b : list (list (gcell W))) : rect ny nx f -> rect ny nx b ->
  (forall j e, (j < ny)%nat -> (e < nx)%nat -> snd (entry (None, true) f j e) = snd (entry (None, true) b j e)) -> map (map snd) f = map (map snd) b.
Proof.
  intros [L1 R1] [L2 R2] H. apply (nth_ext _ _ [] []); rewrite !map_length; [etransitivity; [exact L1|symmetry; exact L2]|]. intros j Hj'. assert (Hj : (j < ny)%nat) by (rewrite <- L1; exact Hj').
  change (@nil bool) with (map (@snd (option V) bool) []) at 1. rewrite map_nth. change (@nil bool) with (map (@snd (option W) bool) []). rewrite map_nth.
  assert (Lf : length (nth j f []) = nx) by (apply R1; apply nth_In; rewrite L1; lia).
  assert (Lb : length (nth j b []) = nx) by (apply R2; apply nth_In; rewrite L2; lia).
  apply (nth_ext _ _ true true); rewrite !map_length; [etransitivity; [exact Lf|symmetry; exact Lb]|]. intros e He'. assert (He : (e < nx)%nat) by (rewrite <- Lf; exact He').
  change true with (snd ((None : option V), true)) at 1. rewrite map_nth. change true with (snd ((None : option W), true)) at 2. rewrite map_nth. now apply H.
Qed.
Lemma nth_error_ext' {A} (a b : list A) : (forall n, nth_error a n = nth_error b n) -> a = b.
Proof.
  revert b. induction a as [|x a IH]; intros [|y b] H; auto; try (specialize (H 0%nat); discriminate).
  assert (x = y) as -> by (specialize (H 0%nat); cbn in H; congruence). f_equal. apply IH. intros n. apply (H (S n)).
Qed.
(** the depth that is seen: none where masked *)
Definition seen {V} (c : gcell V) : option V := if snd c then None else fst c.

Lemma clean_usable (c : gcell R) : gusable (clean_depth c) = gusable c.
Proof. destruct c as [[v|] []]; reflexivity. Qed.
Lemma clean_filter (l : list (gcell R * R)) : filter (fun p => gusable (fst p)) (map (fun p => (clean_depth (fst p), snd p)) l) = filter (fun p => gusable (fst p)) l.
Proof.
  induction l as [|[[v m] w] l IH]; cbn; auto. rewrite IH. destruct v as [v|], m; reflexivity.
Qed.
Lemma bilinear_served {V} (z : V) a s ilon ilat g lon lat h : axis ilon -> axis ilat -> gbilinear_point z a s ilon ilat g (lon, lat) = Ok h ->
  (lon < nth 0 ilon 0 \/ nth (length ilon - 1) ilon 0 < lon \/ lat <= nth 0 ilat 0 \/ nth (length ilat - 1) ilat 0 <= lat) \/
  exists i j, in_cell ilon ilat i j lon lat.
Proof.
  intros A1 A2 H.
  destruct (Rlt_le_dec lon (nth 0 ilon 0)); auto. destruct (Rlt_le_dec (nth (length ilon - 1) ilon 0) lon); auto.
  destruct (Rle_lt_dec lat (nth 0 ilat 0)); auto. destruct (Rle_lt_dec (nth (length ilat - 1) ilat 0) lat); [tauto|]. right.
  destruct (Req_dec lon (nth (length ilon - 1) ilon 0)) as [->|N].
  - exfalso. unfold gbilinear_point in H. rewrite (axis_min _ A1), (axis_max _ A1), (axis_min _ A2), (axis_max _ A2) in H. cbn [bind] in H.
    rewrite !rle_t, !rlt_t in H by (auto; lra). cbn [andb] in H. unfold gbilinear_inside in H. rewrite brackets_last in H by auto. discriminate.
  - destruct (find_cell ilon lon A1) as (i & Hi & Hx); [lra|]. destruct (find_cell ilat lat A2) as (j & Hj & Hy); [lra|].
    exists i, j. unfold in_cell. auto.
Qed.

(** the same constant at a point, from the same arrays *)
Lemma same_constant xi yi ny nx (b : list (list (gcell R))) (f : field) t inv q D1 D2 r1 r2 :
  axis xi -> axis yi -> length xi = nx -> length yi = ny -> rect ny nx b -> rect ny nx f ->
  (forall j e, (j < ny)%nat -> (e < nx)%nat -> fst (entry (None, true) b j e) <> None) ->
  (forall j e, (j < ny)%nat -> (e < nx)%nat -> snd (entry (None, true) b j e) = true -> snd (entry (None, true) f j e) = true) ->
  extract_depth Bilinear xi yi b q = Ok D1 -> interpolate_depth Bilinear xi yi b q = Ok D2 ->
  constant Bilinear xi yi t D1 inv q f = Ok r1 -> constant_again Bilinear xi yi t D2 inv q f = Ok r2 ->
  seen D1 = seen D2 /\ r1 = r2.
Proof.
  intros A1 A2 Lx Ly Rb Rf Fb Mf E1 E2 C1 C2. cbn [extract_depth interpolate_depth] in *.
  set (bc := map (map clean_depth) b). change (bind (rbilinear xi yi bc q) (fun d => Ok (fst d, snd d || is_nan d)) = Ok D1) in E1.
  assert (Rbc : rect ny nx bc) by now apply map_rect.
  set (fd := drop_invalid f) in *. assert (Rfd : rect ny nx fd) by now apply map_rect.
  unfold constant, constant_again in C1, C2. fold fd in C1, C2. destruct (cbilinear xi yi fd q) as [h|] eqn:Eh; [|discriminate]. cbn [bind] in C1, C2.
  apply Ok_inj in C1. apply Ok_inj in C2. destruct q as [lon lat].
  destruct (bilinear_served _ _ _ _ _ _ _ _ _ A1 A2 E2) as [Out|(i & j & C)].
  { unfold rbilinear in E1, E2. rewrite gpoint_outside in E1, E2 by auto. cbn [bind fst snd orb] in E1. apply Ok_inj in E1 as <-. apply Ok_inj in E2 as <-.
    cbn [snd] in C1, C2. rewrite orb_true_r in C1, C2. cbn in C1, C2. split; [reflexivity|congruence]. }
  pose proof C as (Hi & Hj & _). rewrite Lx in Hi. rewrite Ly in Hj.
  assert (Nb : forall j' e', (j' < ny)%nat -> (e' < nx)%nat -> entry (None, true) bc j' e' = clean_depth (entry (None, true) b j' e')).
  { intros j' e' Hj' He'. unfold bc. now rewrite (map_entry clean_depth ny nx b (None, true)) by auto. }
  assert (Nf : forall j' e', (j' < ny)%nat -> (e' < nx)%nat -> entry (None, true) fd j' e' = drop_cell (entry (None, true) f j' e')).
  { intros j' e' Hj' He'. unfold fd, drop_invalid. now rewrite (map_entry drop_cell ny nx f (None, true)) by auto. }
  unfold rbilinear in E1, E2. unfold cbilinear in Eh.
  rewrite (gpoint_eq 0 Rplus Rmult xi yi bc lon lat i j A1 A2 ltac:(now rewrite Lx, Ly) C) in E1.
  rewrite (gpoint_eq 0 Rplus Rmult xi yi b lon lat i j A1 A2 ltac:(now rewrite Lx, Ly) C) in E2.
  rewrite (gpoint_eq (0, 0) cadd cscale xi yi fd lon lat i j A1 A2 ltac:(now rewrite Lx, Ly) C) in Eh.
  cbv zeta in E1, E2, Eh. cbn [bind] in E1. apply Ok_inj in E1. apply Ok_inj in E2. apply Ok_inj in Eh.
  (* one node: the same node for all *)
  assert (Node : forall j' e', (j' < ny)%nat -> (e' < nx)%nat -> D1 = (fst (clean_depth (entry (None, true) b j' e')), snd (clean_depth (entry (None, true) b j' e')) || is_nan (clean_depth (entry (None, true) b j' e'))) ->
     D2 = entry (None, true) b j' e' -> seen D1 = seen D2 /\ r1 = r2).
  { intros j' e' Hj' He' K1 K2. specialize (Fb j' e' Hj' He'). destruct (entry (None, true) b j' e') as [[v|] []]; cbn in Fb, K1; try congruence; rewrite K1 in C1 |- *; rewrite K2 in C2 |- *; cbn in C1, C2 |- *; (split; [reflexivity|]).
    - rewrite orb_true_r in C1, C2. cbn in C1, C2. congruence.
    - unfold convert, gnumber in *. cbn [fst] in *. congruence. }
  destruct (isclose lat (nth j yi 0) && isclose lon (nth i xi 0)).
  { apply (Node j i); [lia|lia| |auto]. rewrite <- E1. now rewrite Nb by lia. }
  destruct (isclose lat (nth (S j) yi 0) && isclose lon (nth i xi 0)).
  { apply (Node (S j) i); [lia|lia| |auto]. rewrite <- E1. now rewrite Nb by lia. }
  destruct (isclose lat (nth j yi 0) && isclose lon (nth (S i) xi 0)).
  { apply (Node j (S i)); [lia|lia| |auto]. rewrite <- E1. now rewrite Nb by lia. }
  destruct (isclose lat (nth (S j) yi 0) && isclose lon (nth (S i) xi 0)).
  { apply (Node (S j) (S i)); [lia|lia| |auto]. rewrite <- E1. now rewrite Nb by lia. }
  clear Node.
  match type of E2 with (if existsb _ ?l then _ else _) = _ => set (lb := l) in * end.
  assert (E1' : (let d := if existsb (fun p : gcell R * R => gusable (fst p)) (map (fun p : gcell R * R => (clean_depth (fst p), snd p)) lb)
                          then (gweighted 0 Rplus Rmult (map (fun p : gcell R * R => (clean_depth (fst p), snd p)) lb), false) else (None, true) in
                 (fst d, snd d || is_nan d)) = D1).
  { rewrite <- E1. unfold lb. cbn [map fst snd]. now rewrite !Nb by lia. }
  clear E1. cbv zeta in E1'.
  assert (Ex : existsb (fun p : gcell R * R => gusable (fst p)) (map (fun p : gcell R * R => (clean_depth (fst p), snd p)) lb) = existsb (fun p => gusable (fst p)) lb).
  { clear. induction lb as [|p l IH]; cbn; auto. now rewrite clean_usable, IH. }
  assert (Ew : gweighted 0 Rplus Rmult (map (fun p : gcell R * R => (clean_depth (fst p), snd p)) lb) = gweighted 0 Rplus Rmult lb).
  { unfold gweighted. now rewrite clean_filter. }
  rewrite Ex, Ew in E1'. clear Ex Ew. destruct (existsb (fun p : gcell R * R => gusable (fst p)) lb).
  2:{ subst D1 D2. cbn in C1, C2 |- *. rewrite orb_true_r in C1, C2. cbn in C1, C2. split; [reflexivity|congruence]. }
  subst D2. cbn [fst snd is_nan orb] in E1', C2. destruct (gweighted 0 Rplus Rmult lb) as [d|] eqn:Gd.
  { subst D1. cbn in C1 |- *. split; [reflexivity|]. rewrite <- C1, <- C2. cbn. unfold convert, gnumber. reflexivity. }
  subst D1. cbn [snd] in C1, C2. split; [reflexivity|].
  (* no depth: no constant either *)
  assert (Hn : fst h = None).
  { match type of Eh with (if existsb _ ?l then _ else _) = _ => set (lf := l) in * end.
    assert (gweighted (0, 0) cadd cscale lf = None) as Gf; [|rewrite Gf in Eh; rewrite <- Eh; match goal with |- fst (if ?u then _ else _) = _ => destruct u end; reflexivity].
    unfold gweighted in Gd |- *. rewrite filter_weight in Gd. rewrite filter_weight. unfold req in *. destruct (Req_EM_T (weight (pairs lb)) 0) as [Wb|]; [|discriminate].
    assert (Wf : weight (pairs lf) = 0); [|now destruct (Req_EM_T (weight (pairs lf)) 0)].
    destruct C as (_ & _ & Cx & Cy & _).
    apply Rle_antisym.
    - rewrite <- Wb. apply weight_mono. unfold pairs, lf, lb. cbn [map fst snd].
      assert (Vf : forall j' e', (j' < ny)%nat -> (e' < nx)%nat -> value_of (entry (None, true) fd j' e') <> None -> value_of (entry (None, true) b j' e') <> None).
      { intros j' e' Hj' He' K. rewrite Nf in K by auto. specialize (Fb j' e' Hj' He'). specialize (Mf j' e' Hj' He').
        destruct (entry (None, true) b j' e') as [[v|] []]; cbn in Fb; try congruence; [|cbn; congruence].
        specialize (Mf eq_refl). destruct (entry (None, true) f j' e') as [[z|] m]; cbn in Mf; subst m; exfalso; apply K; unfold drop_cell; cbn; [destruct (czero z)|]; reflexivity. }
      repeat (apply Forall2_cons; [cbn [fst snd]; split; [reflexivity|split; [apply Rmult_le_pos; lra|apply Vf; lia]]|]). apply Forall2_nil.
    - apply weight_nonneg. unfold pairs, lf. intros p Hp. cbn [map fst snd In] in Hp. repeat (destruct Hp as [<-|Hp]; [cbn [fst]; apply Rmult_le_pos; lra|]). contradiction. }
  unfold is_nan in C1, C2. rewrite Hn in C1, C2. cbn in C1, C2. congruence.
Qed.

Lemma zip22_in {A B C} (f : A -> B -> C) a b r c : In r (zip22 f a b) -> In c r -> exists x y, c = f x y.
Proof.
  unfold zip22, zip2. intros H1 H2. apply in_map_iff in H1 as ([u v] & <- & _). apply in_map_iff in H2 as ([x y] & <- & _). eauto.
Qed.
Lemma layer_data glob dx dy xe ye g t xi yi b : layer glob dx dy xe ye g t = Ok (xi, yi, b) -> forall r c, In r b -> In c r -> fst c <> None.
Proof.
  intros H r c Hr Hc.
  assert (K : exists h m, b = zip22 depth_cell h m).
  { unfold layer in H. destruct t; try discriminate.
    - destruct (extend_if glob (ghz g)) as [hz|]; [|discriminate]. cbn [bind] in H. destruct (extend_if glob (gmz g)) as [mz|]; [|discriminate]. cbn [bind] in H.
      destruct (same_shape hz mz); [|discriminate]. apply Ok_inj in H. injection H as _ _ <-. eauto.
    - destruct (mask_nodes (ghz g) glob); [|discriminate]. cbn [bind] in H. destruct (interpolate_zeta (ghz g) glob); [|discriminate]. cbn [bind] in H.
      do 2 (match type of H with bind (extend_if glob ?m) _ = _ => destruct (extend_if glob m); [|discriminate] end; cbn [bind] in H). apply Ok_inj in H. injection H as _ _ <-. eauto.
    - destruct (mask_nodes (ghz g) glob); [|discriminate]. cbn [bind] in H. destruct (interpolate_zeta (ghz g) glob); [|discriminate]. cbn [bind] in H.
      do 2 (match type of H with bind (extend_if glob ?m) _ = _ => destruct (extend_if glob m); [|discriminate] end; cbn [bind] in H). apply Ok_inj in H. injection H as _ _ <-. eauto.
    - destruct (mask_nodes (ghz g) glob); [|discriminate]. cbn [bind] in H. destruct (interpolate_zeta (ghz g) glob); [|discriminate]. cbn [bind] in H.
      do 2 (match type of H with bind (extend_if glob ?m) _ = _ => destruct (extend_if glob m); [|discriminate] end; cbn [bind] in H). apply Ok_inj in H. injection H as _ _ <-. eauto.
    - destruct (mask_nodes (ghz g) glob); [|discriminate]. cbn [bind] in H. destruct (interpolate_zeta (ghz g) glob); [|discriminate]. cbn [bind] in H.
      do 2 (match type of H with bind (extend_if glob ?m) _ = _ => destruct (extend_if glob m); [|discriminate] end; cbn [bind] in H). apply Ok_inj in H. injection H as _ _ <-. eauto. }
  destruct K as (h & m & ->). destruct (zip22_in _ _ _ _ _ Hr Hc) as (x & y & ->). unfold depth_cell. cbn. congruence.
Qed.
Lemma entry_in {A} ny nx (m : list (list A)) d j i : rect ny nx m -> (j < ny)%nat -> (i < nx)%nat -> exists r, In r m /\ In (entry d m j i) r.
Proof.
  intros Hm Hj Hi. exists (nth j m []). split; [apply nth_In; rewrite (proj1 Hm); lia|]. unfold entry. apply nth_In. rewrite (rect_row ny nx); auto.
Qed.

Lemma around_equal geo around x0 dx nx y0 dy ny g hcs : model_grid geo around x0 dx nx y0 dy ny g hcs ->
  geo && req (last (gx g) 0 - hd 0 (gx g)) (360 - dx) = around.
Proof.
  intros (Ex & _ & Hx & _ & _ & _ & _ & H). rewrite (evenly_span x0 dx nx) by auto. destruct H as [(-> & -> & E) | (-> & [-> | H])]; auto.
  - cbn [andb]. apply req_t. rewrite minus_INR by lia. cbn [INR]. lra.
  - destruct geo; auto. cbn [andb]. apply req_f. intros K. apply H. rewrite K. unfold ExtractSpec.close. replace (360 - dx - (360 - dx)) with 0 by ring. rewrite Rabs_R0. pose proof (Rabs_pos (360 - dx)). lra.
Qed.
Lemma read_inv geo around t x0 dx nx y0 dy ny g hcs c xe xi yi b fs :
  model_grid geo around x0 dx nx y0 dy ny g hcs -> (if around then extend_axis (gx g) dx else Ok (gx g)) = Ok xe ->
  layer around dx dy xe (gy g) g t = Ok (xi, yi, b) -> mapM (fun hc => do e <- extend_if around hc ;; remask b e) hcs = Ok fs ->
  read_constants geo t g hcs = Ok c -> c = Cons xi yi b fs.
Proof.
  intros M Exe El Ef H. pose proof (around_equal _ _ _ _ _ _ _ _ _ _ M) as Ha. destruct M as (Ex & Ey & Hx & Hy & _).
  unfold read_constants in H. rewrite (evenly_spacing x0 dx nx), (evenly_spacing y0 dy ny) in H by auto. cbn [bind] in H.
  rewrite Ha, Exe in H. cbn [bind] in H. rewrite El in H. cbn [bind] in H. rewrite Ef in H. cbn [bind] in H. now apply Ok_inj in H.
Qed.

(** where extraction and interpolation of the constants read agree on the points and on
    which of them are outside, they return the same *)
Lemma read_same fwd geo around me t k x0 dx nx y0 dy ny g hcs lonlat out c out' c' :
  model_grid geo around x0 dx nx y0 dy ny g hcs -> kind_of t = Some k ->
  (me = Spline -> forall hc, In hc hcs -> forall j i, (j < ny)%nat -> (i < nx)%nat ->
    snd (entry (None, true) hc j i) = true -> water (entry 0 (ghz g)) (entry 0%Z (gmz g)) around nx k j i = None) ->
  (me = Spline -> k = Zonal -> around = true) ->
  extract_constants fwd geo me t g hcs lonlat = Ok out -> read_constants geo t g hcs = Ok c -> interpolate_constants fwd geo me t c lonlat = Ok (out', c') ->
  (forall lo hi, amin (cx c) = Ok lo -> amax (cx c) = Ok hi -> batch geo lo hi (map fwd lonlat) = batch geo x0 (x0 + INR (nx - 1) * dx) (map fwd lonlat)) ->
  (forall pts n q, batch geo x0 (x0 + INR (nx - 1) * dx) (map fwd lonlat) = Ok pts -> nth_error pts n = Some q ->
    forall xe, evenly (if around then x0 - dx else x0) dx (ncols around nx) xe -> outside_axes (cx c) (cy c) q = outside_axes xe (gy g) q) ->
  length out' = length out /\
  forall n r, nth_error out n = Some r -> exists r', nth_error out' n = Some r' /\ seen (fst r') = seen (fst r) /\ snd r' = snd r.
Proof.
  intros M Hk Hm Hw H Hc H' HB HI.
  destruct (extract_inv0 _ _ _ _ _ _ _ _ _ _ _ _ _ _ _ _ M Hk H) as (xe & xi & yi & b & fs & pts & Hxe & Hxi & Hyi & Rb & Nb & Ef & Exe & El & Eb & L & V).
  pose proof (read_inv _ _ _ _ _ _ _ _ _ _ _ _ _ _ _ _ _ M Exe El Ef Hc) as ->. cbn [cx cy] in *.
  destruct M as (Ex & Ey & Hx & Hy & Rh & Rm & Rc & _).
  assert (N2 : (2 <= ncols around nx)%nat) by (unfold ncols; destruct around; lia).
  assert (A1 : axis xi) by (eapply evenly_axis; eauto). assert (A2 : axis yi) by (eapply evenly_axis; eauto).
  unfold interpolate_constants in H'. cbn [cx cy cbath cfields] in H'.
  destruct (amin xi) as [lo|] eqn:E1; [|discriminate]. destruct (amax xi) as [hi|] eqn:E2; [|discriminate]. cbn [bind] in H'.
  rewrite (HB lo hi eq_refl eq_refl), Eb in H'. cbn [bind] in H'.
  destruct (mapM (outside_axes xi yi) pts) as [invs|] eqn:Ei; [|discriminate]. cbn [bind] in H'.
  destruct (mapM (interpolate_depth me xi yi b) pts) as [ds|] eqn:Ed; [|discriminate]. cbn [bind] in H'.
  assert (H2 : exists o, mapM (fun p => let '(q, (i, D)) := p in do cs <- mapM (constant_again me xi yi t D i q) fs ;; Ok (D, cs)) (combine pts (combine invs ds)) = Ok o /\ o = out').
  { destruct t; try discriminate;
    match type of H' with bind ?m _ = _ => destruct m as [o|] eqn:Eo; [|discriminate] end; cbn [bind] in H'; apply Ok_inj in H'; exists o; split; auto; congruence. }
  destruct H2 as (o & Eo & ->).
  pose proof (mapM_len _ _ _ Ei) as L1. pose proof (mapM_len _ _ _ Ed) as L2. pose proof (mapM_len _ _ _ Eo) as L3.
  split; [etransitivity; [exact L3|]; rewrite !combine_length; lia|].
  intros n r Hr. assert (Hlt : (n < length pts)%nat) by (rewrite <- L; apply nth_error_Some; congruence).
  destruct (nth_error pts n) as [q|] eqn:Hq; [|apply nth_error_None in Hq; lia].
  destruct (V n q Hq) as (D1 & inv & cs & O1 & O2 & O3 & O4). rewrite O1 in Hr. injection Hr as <-.
  destruct (mapM_nth _ _ _ _ _ Ei Hq) as (inv' & I1 & I2). destruct (mapM_nth _ _ _ _ _ Ed Hq) as (D2 & K1 & K2).
  rewrite (HI pts n q Eb Hq xe Hxe), O3 in I1. apply Ok_inj in I1 as <-.
  destruct (mapM_nth _ _ _ n (q, (inv, D2)) Eo) as (r & R1 & R2); [now repeat apply nth_error_combine|].
  cbn beta iota in R1. destruct (mapM (constant_again me xi yi t D2 inv q) fs) as [cs'|] eqn:Ec in R1; [|discriminate]. cbn [bind] in R1. apply Ok_inj in R1 as <-.
  exists (D2, cs'). split; [exact R2|]. cbn [fst snd].
  assert (Lxy : length xi = ncols around nx /\ length yi = ny) by (split; [apply Hxi | apply Hyi]). destruct Lxy as [Lx Ly].
  assert (Fb : forall j e, (j < ny)%nat -> (e < ncols around nx)%nat -> fst (entry (None, true) b j e) <> None).
  { intros j e Hj He. destruct (entry_in ny (ncols around nx) b (None, true) j e Rb Hj He) as (row & Hrow & Hcell). eapply layer_data; eauto. }
  assert (Ff : forall ci f, nth_error fs ci = Some f -> exists hc, In hc hcs /\ rect ny (ncols around nx) f /\ forall j e, (j < ny)%nat -> (e < ncols around nx)%nat ->
      entry (None, true) f j e = (fst (entry (None, true) hc j (col around nx e)), snd (entry (None, true) hc j (col around nx e)) || snd (entry (None, true) b j e))).
  { intros ci f Hf. assert (Hci : (ci < length hcs)%nat) by (eapply Nat.lt_le_trans; [apply nth_error_Some; rewrite Hf; discriminate|]; apply Nat.eq_le_incl; exact (mapM_len _ _ _ Ef)).
    destruct (nth_error hcs ci) as [hc|] eqn:Eh; [|apply nth_error_None in Eh; lia].
    destruct (fields_entries around ny nx b hcs fs Rb Hx Rc Ef ci hc Eh) as (f' & Hf' & Rf & Nf). assert (f' = f) as -> by congruence.
    exists hc. split; [eapply nth_error_In; eauto|auto]. }
  assert (All : seen D2 = seen D1 /\ forall ci f, nth_error fs ci = Some f -> forall r1 r2, constant me xi yi t D1 inv q f = Ok r1 -> constant_again me xi yi t D2 inv q f = Ok r2 -> r1 = r2).
  { destruct me.
    - split.
      + set (f0 := map (map (fun _ : gcell R => ((None : option (R * R)), true))) b).
        assert (Rf0 : rect ny (ncols around nx) f0) by now apply map_rect.
        assert (C0 : exists h, cbilinear xi yi (drop_invalid f0) q = Ok h).
        { destruct q as [lon lat]. cbn [interpolate_depth] in K1. destruct (bilinear_served _ _ _ _ _ _ _ _ _ A1 A2 K1) as [Out|(i & j & C)].
          - unfold cbilinear. rewrite gpoint_outside by auto. eauto.
          - unfold cbilinear. rewrite (gpoint_eq (0, 0) cadd cscale xi yi _ lon lat i j A1 A2); [eauto| |exact C]. rewrite Lx, Ly. now apply map_rect. }
        destruct C0 as [h0 C0].
        assert (S1 : exists r1, constant Bilinear xi yi t D1 inv q f0 = Ok r1) by (unfold constant; rewrite C0; cbn [bind]; eauto).
        assert (S2 : exists r2, constant_again Bilinear xi yi t D2 inv q f0 = Ok r2) by (unfold constant_again; rewrite C0; cbn [bind]; eauto).
        destruct S1 as [r1 S1], S2 as [r2 S2]. symmetry.
        eapply (same_constant xi yi ny (ncols around nx) b f0); eauto.
        intros j e Hj He _. unfold f0. now rewrite (map_entry _ ny (ncols around nx) b (None, true)) by auto.
      + intros ci f Hf r1 r2 C1 C2. destruct (Ff ci f Hf) as (hc & _ & Rf & Nf).
        eapply (same_constant xi yi ny (ncols around nx) b f t inv q D1 D2); eauto.
        intros j e Hj He Kb. rewrite Nf by auto. cbn [snd]. rewrite Kb. apply orb_true_r.
    - assert (D1 = D2) as -> by (cbn in O2, K1; congruence). split; [reflexivity|].
      intros ci f Hf r1 r2 C1 C2. destruct (Ff ci f Hf) as (hc & Hin & Rf & Nf).
      unfold constant, constant_again in C1, C2. destruct (cspline xi yi f q) as [h|] eqn:Eh; [|discriminate]. cbn [bind] in C1, C2.
      assert (Em : map (map snd) f = map (map snd) b).
      { apply (mask_ext ny (ncols around nx)); auto. intros j e Hj He. rewrite Nf by auto. cbn [snd].
        destruct (snd (entry (None, true) hc j (col around nx e))) eqn:Sh; [|reflexivity].
        assert (Hcol : (col around nx e < nx)%nat) by (apply col_lt; auto; lia).
        assert (Sc : sound_column k around (col around nx e)) by (unfold sound_column; destruct k; auto).
        specialize (Nb j e Hj He Sc). rewrite (Hm eq_refl hc Hin j (col around nx e) Hj Hcol Sh) in Nb. destruct Nb as [-> _]. reflexivity. }
      unfold cspline in Eh. cbn [interpolate_depth] in K1. unfold rspline in K1. rewrite (spline_mask _ _ _ _ _ _ _ _ _ _ _ _ _ Em Eh K1) in C1.
      replace (snd D2 || snd D2) with (snd D2) in C1 by (destruct (snd D2); reflexivity). congruence. }
  destruct All as [As Ac]. split; [exact As|].
  apply nth_error_ext'. intros ci. destruct (nth_error fs ci) as [f|] eqn:Hf.
  - destruct (mapM_nth _ _ _ _ _ O4 Hf) as (r1 & Q1 & Q2). destruct (mapM_nth _ _ _ _ _ Ec Hf) as (r2 & Q3 & Q4). rewrite Q2, Q4. f_equal. symmetry. eauto.
  - apply nth_error_None in Hf. rewrite (proj2 (nth_error_None cs' ci)), (proj2 (nth_error_None cs ci)); auto.
    + rewrite (mapM_len _ _ _ O4). lia.
    + rewrite (mapM_len _ _ _ Ec). lia.
Qed.

(** the axes of the constants read *)
Lemma read_axes fwd geo around me t k x0 dx nx y0 dy ny g hcs lonlat out c :
  model_grid geo around x0 dx nx y0 dy ny g hcs -> kind_of t = Some k ->
  extract_constants fwd geo me t g hcs lonlat = Ok out -> read_constants geo t g hcs = Ok c ->
  evenly (node_x k (if around then x0 - dx else x0) dx 0) dx (ncols around nx) (cx c) /\ evenly (node_y k y0 dy 0) dy ny (cy c).
Proof.
  intros M Hk H Hc.
  destruct (extract_inv0 _ _ _ _ _ _ _ _ _ _ _ _ _ _ _ _ M Hk H) as (xe & xi & yi & b & fs & pts & Hxe & Hxi & Hyi & Rb & Nb & Ef & Exe & El & Eb & L & V).
  pose proof (read_inv _ _ _ _ _ _ _ _ _ _ _ _ _ _ _ _ _ M Exe El Ef Hc) as ->. auto.
Qed.

(** ** C68: heights: the same from extract_constants and from read_constants followed
    by interpolate_constants *)
Theorem C68_read_heights : forall fwd geo around me x0 dx nx y0 dy ny g hcs lonlat out c out' c',
  model_grid geo around x0 dx nx y0 dy ny g hcs ->
  (around = true -> forall p, In p lonlat -> in_span x0 dx nx (fwd p)) ->
  (me = Spline -> forall hc, In hc hcs -> forall j i, (j < ny)%nat -> (i < nx)%nat ->
    snd (entry (None, true) hc j i) = true -> water (entry 0 (ghz g)) (entry 0%Z (gmz g)) around nx Heights j i = None) ->
  extract_constants fwd geo me Vz g hcs lonlat = Ok out -> read_constants geo Vz g hcs = Ok c -> interpolate_constants fwd geo me Vz c lonlat = Ok (out', c') ->
  length out' = length out /\
  forall n r, nth_error out n = Some r -> exists r', nth_error out' n = Some r' /\ seen (fst r') = seen (fst r) /\ snd r' = snd r.
Proof.
  intros fwd geo around me x0 dx nx y0 dy ny g hcs lonlat out c out' c' M Hp Hm H Hc H'.
  destruct (read_axes _ _ _ _ _ _ _ _ _ _ _ _ _ _ _ _ _ M (eq_refl : kind_of Vz = Some Heights) H Hc) as [Ax Ay].
  assert (Nx : (2 <= nx)%nat) by apply M. assert (Ny : (2 <= ny)%nat) by apply M. assert (Hdx : 0 < dx) by apply M. assert (Ey : evenly y0 dy ny (gy g)) by apply M.
  assert (N2 : (2 <= ncols around nx)%nat) by (unfold ncols; destruct around; lia).
  destruct (evenly_ends _ _ _ _ Ax N2) as [Lo Hi]. unfold node_x in Lo, Hi. replace (_ + 0 * dx) with (if around then x0 - dx else x0) in Lo, Hi by lra.
  eapply (read_same fwd geo around me Vz Heights); eauto.
  - discriminate.
  - intros lo hi E1 E2. rewrite Lo in E1. rewrite Hi in E2. apply Ok_inj in E1 as <-. apply Ok_inj in E2 as <-.
    destruct around; [|reflexivity]. destruct lonlat as [|p0 l]; [reflexivity|].
    rewrite !batch_none; auto; try discriminate; intros _ q Hq; apply in_map_iff in Hq as (p & <- & Hin); destruct (Hp eq_refl p Hin) as [P1 P2]; cbn [ncols]; assert (K : INR (nx + 2 - 1) = INR (nx - 1) + 2) by (replace (nx + 2 - 1)%nat with (S (S (nx - 1))) by lia; rewrite !S_INR; lra); rewrite ?K; split; lra.
  - intros pts n q _ _ xe Hxe. unfold outside_axes. rewrite Lo, Hi. destruct (evenly_ends _ _ _ _ Hxe N2) as [-> ->].
    destruct (evenly_ends _ _ _ _ Ay Ny) as [-> ->]. destruct (evenly_ends _ _ _ _ Ey Ny) as [-> ->]. cbn [bind]. unfold node_y. cbn [INR]. now replace (y0 + 0 * dy) with y0 by lra.
Qed.
Print Assumptions C68_read_heights.

(** ** C68: all the variables, for points within the model and within the nodes of the
    variable *)
Theorem C68_read_inside : forall fwd geo around me t k x0 dx nx y0 dy ny g hcs lonlat out c out' c',
  model_grid geo around x0 dx nx y0 dy ny g hcs -> kind_of t = Some k ->
  (forall p, In p lonlat -> in_span x0 dx nx (fwd p) /\ in_rows y0 dy ny (fwd p) /\
     fst (fwd p) <= node_x k x0 dx (last_column around nx) /\ snd (fwd p) <= node_y k y0 dy (ny - 1)) ->
  (me = Spline -> forall hc, In hc hcs -> forall j i, (j < ny)%nat -> (i < nx)%nat ->
    snd (entry (None, true) hc j i) = true -> water (entry 0 (ghz g)) (entry 0%Z (gmz g)) around nx k j i = None) ->
  (me = Spline -> k = Zonal -> around = true) ->
  extract_constants fwd geo me t g hcs lonlat = Ok out -> read_constants geo t g hcs = Ok c -> interpolate_constants fwd geo me t c lonlat = Ok (out', c') ->
  length out' = length out /\
  forall n r, nth_error out n = Some r -> exists r', nth_error out' n = Some r' /\ seen (fst r') = seen (fst r) /\ snd r' = snd r.
Proof.
  intros fwd geo around me t k x0 dx nx y0 dy ny g hcs lonlat out c out' c' M Hk Hp Hm Hw H Hc H'.
  destruct (read_axes _ _ _ _ _ _ _ _ _ _ _ _ _ _ _ _ _ M Hk H Hc) as [Ax Ay].
  assert (Nx : (2 <= nx)%nat) by apply M. assert (Ny : (2 <= ny)%nat) by apply M. assert (Hdx : 0 < dx) by apply M. assert (Ey : evenly y0 dy ny (gy g)) by apply M.
  assert (Hdy : 0 < dy) by apply Ey.
  assert (N2 : (2 <= ncols around nx)%nat) by (unfold ncols; destruct around; lia).
  destruct (evenly_ends _ _ _ _ Ax N2) as [Lo Hi].
  assert (HiE : node_x k (if around then x0 - dx else x0) dx 0 + INR (ncols around nx - 1) * dx = node_x k x0 dx (last_column around nx)).
  { unfold node_x, ncols, last_column. destruct around.
    - replace (nx + 2 - 1)%nat with (S nx) by lia. rewrite S_INR, INR_IZR_INZ. destruct k; lra.
    - rewrite minus_IZR, <- INR_IZR_INZ, minus_INR by lia. cbn [INR]. destruct k; lra. }
  assert (LoE : node_x k (if around then x0 - dx else x0) dx 0 <= x0) by (unfold node_x; destruct around, k; lra).
  rewrite HiE in Hi.
  assert (YhE : node_y k y0 dy 0 + INR (ny - 1) * dy = node_y k y0 dy (ny - 1)) by (unfold node_y; cbn [INR]; destruct k; lra).
  assert (YlE : node_y k y0 dy 0 <= y0) by (unfold node_y; cbn [INR]; destruct k; lra).
  destruct (evenly_ends _ _ _ _ Ay Ny) as [La Ha]. rewrite YhE in Ha.
  assert (Bt : batch geo x0 (x0 + INR (nx - 1) * dx) (map fwd lonlat) = match lonlat with [] => Err ValueError | _ => Ok (map fwd lonlat) end).
  { destruct lonlat as [|p0 l]; [unfold batch; destruct geo; reflexivity|]. apply batch_none; [discriminate|]. intros _ q Hq. apply in_map_iff in Hq as (p & <- & Hin). apply (Hp p Hin). }
  eapply (read_same fwd geo around me t k); eauto.
  - intros lo hi E1 E2. rewrite Lo in E1. rewrite Hi in E2. apply Ok_inj in E1 as <-. apply Ok_inj in E2 as <-. rewrite Bt.
    destruct lonlat as [|p0 l]; [unfold batch; destruct geo; reflexivity|]. apply batch_none; [discriminate|]. intros _ q Hq. apply in_map_iff in Hq as (p & <- & Hin).
    destruct (Hp p Hin) as ([P1 P2] & _ & P3 & _). split; lra.
  - intros pts n q Eb Hq xe Hxe. rewrite Bt in Eb. assert (pts = map fwd lonlat) as -> by (destruct lonlat; [discriminate|now apply Ok_inj in Eb]).
    apply nth_error_In in Hq. apply in_map_iff in Hq as (p & <- & Hin). destruct (Hp p Hin) as (P1 & P2 & P3 & P4).
    rewrite (inside_valid around x0 dx nx y0 dy ny xe (gy g) (fwd p)) by (auto; now apply span_reach).
    unfold outside_axes. rewrite Lo, Hi, La, Ha. cbn [bind]. destruct P1 as [P1 _], P2 as [P2 _]. now rewrite !rlt_f by lra.
Qed.
Print Assumptions C68_read_inside.

(** ** C68: interpolation leaves the constants that were read as they were *)
Theorem C68_unchanged : forall fwd geo me t c lonlat out c',
  interpolate_constants fwd geo me t c lonlat = Ok (out, c') -> c' = c.
Proof.
  intros fwd geo me t c lonlat out c' H. unfold interpolate_constants in H. destruct (amin _); [|discriminate]. cbn [bind] in H. destruct (amax _); [|discriminate]. cbn [bind] in H.
  destruct (batch _ _ _ _); [|discriminate]. cbn [bind] in H. destruct (mapM (outside_axes _ _) _); [|discriminate]. cbn [bind] in H.
  destruct (mapM (interpolate_depth _ _ _ _) _); [|discriminate]. cbn [bind] in H.
  destruct t; try discriminate; (match type of H with bind ?m _ = _ => destruct m; [|discriminate] end); cbn [bind] in H; apply Ok_inj in H; congruence.
Qed.
Print Assumptions C68_unchanged.
