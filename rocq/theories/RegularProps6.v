(** C82: OTIS constants that were read, with the methods linear and nearest; what goes
    wrong at masked constants and at constants that are zero. *)
From Coq Require Import Reals List Bool Arith ZArith Lra Lia.
From Verif Require Import PyBase RBase MathModel GeoModel ConvertProps GridModel InterpModel InterpProps ExtractModel ExtractSpec NodeProps ExtractProofs ExtractProps SplineProps ReadProps ReturnProps SeriesModel SeriesProps3 AtlasNcModel RegularModel RegularSpec RegularProofs RegularProps4 RegularProps5 CaseProps.
From Verif Require RegularProps RegularProps3.
From Verif Require MaskModel.
Import ListNotations.
Open Scope R_scope.

Lemma regular_again_inv fwd geo me t k c x0 dx nx lonlat out : kind_of t = Some k -> evenly x0 dx nx (cx c) -> (2 <= nx)%nat ->
  interpolate_otis_regular fwd geo me t c lonlat = Ok out ->
  length out = length lonlat /\
  forall n p x, nth_error lonlat n = Some p -> ExtractProps.placed fwd geo x0 dx nx lonlat p x ->
    exists D inv cs, nth_error out n = Some (D, cs) /\ rregular me (cx c) (cy c) (cbath c) (x, snd (fwd p)) = Ok D /\
    outside_axes (cx c) (cy c) (x, snd (fwd p)) = Ok inv /\ mapM (fun f => constant_regular me (cx c) (cy c) t D inv (x, snd (fwd p)) (map (map fill_zero) f)) (cfields c) = Ok cs.
Proof.
  intros Hk Ex Hx H. unfold interpolate_otis_regular in H. destruct (evenly_ends _ _ _ _ Ex Hx) as [E1 E2]. rewrite E1, E2 in H. cbn [bind] in H.
  destruct (batch geo x0 (x0 + INR (nx - 1) * dx) (map fwd lonlat)) as [pts|] eqn:Eb in H; [|discriminate]. cbn [bind] in H.
  destruct (mapM (outside_axes _ _) _) as [invs|] eqn:Ei in H; [|discriminate]. cbn [bind] in H.
  destruct (mapM (rregular _ _ _ _) _) as [ds|] eqn:Ed in H; [|discriminate]. cbn [bind] in H.
  assert (Eo : mapM (fun p => let '(q, (i, D)) := p in do cs <- mapM (fun f => constant_regular me (cx c) (cy c) t D i q (map (map fill_zero) f)) (cfields c) ;; Ok (D, cs)) (combine pts (combine invs ds)) = Ok out) by (destruct t; try discriminate Hk; exact H).
  pose proof (mapM_len _ _ _ Ei) as L1. pose proof (mapM_len _ _ _ Ed) as L2. pose proof (mapM_len _ _ _ Eo) as L3.
  pose proof (batch_len _ _ _ _ _ Eb) as L0. rewrite map_length in L0. split; [etransitivity; [exact L3|]; rewrite !combine_length, L1, L2; lia|]. intros n p x Hn C.
  assert (Hq : nth_error pts n = Some (x, snd (fwd p))) by (apply (batch_nth _ _ _ _ _ n (fwd p) x Eb); [now apply map_nth_error|now rewrite map_map]).
  destruct (mapM_nth _ _ _ _ _ Ei Hq) as (inv & I1 & I2). destruct (mapM_nth _ _ _ _ _ Ed Hq) as (D & D1 & D2).
  destruct (mapM_nth _ _ _ n ((x, snd (fwd p)), (inv, D)) Eo) as (r & R1 & R2); [now repeat apply nth_error_combine|].
  cbn beta iota in R1. match type of R1 with bind ?lhs _ = _ => destruct lhs as [cs|] eqn:Ec in R1; [|discriminate] end. cbn [bind] in R1. apply Ok_inj in R1 as <-.
  exists D, inv, cs. auto.
Qed.
Lemma refill_entry w (h : gcell (R * R)) (d : gcell R) : fst h <> None -> depth_entry w d ->
  fst (fill_zero (fst h, snd h || snd d)) = refilled w h.
Proof.
  intros Hn Hd. destruct h as [[[u v]|] m]; [|cbn in Hn; congruence]. unfold fill_zero, refilled, tide, depth_entry in *. cbn [fst snd].
  destruct w as [d'|].
  - destruct Hd as [-> _]. cbn [snd]. rewrite orb_false_r. destruct m; [reflexivity|]. unfold czero, cre, cim. cbn [fst snd]. unfold req.
    destruct (Req_EM_T u 0), (Req_EM_T v 0); reflexivity.
  - destruct Hd as [-> _]. rewrite orb_true_r. reflexivity.
Qed.
(** a field given node by node *)
Definition nodes {A} (ny nx : nat) (f : nat -> nat -> A) : list (list A) := map (fun j => map (f j) (seq 0 nx)) (seq 0 ny).
Lemma nodes_entry {A} (d : A) ny nx f j i : (j < ny)%nat -> (i < nx)%nat -> entry d (nodes ny nx f) j i = f j i.
Proof.
  intros Hj Hi. unfold entry, nodes. rewrite (nth_indep _ [] (map (f 0%nat) (seq 0 nx))) by now rewrite map_length, seq_length.
  rewrite (map_nth (fun j => map (f j) (seq 0 nx)) (seq 0 ny) 0%nat), seq_nth by auto. cbn [Nat.add].
  rewrite (nth_indep _ d (f j 0%nat)) by now rewrite map_length, seq_length. now rewrite (map_nth (f j) (seq 0 nx) 0%nat), seq_nth.
Qed.

(** ** C82: from the constituents that were read, linear: invalid and zero constants count
    as the fill value, and only the water around decides whether there is a result *)
Theorem C82_otis_again_linear : forall fwd geo around t k x0 dx nx y0 dy ny g hcs lonlat c out n p x y i j,
  model_grid geo around x0 dx nx y0 dy ny g hcs -> kind_of t = Some k -> (k = Zonal -> around = true) ->
  (forall hc, In hc hcs -> forall j i, (j < ny)%nat -> (i < nx)%nat -> fst (entry (None, true) hc j i) <> None) ->
  read_constants geo t g hcs = Ok c -> interpolate_otis_regular fwd geo Linear t c lonlat = Ok out ->
  nth_error lonlat n = Some p ->
  convention geo (node_x k x0 dx (first_column around)) (node_x k x0 dx (last_column around nx)) (map (fun p => fst (fwd p)) lonlat) (fst (fwd p)) x -> snd (fwd p) = y ->
  columns around nx i -> columns around nx (i + 1) -> (S j < ny)%nat ->
  bracket (i + 1 = last_column around nx)%Z (node_x k x0 dx i) (node_x k x0 dx (i + 1)) x ->
  bracket (S (S j) = ny) (node_y k y0 dy j) (node_y k y0 dy (S j)) y ->
  let w := water (entry 0 (ghz g)) (entry 0%Z (gmz g)) around nx k in
  let ws := corners k x0 dx y0 dy nx x y i j w in
  exists D cs, nth_error out n = Some (D, cs) /\ length cs = length hcs /\
    (complete ws -> D = (mean ws, false)) /\ (~ complete ws -> snd D = true) /\
    forall c hc, nth_error hcs c = Some hc ->
      let z := corners k x0 dx y0 dy nx x y i j (fun j i => refilled (w j i) (entry (None, true) hc j i)) in
      exists r, nth_error cs c = Some r /\
        (complete ws -> unfilled (both (mean (part fst z)) (mean (part snd z))) -> returned (velocity t) (mean ws) (both (mean (part fst z)) (mean (part snd z))) r) /\ (~ complete ws -> r = None).
Proof.
  intros fwd geo around t k x0 dx nx y0 dy ny g hcs lonlat cc out n p x y i j M Hk Hw Hv Hc H Hn Hc' Hq Ci Ci1 Hj Bx By w ws.
  destruct (read_total _ _ _ _ _ _ _ _ _ _ _ _ M Hk) as (xi & yi & b & fs & Er & Hxi & Hyi & Rb & Nb & Ef). rewrite Er in Hc. apply Ok_inj in Hc as <-.
  destruct M as (Ex & Ey & Hx & Hy & Rh & Rm & Rc & _).
  assert (N2 : (2 <= ncols around nx)%nat) by (unfold ncols; destruct around; lia).
  destruct (regular_again_inv fwd geo Linear t k (Cons xi yi b fs) _ _ _ lonlat out Hk Hxi N2 H) as [_ V].
  destruct (V n p x Hn) as (D & inv & cs & O1 & O2 & O3 & O4); [destruct (node_ends around k x0 dx nx Hx) as [<- <-]; exact Hc'|]. rewrite Hq in O2, O3, O4. cbn [cx cy cbath cfields] in O2, O3, O4.
  destruct (bracket_le _ _ _ _ Bx) as [Bx1 Bx2]. destruct (bracket_le _ _ _ _ By) as [By1 By2].
  assert (Lx : length xi = ncols around nx) by apply Hxi. assert (Ly : length yi = ny) by apply Hyi.
  assert (A1 : axis xi) by (eapply evenly_axis; eauto). assert (A2 : axis yi) by (eapply evenly_axis; eauto).
  assert (X0 : nth (ecol around i) xi 0 = node_x k x0 dx i) by (apply (ecol_x around k x0 dx nx xi i); auto).
  assert (X1 : nth (ecol around (i + 1)) xi 0 = node_x k x0 dx (i + 1)) by (apply (ecol_x around k x0 dx nx xi (i + 1)); auto).
  pose proof (ecol_lt around nx i Hx Ci) as Li. pose proof (ecol_lt around nx (i + 1) Hx Ci1) as Li1.
  assert (Xf : nth 0 xi 0 <= x) by (pose proof (axis_mono xi 0 (ecol around i) A1 ltac:(lia)); lra).
  assert (Yf : nth 0 yi 0 <= y) by (pose proof (axis_mono yi 0 j A2 ltac:(lia)); rewrite <- (node_y_nth k y0 dy ny yi j) in By1 by (auto; lia); lra).
  assert (Xl : x <= node_x k x0 dx (last_column around nx)).
  { rewrite <- (eastern_nth around k x0 dx nx xi Hxi Hx : _ = node_x k x0 dx (last_column around nx)). pose proof (axis_mono xi (ecol around (i + 1)) (length xi - 1) A1 ltac:(lia)). lra. }
  assert (Yl : y <= node_y k y0 dy (ny - 1)).
  { rewrite <- (node_y_nth k y0 dy ny yi (ny - 1)) by (auto; lia). pose proof (axis_mono yi (S j) (ny - 1) A2 ltac:(lia)). rewrite <- (node_y_nth k y0 dy ny yi (S j)) in By1 by (auto; lia). lra. }
  assert (Bo : boxed xi yi (x, y)).
  { unfold boxed. cbn [fst snd]. rewrite (eastern_nth around k x0 dx nx xi Hxi Hx : _ = node_x k x0 dx (last_column around nx)), Ly, (node_y_nth k y0 dy ny yi (ny - 1)) by (auto; lia). auto. }
  pose proof (spline_values around k x0 dx nx y0 dy ny w xi yi b x y i j Hxi Hyi Hx Hy Rb Nb Xf Yf Ci Ci1 Hj) as SV. cbv zeta in SV. rewrite !Rmin_right in SV by auto.
  destruct (SV Bx By (fun K => or_introl (Hw K))) as (D' & E1 & DC & DN & Vf). clear SV. fold ws in DC, DN.
  unfold rregular in O2. rewrite regular_linear in O2 by auto. unfold rspline in E1. rewrite E1 in O2. apply Ok_inj in O2 as <-.
  assert (inv = false) as ->.
  { unfold outside_axes in O3. rewrite (axis_min _ A1), (axis_max _ A1), (axis_min _ A2), (axis_max _ A2) in O3. cbn [bind fst snd] in O3. apply Ok_inj in O3 as <-.
    destruct Bo as [[B1 B2] [B3 B4]]. cbn [fst snd] in *. now rewrite !rlt_f by auto. }
  exists D', cs. split; [exact O1|]. split; [exact (eq_trans (mapM_len _ _ _ O4) (mapM_len _ _ _ Ef))|]. split; [apply DC|]. split; [exact DN|].
  intros c hc Hc z. destruct (fields_entries around ny nx b hcs fs Rb Hx Rc Ef c hc Hc) as (f & Hf & Rf & Nf).
  destruct (mapM_nth _ _ _ _ _ O4 Hf) as (r & Er' & Hr'). exists r. split; [exact Hr'|].
  assert (Sc : forall e, sound_column k around (col around nx e)) by (intros e; unfold sound_column; destruct k; auto).
  assert (Cl : forall e, (e < ncols around nx)%nat -> (col around nx e < nx)%nat) by (intros; apply col_lt; auto; lia).
  set (hc' := nodes ny nx (fun j i => (refilled (w j i) (entry (None, true) hc j i), snd (entry (None, true) hc j i)))).
  destruct (Vf hc' (map (map fill_zero) f)) as (v & m & Eh & Ez & _ & _).
  { now apply map_rect. }
  { intros j' i' Hj' Hi'. unfold hc'. rewrite nodes_entry by auto. cbn [fst]. unfold refilled. now destruct (tide _ _). }
  { intros j' e Hj' He. rewrite (map_entry fill_zero ny (ncols around nx) f (None, true)) by auto. unfold hc'. rewrite nodes_entry by auto. rewrite Nf by auto. cbn [fst snd].
    apply injective_projections; [exact (refill_entry _ _ (entry (None, true) b j' e) (Hv hc (nth_error_In _ _ Hc) j' (col around nx e) Hj' (Cl e He)) (Nb j' e Hj' He (Sc e)))|reflexivity]. }
  assert (Zr : both (mean (part fst z)) (mean (part snd z)) = Some v).
  { rewrite <- Ez. assert (E : z = corners k x0 dx y0 dy nx x y i j (fun j i => fst (entry (None, true) hc' j i))); [|now rewrite E].
    unfold z, corners, hc'. assert (C1 : (column nx i < nx)%nat) by (rewrite <- (ecol_col around) by auto; auto). assert (C2 : (column nx (i + 1) < nx)%nat) by (rewrite <- (ecol_col around) by auto; auto).
    rewrite !nodes_entry by lia. reflexivity. }
  rewrite Zr. clearbody z. unfold constant_regular, cregular in Er'. rewrite regular_linear in Er' by auto. unfold cspline in Eh.
  match type of Er' with bind ?lhs _ = _ => replace lhs with (Ok (Some v, m)) in Er' by (symmetry; exact Eh) end. cbn [bind] in Er'. apply Ok_inj in Er' as <-. split.
  - intros K Hu. destruct (DC K) as [-> Md]. destruct (mean ws) as [d|] eqn:Ed; [|congruence]. rewrite <- Ed. apply (regular_returned t (mean ws) v m d Ed Hu).
  - intros K. rewrite (DN K). now rewrite orb_true_r.
Qed.
Print Assumptions C82_otis_again_linear.

(** ** C82: from the constituents that were read, nearest: the constant of the nearest node,
    nothing where there is none *)
Theorem C82_otis_again_nearest : forall fwd geo around t k x0 dx nx y0 dy ny g hcs lonlat c out n p x y a b,
  model_grid geo around x0 dx nx y0 dy ny g hcs -> kind_of t = Some k ->
  read_constants geo t g hcs = Ok c -> interpolate_otis_regular fwd geo Nearest t c lonlat = Ok out ->
  nth_error lonlat n = Some p ->
  convention geo (node_x k x0 dx (first_column around)) (node_x k x0 dx (last_column around nx)) (map (fun p => fst (fwd p)) lonlat) (fst (fwd p)) x -> snd (fwd p) = y ->
  node_x k x0 dx (first_column around) <= x <= node_x k x0 dx (last_column around nx) -> node_y k y0 dy 0 <= y <= node_y k y0 dy (ny - 1) ->
  columns around nx a -> (b < ny)%nat -> nearest_node k x0 dx y0 dy x y a b -> (k = Zonal -> around = true \/ (0 < a)%Z) ->
  let w := water (entry 0 (ghz g)) (entry 0%Z (gmz g)) around nx k b (column nx a) in
  exists D cs, nth_error out n = Some (D, cs) /\ length cs = length hcs /\
    (if snd D then None else fst D) = w /\
    forall c hc, nth_error hcs c = Some hc ->
      let z := tide w (entry (None, true) hc b (column nx a)) in
      exists r, nth_error cs c = Some r /\ (unfilled z -> returned (velocity t) w z r).
Proof.
  intros fwd geo around t k x0 dx nx y0 dy ny g hcs lonlat cc out n p x y a b' M Hk Hc H Hn Hc' Hq Hbx Hby Ca Hb' [Na Nb'] HZ w.
  destruct (read_total _ _ _ _ _ _ _ _ _ _ _ _ M Hk) as (xi & yi & b & fs & Er & Hxi & Hyi & Rb & Nb & Ef). rewrite Er in Hc. apply Ok_inj in Hc as <-.
  destruct M as (Ex & Ey & Hx & Hy & Rh & Rm & Rc & _).
  assert (N2 : (2 <= ncols around nx)%nat) by (unfold ncols; destruct around; lia).
  destruct (regular_again_inv fwd geo Nearest t k (Cons xi yi b fs) _ _ _ lonlat out Hk Hxi N2 H) as [_ V].
  destruct (V n p x Hn) as (D & inv & cs & O1 & O2 & O3 & O4); [destruct (node_ends around k x0 dx nx Hx) as [<- <-]; exact Hc'|]. rewrite Hq in O2, O3, O4. cbn [cx cy cbath cfields] in O2, O3, O4.
  assert (Lx : length xi = ncols around nx) by apply Hxi. assert (Ly : length yi = ny) by apply Hyi.
  assert (A1 : axis xi) by (eapply evenly_axis; eauto). assert (A2 : axis yi) by (eapply evenly_axis; eauto).
  assert (Bo : boxed xi yi (x, y)) by now apply (nodes_boxed around k x0 dx nx y0 dy ny).
  assert (inv = false) as ->.
  { unfold outside_axes in O3. rewrite (axis_min _ A1), (axis_max _ A1), (axis_min _ A2), (axis_max _ A2) in O3. cbn [bind fst snd] in O3. apply Ok_inj in O3 as <-.
    destruct Bo as [[B1 B2] [B3 B4]]. cbn [fst snd] in *. now rewrite !rlt_f by auto. }
  pose proof (ecol_lt around nx a Hx Ca) as La.
  assert (Na' : node_x k (if around then x0 - dx else x0) dx 0 + INR (ecol around a) * dx - dx / 2 < x <= node_x k (if around then x0 - dx else x0) dx 0 + INR (ecol around a) * dx + dx / 2).
  { pose proof (ecol_x around k x0 dx nx xi a Hxi Hx Ca) as E. destruct Hxi as (_ & _ & Hxi). rewrite Hxi in E by auto. rewrite E. exact Na. }
  assert (Nb2 : node_y k y0 dy 0 + INR b' * dy - dy / 2 < y <= node_y k y0 dy 0 + INR b' * dy + dy / 2).
  { pose proof (node_y_nth k y0 dy ny yi b' Hyi Hb') as E. destruct Hyi as (_ & _ & Hyi). rewrite Hyi in E by auto. rewrite E. exact Nb'. }
  assert (Sc : sound_column k around (col around nx (ecol around a))).
  { unfold sound_column. destruct k; auto. destruct (HZ eq_refl) as [Ha|Ha]; auto. destruct around; auto. right. rewrite ecol_col by auto. unfold column, columns in *. rewrite Z.mod_small by lia. lia. }
  pose proof (Nb b' (ecol around a) Hb' La Sc) as De. rewrite ecol_col in De by auto. fold w in De.
  unfold rregular in O2. rewrite (regular_nearest 0 Rplus Rmult (node_x k (if around then x0 - dx else x0) dx 0) dx (ncols around nx) xi (node_y k y0 dy 0) dy ny yi b x y (ecol around a) b' (None, true)) in O2 by auto.
  apply Ok_inj in O2. assert (Dw : depth_entry w D) by (rewrite <- O2; exact De). pose proof De as De'. clear O2. unfold depth_entry in Dw. clearbody w. exists D, cs. split; [exact O1|]. split; [exact (eq_trans (mapM_len _ _ _ O4) (mapM_len _ _ _ Ef))|].
  split.
  { destruct w as [d|]; destruct Dw as [Dw _]; rewrite Dw; reflexivity. }
  intros c hc Hc z. destruct (fields_entries around ny nx b hcs fs Rb Hx Rc Ef c hc Hc) as (f & Hf & Rf & Nf).
  destruct (mapM_nth _ _ _ _ _ O4 Hf) as (r & Er' & Hr'). exists r. split; [exact Hr'|]. intros Hu.
  unfold constant_regular, cregular in Er'.
  rewrite (regular_nearest (0, 0) cadd cscale (node_x k (if around then x0 - dx else x0) dx 0) dx (ncols around nx) xi (node_y k y0 dy 0) dy ny yi (map (map fill_zero) f) x y (ecol around a) b' (None, true)) in Er' by (auto; now apply map_rect).
  cbn [bind] in Er'. rewrite (map_entry fill_zero ny (ncols around nx) f (None, true)) in Er' by auto. rewrite Nf, ecol_col in Er' by auto. apply Ok_inj in Er' as <-.
  unfold z in *. clear z. destruct (entry (None, true) hc b' (column nx a)) as [h m]. cbn [fst snd].
  destruct w as [d|].
  - destruct Dw as [-> _]. destruct De' as [E _]. match goal with |- context [m || ?s] => replace s with false by (symmetry; exact (f_equal snd E)) end. rewrite orb_false_r.
    destruct m.
    { unfold fill_zero. cbn [fst snd]. rewrite is_fill_t. cbn [orb]. unfold tide. destruct h as [[]|]; reflexivity. }
    cbn [orb]. destruct h as [[u v]|]; [|reflexivity]. unfold fill_zero, tide in *. cbn [fst snd] in *.
    assert (Z : czero (u, v) = if Req_EM_T u 0 then if Req_EM_T v 0 then true else false else false) by (unfold czero, cre, cim, req; cbn [fst snd]; destruct (Req_EM_T u 0), (Req_EM_T v 0); reflexivity).
    rewrite Z. clear Z. revert Hu. destruct (Req_EM_T u 0) as [E1|E1]; [destruct (Req_EM_T v 0) as [E2|E2]|]; intros Hu.
    + rewrite is_fill_t. reflexivity.
    + pose proof (regular_returned t (Some d) (u, v) false d eq_refl Hu) as Q. cbn [fst snd] in Q. rewrite !orb_false_r in *. exact Q.
    + pose proof (regular_returned t (Some d) (u, v) false d eq_refl Hu) as Q. cbn [fst snd] in Q. rewrite !orb_false_r in *. exact Q.
  - destruct Dw as [-> _]. rewrite orb_true_r. cbn [orb]. unfold tide. reflexivity.
Qed.
Print Assumptions C82_otis_again_nearest.

(** ** Constants that are zero: interpolated linearly by extraction, but as the fill value
    by interpolation of the constituents that were read *)
Definition pond_still (m : bool) : field := [[(Some (0, 0), m); (Some (1, 0), false)]; [(Some (1, 0), false); (Some (1, 0), false)]].
Lemma still_model m : model_grid false false 0 1 2 0 1 2 pond [pond_still m].
Proof.
  destruct (pond_model m) as (H1 & H2 & H3 & H4 & H5 & H6 & _ & H7). unfold model_grid. repeat (split; [assumption|]). split; [|exact H7].
  intros hc [<-|[]]. split; [reflexivity|]. intros r [<-|[<-|[]]]; reflexivity.
Qed.
Lemma still_numbers m : forall hc, In hc [pond_still m] -> forall j i, (j < 2)%nat -> (i < 2)%nat -> fst (entry (None, true) hc j i) <> None.
Proof. intros hc [<-|[]] j i Hj Hi. destruct j as [|[|]]; try lia; destruct i as [|[|]]; try lia; discriminate. Qed.
Lemma pond_water j i : (j < 2)%nat -> (i < 2)%nat -> water (entry 0 (ghz pond)) (entry 0%Z (gmz pond)) false 2 Heights j i = Some 10.
Proof. intros Hj Hi. unfold water. cbn [ghz gmz pond]. rewrite !flat_entry by auto. destruct (Req_EM_T 10 0); [lra|reflexivity]. Qed.
Lemma abs_real u a ph : amplitude_phase (u, 0) a ph -> 0 <= u -> a = u.
Proof.
  intros (A1 & A2 & A3 & A4) Hu. cbn [fst snd] in A3, A4. assert (a * a = u * u); [|nra].
  pose proof (sin2_cos2 (ph * PI / 180)) as Q. unfold Rsqr in Q. set (C := cos _) in *. set (Sn := sin _) in *.
  replace (a * a) with (a * a * (Sn * Sn + C * C)) by (rewrite Q; ring). replace (a * a * (Sn * Sn + C * C)) with ((a * C) * (a * C) + (- (a * Sn)) * (- (a * Sn))) by ring. rewrite <- A3, <- A4. ring.
Qed.
Lemma pond_complete : complete (corners Heights 0 1 0 1 2 (1 / 2) (1 / 2) 0 0 (water (entry 0 (ghz pond)) (entry 0%Z (gmz pond)) false 2 Heights)).
Proof. intros q Hq _. unfold corners in Hq. change (column 2 0) with 0%nat in Hq. change (column 2 (0 + 1)) with 1%nat in Hq. rewrite !pond_water in Hq by lia. destruct Hq as [<-|[<-|[<-|[<-|[]]]]]; discriminate. Qed.
Lemma four_mean a b c d : mean (corners Heights 0 1 0 1 2 (1 / 2) (1 / 2) 0 0 (fun j i => match j, i with O, O => Some a | O, _ => Some b | _, O => Some c | _, _ => Some d end)) = Some ((a + b + c + d) / 4).
Proof.
  unfold corners. change (column 2 0) with 0%nat. change (column 2 (0 + 1)) with 1%nat. unfold mean, weight, total, node_x, node_y. cbn [map fst snd fold_right Z.add INR].
  destruct (Req_EM_T _ 0) as [E|_]; [lra|]. f_equal. field.
Qed.
Lemma pond_mean : mean (corners Heights 0 1 0 1 2 (1 / 2) (1 / 2) 0 0 (water (entry 0 (ghz pond)) (entry 0%Z (gmz pond)) false 2 Heights)) = Some 10.
Proof.
  unfold corners. change (column 2 0) with 0%nat. change (column 2 (0 + 1)) with 1%nat. rewrite !pond_water by lia. unfold mean, weight, total, node_x, node_y. cbn [map fst snd fold_right Z.add INR].
  destruct (Req_EM_T _ 0) as [E|_]; [lra|]. f_equal. field.
Qed.
Lemma still_extract m : exists D ph, extract_otis_regular here false Linear Vz pond [pond_still m] [(1 / 2, 1 / 2)] = Ok [(D, [Some (3 / 4, ph)])].
Proof.
  pose proof (still_model m) as M. destruct (C82_otis_returns here false false Linear Vz Heights 0 1 2 0 1 2 pond [pond_still m] [(1 / 2, 1 / 2)] M eq_refl) as (out & Eo & Lo); [discriminate|discriminate|].
  destruct (C82_otis_linear here false false Vz Heights 0 1 2 0 1 2 pond [pond_still m] [(1 / 2, 1 / 2)] out 0 (1 / 2, 1 / 2) (1 / 2) (1 / 2) 0 0 M eq_refl (still_numbers m) Eo eq_refl) as (D & cs & O1 & O2 & _ & _ & O3).
  { now apply projected. } { reflexivity. } { unfold reach. cbn. lra. } { unfold in_rows. cbn. lra. } { cbn; lia. } { cbn; lia. } { lia. }
  { left. unfold node_x. cbn [Z.add]. lra. } { left. unfold node_y. cbn [INR]. lra. } { discriminate. }
  destruct (O3 0%nat _ eq_refl) as (r & R1 & _ & R2 & _). cbv zeta in R2. destruct (R2 pond_complete) as [_ R3]. clear R2 O3.
  match type of R3 with unfilled ?z -> _ => assert (Ez : z = Some (3 / 4, 0)) end.
  { unfold part, corners. change (column 2 0) with 0%nat. change (column 2 (0 + 1)) with 1%nat. unfold entry. cbn [nth pond_still map fst snd option_map].
    unfold both, mean, weight, total, node_x, node_y. cbn [map fst snd fold_right Z.add INR]. destruct (Req_EM_T _ 0) as [E|_]; [lra|]. f_equal. f_equal; field. }
  rewrite Ez in R3. destruct R3 as (a & ph & Ha & Er); [intros E; injection E as E; lra|]. rewrite (abs_real (3 / 4) a ph Ha) in Er by lra. exists D, ph. rewrite Eo. f_equal.
  apply (one_result out D cs); auto. rewrite R1, Er. rewrite pond_mean. reflexivity.
Qed.
(** zeros of the file count as the fill value once the constituents have been read *)
Theorem C82_otis_zero_refuted :
  exists g hcs p D D' c a ph a' ph', model_grid false false 0 1 2 0 1 2 g hcs /\
    (forall hc, In hc hcs -> forall j i, (j < 2)%nat -> (i < 2)%nat -> snd (entry (None, true) hc j i) = false) /\
    extract_otis_regular here false Linear Vz g hcs [p] = Ok [(D, [Some (a, ph)])] /\ a = 3 / 4 /\
    read_constants false Vz g hcs = Ok c /\ interpolate_otis_regular here false Linear Vz c [p] = Ok [(D', [Some (a', ph')])] /\ a' = 100000000000000000000 / 4 + 3 / 4.
Proof.
  pose proof (still_model false) as M. destruct (still_extract false) as (D & ph & E1).
  destruct (read_total _ _ _ _ _ _ _ _ _ _ _ _ M (eq_refl : kind_of Vz = Some Heights)) as (xi & yi & b & fs & Er & Hxi & Hyi & Rb & _ & Ef).
  set (c := Cons xi yi b fs) in *. set (p := (1 / 2, 1 / 2)) in *.
  assert (exists out', interpolate_otis_regular here false Linear Vz c [p] = Ok out') as (out' & E2).
  { unfold interpolate_otis_regular, c. cbn [cx cy cbath cfields]. assert (A1 : axis xi) by (eapply evenly_axis; eauto; unfold ncols; lia). assert (A2 : axis yi) by (eapply evenly_axis; eauto; lia).
    rewrite (axis_min _ A1), (axis_max _ A1). cbn [bind]. assert (Eb : forall lo hi, batch false lo hi (map here [p]) = Ok [p]) by reflexivity. rewrite Eb. cbn [bind].
    assert (Lx : length xi = 2%nat) by apply Hxi. assert (Ly : length yi = 2%nat) by apply Hyi.
    destruct (mapM_total (outside_axes xi yi) [p]) as (invs & ->); [intros; now apply outside_total|]. cbn [bind].
    destruct (mapM_total (rregular Linear xi yi b) [p]) as (ds & ->); [intros q _; apply regular_total; auto; [discriminate|rewrite Lx, Ly; exact Rb]|]. cbn [bind].
    apply points_total. intros q i D0 Hin. apply mapM_total. intros f Hf. apply In_nth_error in Hf as (c0 & Hf).
    destruct M as (_ & _ & Hx & Hy & _ & _ & Rc & _).
    assert (Hcl : (c0 < length [pond_still false])%nat) by (eapply Nat.lt_le_trans; [apply nth_error_Some; rewrite Hf; discriminate|exact (Nat.eq_le_incl _ _ (mapM_len _ _ _ Ef))]).
    destruct (nth_error [pond_still false] c0) as [hc|] eqn:Eh; [|apply nth_error_None in Eh; lia].
    destruct (fields_entries false 2 2 b [pond_still false] fs Rb Hx Rc Ef c0 hc Eh) as (f' & Hf' & Rf & _). assert (f' = f) as -> by (pose proof (eq_trans (eq_sym Hf') Hf) as Q; now injection Q).
    unfold constant_regular, cregular. destruct (regular_total (0, 0) cadd cscale Linear xi yi (map (map fill_zero) f) q) as (h & Eh'); auto; [discriminate|rewrite Lx, Ly; now apply map_rect|].
    match goal with |- exists _, bind ?lhs _ = _ => replace lhs with (Ok h) by (symmetry; exact Eh') end. cbn [bind]. eauto. }
  destruct (C82_otis_again_linear here false false Vz Heights 0 1 2 0 1 2 pond [pond_still false] [p] c out' 0 p (1 / 2) (1 / 2) 0 0 M eq_refl) as (D' & cs & O1 & O2 & _ & _ & O3); auto; try (cbn; lia).
  { discriminate. } { apply still_numbers. } { now apply projected. }
  { left. unfold node_x. cbn [Z.add]. lra. } { left. unfold node_y. cbn [INR]. lra. }
  destruct (O3 0%nat _ eq_refl) as (r & R1 & R2 & _). specialize (R2 pond_complete). cbv zeta in R2. clear O3.
  match type of R2 with unfilled ?z -> _ => assert (Ez : z = Some (100000000000000000000 / 4 + 3 / 4, 0)) end.
  { unfold corners. change (column 2 0) with 0%nat. change (column 2 (0 + 1)) with 1%nat. rewrite !pond_water by lia. unfold entry, refilled, tide. cbn [nth pond_still].
    destruct (Req_EM_T 0 0) as [_|N]; [|lra]. destruct (Req_EM_T 1 0); [lra|]. unfold part. cbn [map fst snd option_map].
    unfold both, mean, weight, total, node_x, node_y. cbn [map fst snd fold_right Z.add INR]. destruct (Req_EM_T _ 0) as [E|_]; [lra|]. f_equal. f_equal; field. }
  rewrite Ez in R2. destruct R2 as (a & ph' & Ha & Er'); [intros E; injection E as E; lra|]. pose proof (abs_real _ a ph' Ha ltac:(lra)) as Ea.
  exists pond, [pond_still false], p, D, D', c, (3 / 4), ph, a, ph'. split; [exact M|].
  split; [intros hc [<-|[]] j i Hj Hi; destruct j as [|[|]]; try lia; destruct i as [|[|]]; try lia; reflexivity|]. split; [exact E1|]. split; [reflexivity|]. split; [exact Er|]. split; [|exact Ea].
  rewrite E2. f_equal. apply (one_result out' D' cs); auto.
  - destruct (regular_again_inv here false Linear Vz Heights c _ _ _ [p] out' eq_refl Hxi ltac:(unfold ncols; lia) E2) as [L _]. exact L.
  - rewrite R1, Er', pond_mean. reflexivity.
Qed.
Print Assumptions C82_otis_zero_refuted.
(** a constant masked in the file is interpolated as the number under its mask *)
Theorem C82_otis_mask_refuted :
  exists g hcs p D a ph, model_grid false false 0 1 2 0 1 2 g hcs /\
    (forall hc, In hc hcs -> snd (entry (None, true) hc 0 0) = true) /\
    extract_otis_regular here false Linear Vz g hcs [p] = Ok [(D, [Some (a, ph)])] /\ a = 3 / 4.
Proof.
  destruct (still_extract true) as (D & ph & E). exists pond, [pond_still true], (1 / 2, 1 / 2), D, (3 / 4), ph. split; [apply still_model|]. split; [intros hc [<-|[]]; reflexivity|]. auto.
Qed.
Print Assumptions C82_otis_mask_refuted.
