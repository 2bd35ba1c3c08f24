(** C82: OTIS models with the methods linear and nearest: points outside, when constants
    are returned, and reading the constants first. *)
From Coq Require Import Reals List Bool Arith ZArith Lra Lia.
From Verif Require Import PyBase RBase MathModel GeoModel ConvertProps GridModel InterpModel InterpProps ExtractModel ExtractSpec NodeProps ExtractProofs ExtractProps SplineProps ReadProps ReturnProps SeriesModel SeriesProps3 AtlasNcModel RegularModel RegularSpec RegularProofs RegularProps4.
From Verif Require RegularProps RegularProps3.
From Verif Require MaskModel.
Import ListNotations.
Open Scope R_scope.

(** ** C82: nothing is returned outside of the model and beyond the nodes of the variable *)
Theorem C82_otis_outside : forall fwd geo around me t k x0 dx nx y0 dy ny g hcs lonlat out n p x,
  model_grid geo around x0 dx nx y0 dy ny g hcs -> kind_of t = Some k ->
  extract_otis_regular fwd geo me t g hcs lonlat = Ok out -> nth_error lonlat n = Some p ->
  convention geo x0 (x0 + INR (nx - 1) * dx) (map (fun p => fst (fwd p)) lonlat) (fst (fwd p)) x ->
  ~ in_rows y0 dy ny (fwd p) \/ ~ reach around x0 dx nx x \/
  node_x k x0 dx (last_column around nx) < x \/ node_y k y0 dy (ny - 1) < snd (fwd p) ->
  exists D cs, nth_error out n = Some (D, cs) /\ length cs = length hcs /\ forall c r, nth_error cs c = Some r -> r = None.
Proof.
  intros fwd geo around me t k x0 dx nx y0 dy ny g hcs lonlat out n p x M Hk H Hn C Ho.
  destruct (regular_otis_inv _ _ _ _ _ _ _ _ _ _ _ _ _ _ _ _ M Hk H) as (xe & xi & yi & b & fs & Hxe & Hxi & Hyi & Rb & Nb & Ef & _ & V).
  destruct (V n p x Hn C) as (D & inv & cs & O1 & O2 & O3 & O4). exists D, cs. split; auto. split; [now rewrite (mapM_len _ _ _ O4), (mapM_len _ _ _ Ef)|].
  destruct M as (Ex & Ey & Hx & Hy & _).
  assert (N2 : (2 <= ncols around nx)%nat) by (unfold ncols; destruct around; lia).
  assert (A1 : axis xi) by (eapply evenly_axis; eauto). assert (A2 : axis yi) by (eapply evenly_axis; eauto).
  assert (K : snd D = true \/ inv = true).
  { destruct Ho as [Ho|[Ho|Ho]].
    - right. rewrite (outside_value around x0 dx nx y0 dy ny) in O3; auto. now apply Ok_inj in O3 as <-.
    - right. rewrite (outside_value around x0 dx nx y0 dy ny) in O3; auto. now apply Ok_inj in O3 as <-.
    - left. assert (Bo : ~ boxed xi yi (x, snd (fwd p))) by (rewrite (nodes_boxed around k x0 dx nx y0 dy ny) by auto; lra). unfold rregular in O2. destruct me.
      + rewrite regular_outside in O2 by (auto; discriminate). now apply Ok_inj in O2 as <-.
      + rewrite regular_outside in O2 by (auto; discriminate). now apply Ok_inj in O2 as <-.
      + exfalso. unfold gregular_point in O2. destruct (negb _); [discriminate|]. destruct (outside_axes _ _ _); discriminate. }
  intros c r Hc. assert (Lt : (c < length fs)%nat) by (rewrite <- (mapM_len _ _ _ O4); apply nth_error_Some; congruence).
  destruct (nth_error fs c) as [f|] eqn:E; [|apply nth_error_None in E; lia].
  destruct (mapM_nth _ _ _ _ _ O4 E) as (r' & E1 & E2). assert (r' = r) as -> by congruence. unfold constant_regular in E1.
  destruct (cregular _ _ _ _ _) as [h|]; [|discriminate]. cbn [bind] in E1. apply Ok_inj in E1 as <-. destruct K as [-> | ->]; rewrite ?orb_true_r; reflexivity.
Qed.
Print Assumptions C82_otis_outside.

(** ** C82: extraction succeeds for any points; a method of another name is refused *)
Theorem C82_otis_returns : forall fwd geo around me t k x0 dx nx y0 dy ny g hcs lonlat,
  model_grid geo around x0 dx nx y0 dy ny g hcs -> kind_of t = Some k -> lonlat <> [] -> me <> Unknown ->
  exists out, extract_otis_regular fwd geo me t g hcs lonlat = Ok out /\ length out = length lonlat.
Proof.
  intros fwd geo around me t k x0 dx nx y0 dy ny g hcs lonlat M Hk Hne Hme.
  assert (Go : exists out, extract_otis_regular fwd geo me t g hcs lonlat = Ok out).
  { pose proof (around_test _ _ _ _ _ _ _ _ _ _ M) as Ha. destruct (around_axis _ _ _ _ _ _ _ _ _ _ M) as (xe & Exe & Hxe).
    destruct M as (Ex & Ey & Hx & Hy & Rh & Rm & Rc & _).
    unfold extract_otis_regular. rewrite (evenly_spacing x0 dx nx), (evenly_spacing y0 dy ny) by auto. cbn [bind].
    destruct (evenly_ends x0 dx nx (gx g) Ex Hx) as [-> ->]. cbn [bind].
    destruct (batch_total geo x0 (x0 + INR (nx - 1) * dx) (map fwd lonlat)) as (pts & Eb & _); [destruct lonlat; [congruence|discriminate]|].
    rewrite Eb. cbn [bind]. rewrite Ha, Exe. cbn [bind].
    assert (N2 : (2 <= ncols around nx)%nat) by (unfold ncols; destruct around; lia).
    assert (Ae : axis xe) by (eapply evenly_axis; eauto). assert (Ay : axis (gy g)) by (eapply evenly_axis; eauto).
    destruct (mapM_total (outside_axes xe (gy g)) pts) as (invs & Ei); [intros; now apply outside_total|]. rewrite Ei. cbn [bind].
    destruct (layer_entries around dx dy x0 y0 xe (gy g) g t k ny nx Hk Rh Rm Hy Hx Hxe Ey) as (xi & yi & b & El & Hxi & Hyi & Rb & Nb).
    rewrite El. cbn [bind]. assert (Axi : axis xi) by (eapply evenly_axis; eauto). assert (Ayi : axis yi) by (eapply evenly_axis; eauto).
    assert (Lx : length xi = ncols around nx) by apply Hxi. assert (Ly : length yi = ny) by apply Hyi.
    assert (Rb' : rect (length yi) (length xi) b) by (rewrite Lx, Ly; auto).
    destruct (mapM_total (rregular me xi yi b) pts) as (ds & Ed); [intros q _; now apply regular_total|].
    rewrite Ed. cbn [bind]. destruct (fields_total around ny nx b hcs Rb Hx Rc) as (fs & Ef). rewrite Ef. cbn [bind].
    apply points_total. intros q i D Hin. apply mapM_total. intros f Hf. apply In_nth_error in Hf as (c & Hf).
    assert (Hcl : (c < length hcs)%nat) by (eapply Nat.lt_le_trans; [apply nth_error_Some; rewrite Hf; discriminate|exact (Nat.eq_le_incl _ _ (mapM_len _ _ _ Ef))]).
    destruct (nth_error hcs c) as [hc|] eqn:Eh; [|apply nth_error_None in Eh; lia].
    destruct (fields_entries around ny nx b hcs fs Rb Hx Rc Ef c hc Eh) as (f' & Hf' & Rf & _). assert (f' = f) as -> by congruence.
    assert (Rf' : rect (length yi) (length xi) f) by (rewrite Lx, Ly; auto).
    unfold constant_regular, cregular. destruct (regular_total (0, 0) cadd cscale me xi yi f q Hme Axi Ayi Rf') as (h & Eh').
    match goal with |- exists _, bind ?lhs _ = _ => replace lhs with (Ok h) by (symmetry; exact Eh') end. cbn [bind]. eauto. }
  destruct Go as (out & E). exists out. split; [exact E|].
  destruct (regular_otis_inv _ _ _ _ _ _ _ _ _ _ _ _ _ _ _ _ M Hk E) as (xe & xi & yi & b & fs & _ & _ & _ & _ & _ & _ & L & _). exact L.
Qed.
Print Assumptions C82_otis_returns.
Theorem C82_otis_unknown : forall fwd geo t g hcs lonlat out, lonlat <> [] -> extract_otis_regular fwd geo Unknown t g hcs lonlat <> Ok out.
Proof.
  intros fwd geo t g hcs lonlat out Hne H. unfold extract_otis_regular in H.
  destruct (spacing (gx g)); [|discriminate]. cbn [bind] in H. destruct (spacing (gy g)); [|discriminate]. cbn [bind] in H.
  destruct (amin (gx g)) as [lo|]; [|discriminate]. cbn [bind] in H. destruct (amax (gx g)) as [hi|]; [|discriminate]. cbn [bind] in H.
  destruct (batch geo lo hi (map fwd lonlat)) as [pts|] eqn:Eb; [|discriminate]. cbn [bind] in H. apply batch_len in Eb. rewrite map_length in Eb.
  match type of H with bind ?m _ = _ => destruct m as [xe|]; [|discriminate] end. cbn [bind] in H.
  match type of H with bind ?m _ = _ => destruct m as [inv|]; [|discriminate] end. cbn [bind] in H.
  match type of H with bind ?m _ = _ => destruct m as [[[xi yi] b]|]; [|discriminate] end. cbn [bind] in H.
  destruct pts as [|q t']; [destruct lonlat; [congruence|discriminate]|].
  cbn [mapM] in H. unfold rregular at 1, gregular_point in H. destruct (negb _); [discriminate|]. destruct (outside_axes _ _ _); discriminate.
Qed.
Print Assumptions C82_otis_unknown.

(** ** Where no zero and no invalid value counts, filling changes nothing *)
Lemma rect_ext {A} (d : A) ny nx m m' : rect ny nx m -> rect ny nx m' -> (forall j i, (j < ny)%nat -> (i < nx)%nat -> entry d m j i = entry d m' j i) -> m = m'.
Proof.
  intros [L1 R1] [L2 R2] H. apply (nth_ext _ _ [] []); [lia|]. intros j Hj.
  assert (K1 : length (nth j m []) = nx) by (apply R1, nth_In; auto). assert (K2 : length (nth j m' []) = nx) by (apply R2, nth_In; lia).
  apply (nth_ext _ _ d d); [lia|]. intros i Hi. apply H; lia.
Qed.
Lemma fill_same : forall c : gcell (R * R), (snd c = false -> fst c <> Some (0, 0)) -> fill_zero c = filled Spline c.
Proof.
  intros [[z|] m] Hz; unfold fill_zero, filled; cbn [fst snd] in *; destruct m; try reflexivity.
  destruct (czero z) eqn:K; [|reflexivity]. exfalso. apply Hz; auto. unfold czero in K. apply andb_prop in K as [K1 K2]. unfold req in K1, K2.
  destruct (Req_EM_T (cre z) 0); [|discriminate]. destruct (Req_EM_T (cim z) 0); [|discriminate]. destruct z as [u v]. unfold cre, cim in *. cbn [fst snd] in *. now subst.
Qed.
Lemma constant_same me t D i xi yi b f q : axis xi -> axis yi -> rect (length yi) (length xi) f -> rect (length yi) (length xi) b ->
  map (map snd) f = map (map snd) b ->
  (forall j e, (j < length yi)%nat -> (e < length xi)%nat -> snd (entry (None, true) f j e) = false -> fst (entry (None, true) f j e) <> Some (0, 0)) ->
  (me = Linear -> forall j e, (j < length yi)%nat -> (e < length xi)%nat -> fst (entry (None, true) f j e) <> None) ->
  rregular me xi yi b q = Ok D ->
  constant_regular me xi yi t D i q (map (map fill_zero) f) = constant_regular me xi yi t D i q f.
Proof.
  intros A1 A2 Rf Rb Em Hz Hn HD.
  assert (E : map (map fill_zero) f = map (map (filled Spline)) f).
  { apply (rect_ext (None, true) (length yi) (length xi)); [now apply map_rect|now apply map_rect|]. intros j e Hj He.
    rewrite (map_entry fill_zero (length yi) (length xi) f (None, true)), (map_entry (filled Spline) (length yi) (length xi) f (None, true)) by auto.
    exact (fill_same (entry (None, true) f j e) (Hz j e Hj He)). }
  rewrite E. clear E Hz.
  assert (S1 : (do h <- cregular me xi yi f q ;; Ok (settled Spline 1 false h)) = (do h <- cregular me xi yi (map (map (filled Spline)) f) q ;; Ok (settled Spline 1 false h))) by now apply RegularProps3.regular_settled.
  assert (Ms : forall fd h, map (map snd) fd = map (map snd) b -> cregular me xi yi fd q = Ok h -> snd h = snd D).
  { intros fd h Ef Eh. unfold cregular, rregular in *. destruct me.
    - destruct (boxed_dec xi yi q) as [B|B].
      + rewrite regular_linear in Eh by auto. rewrite regular_linear in HD by auto. exact (spline_mask _ _ _ _ _ _ _ _ _ _ _ _ _ Ef Eh HD).
      + rewrite regular_outside in Eh by (auto; discriminate). rewrite regular_outside in HD by (auto; discriminate). apply Ok_inj in Eh as <-. apply Ok_inj in HD as <-. reflexivity.
    - unfold gregular_point in *. destruct (negb _); [discriminate|]. destruct (outside_axes xi yi q) as [[]|]; try discriminate; cbn [bind] in *.
      + apply Ok_inj in Eh as <-. apply Ok_inj in HD as <-. reflexivity.
      + destruct (MaskModel.nearer xi (fst q)) as [ix|]; [|discriminate]. cbn [bind] in *. destruct (MaskModel.nearer yi (snd q)) as [iy|]; [|discriminate]. cbn [bind] in *.
        unfold gget2 in *. clear - Ef Eh HD.
        assert (Q : forall (A : Type) (m : list (list (gcell A))) c, (do r <- get1 m iy ;; get1 r ix) = Ok c -> get1 (map (map snd) m) iy = Ok (map snd (nth iy m [])) /\ get1 (map snd (nth iy m [])) ix = Ok (snd c)).
        { intros A m c Hc. destruct (get1 m iy) as [r|] eqn:E1; [|discriminate]. cbn [bind] in Hc. assert (E2 : r = nth iy m []).
          { unfold get1 in E1. destruct (nth_error m iy) eqn:E0; [|discriminate]. apply Ok_inj in E1 as <-. symmetry. now apply nth_error_nth. }
          rewrite <- E2. rewrite !get1_map. change (@get1 (list (option A * bool)) m iy) with (@get1 (list (gcell A)) m iy). rewrite E1. change (@get1 (option A * bool) r ix) with (@get1 (gcell A) r ix). rewrite Hc. auto. }
        apply Q in Eh as [Q1 Q2]. apply Q in HD as [Q3 Q4]. rewrite Ef, Q3 in Q1. apply Ok_inj in Q1. rewrite Q1 in Q4. rewrite Q2 in Q4. now apply Ok_inj in Q4.
    - unfold gregular_point in Eh. destruct (negb _); [discriminate|]. destruct (outside_axes _ _ _); discriminate. }
  assert (Em' : map (map snd) (map (map (filled Spline)) f) = map (map snd) b).
  { rewrite <- Em, map_map. apply map_ext. intros r. rewrite map_map. apply map_ext. intros [v []]; reflexivity. }
  unfold constant_regular. pose proof (Ms f) as M1. specialize (Ms (map (map (filled Spline)) f)).
  destruct (cregular me xi yi f q) as [h|], (cregular me xi yi (map (map (filled Spline)) f) q) as [h'|]; cbn [bind] in *; try discriminate; [|congruence].
  specialize (M1 h Em eq_refl). specialize (Ms h' Em' eq_refl). apply Ok_inj in S1. f_equal. rewrite <- M1 in *. unfold settled in S1. rewrite orb_false_r in S1. rewrite Ms, orb_false_r in S1.
  destruct h as [v m], h' as [v' m']. cbn [fst snd] in *. subst m'. destruct m; [now rewrite !orb_true_r|].
  assert (v' = v) as ->; [|reflexivity]. destruct v as [z|], v' as [z'|]; try discriminate; auto. injection S1 as S1 S2. rewrite !Rmult_1_r in S1. f_equal.
  apply (RegularProps2.amplitude_phase_one z' z (cabs z') (phase_of z')); [apply phase_of_spec|]. rewrite <- S1, <- S2. apply phase_of_spec.
Qed.
Lemma in_combine_value {A B C} (f : A -> res C) l : forall (inv : list B) ds q i D, mapM f l = Ok ds -> In (q, (i, D)) (combine l (combine inv ds)) -> f q = Ok D.
Proof.
  induction l as [|a l IH]; intros inv ds q i D H Hin; [destruct Hin|]. cbn [mapM] in H. destruct (f a) as [c|] eqn:E; [|discriminate]. cbn [bind] in H.
  destruct (mapM f l) as [ds'|] eqn:El; [|discriminate]. cbn [bind] in H. apply Ok_inj in H as <-. destruct inv as [|b inv]; [destruct Hin|]. cbn [combine] in Hin.
  destruct Hin as [K|Hin]; [injection K as <- <- <-; exact E|]. eapply IH; eauto.
Qed.

(** where both agree on the points and on which of them are outside, extraction and
    interpolation of the constants read return the same *)
Lemma read_same_regular fwd geo around me t k x0 dx nx y0 dy ny g hcs lonlat c :
  model_grid geo around x0 dx nx y0 dy ny g hcs -> kind_of t = Some k -> (k = Zonal -> around = true) ->
  (forall hc, In hc hcs -> forall j i, (j < ny)%nat -> (i < nx)%nat -> water (entry 0 (ghz g)) (entry 0%Z (gmz g)) around nx k j i <> None ->
    snd (entry (None, true) hc j i) = false /\ fst (entry (None, true) hc j i) <> Some (0, 0)) ->
  (me = Linear -> forall hc, In hc hcs -> forall j i, (j < ny)%nat -> (i < nx)%nat -> fst (entry (None, true) hc j i) <> None) ->
  read_constants geo t g hcs = Ok c ->
  (forall lo hi, amin (cx c) = Ok lo -> amax (cx c) = Ok hi -> batch geo lo hi (map fwd lonlat) = batch geo x0 (x0 + INR (nx - 1) * dx) (map fwd lonlat)) ->
  (forall pts q, batch geo x0 (x0 + INR (nx - 1) * dx) (map fwd lonlat) = Ok pts -> In q pts ->
    forall xe, evenly (if around then x0 - dx else x0) dx (ncols around nx) xe -> outside_axes (cx c) (cy c) q = outside_axes xe (gy g) q) ->
  interpolate_otis_regular fwd geo me t c lonlat = extract_otis_regular fwd geo me t g hcs lonlat.
Proof.
  intros M Hk Hw Hm Hnum Hc HB HI. pose proof M as M0.
  pose proof (around_test _ _ _ _ _ _ _ _ _ _ M) as Ha. destruct (around_axis _ _ _ _ _ _ _ _ _ _ M) as (xe & Exe & Hxe).
  destruct M as (Ex & Ey & Hx & Hy & Rh & Rm & Rc & _).
  destruct (layer_entries around dx dy x0 y0 xe (gy g) g t k ny nx Hk Rh Rm Hy Hx Hxe Ey) as (xi & yi & b & El & Hxi & Hyi & Rb & Nb).
  destruct (fields_total around ny nx b hcs Rb Hx Rc) as (fs & Ef).
  pose proof (read_inv _ _ _ _ _ _ _ _ _ _ _ _ _ _ _ _ _ M0 Exe El Ef Hc) as ->. clear Hc M0. cbn [cx cy] in *.
  assert (N2 : (2 <= ncols around nx)%nat) by (unfold ncols; destruct around; lia).
  assert (A1 : axis xi) by (eapply evenly_axis; eauto). assert (A2 : axis yi) by (eapply evenly_axis; eauto).
  assert (Lx : length xi = ncols around nx) by apply Hxi. assert (Ly : length yi = ny) by apply Hyi.
  unfold interpolate_otis_regular, extract_otis_regular. cbn [cx cy cbath cfields].
  rewrite (evenly_spacing x0 dx nx), (evenly_spacing y0 dy ny) by auto. cbn [bind].
  destruct (evenly_ends x0 dx nx (gx g) Ex Hx) as [-> ->]. cbn [bind].
  rewrite (axis_min _ A1), (axis_max _ A1) in *. cbn [bind]. rewrite (HB _ _ eq_refl eq_refl). clear HB.
  destruct (batch geo x0 (x0 + INR (nx - 1) * dx) (map fwd lonlat)) as [pts|] eqn:Eb; [|reflexivity]. cbn [bind].
  rewrite Ha, Exe. cbn [bind]. rewrite (mapM_ext_in (outside_axes xi yi) (outside_axes xe (gy g))) by (intros q Hq; exact (HI pts q eq_refl Hq xe Hxe)).
  destruct (mapM (outside_axes xe (gy g)) pts) as [inv|]; [|reflexivity]. cbn [bind]. rewrite El. cbn [bind].
  destruct (mapM (rregular me xi yi b) pts) as [ds|] eqn:Ed; [|reflexivity]. cbn [bind]. rewrite Ef. cbn [bind].
  assert (Ht : t <> Vother) by (destruct t; discriminate).
  assert (Hz : forall (T : variable), T <> Vother -> forall (X : Type) (u v : res X), match T with Vother => u | _ => v end = v) by (intros []; congruence).
  rewrite Hz by auto. apply mapM_ext_in. intros [q [i D]] Hin. pose proof (in_combine_value _ _ _ _ _ _ _ Ed Hin) as HD.
  f_equal. apply mapM_ext_in. intros f Hf. apply In_nth_error in Hf as (ci & Hf).
  assert (Hci : (ci < length hcs)%nat) by (eapply Nat.lt_le_trans; [apply nth_error_Some; rewrite Hf; discriminate|exact (Nat.eq_le_incl _ _ (mapM_len _ _ _ Ef))]).
  destruct (nth_error hcs ci) as [hc|] eqn:Eh; [|apply nth_error_None in Eh; lia]. apply nth_error_In in Eh as Hhc.
  destruct (fields_entries around ny nx b hcs fs Rb Hx Rc Ef ci hc Eh) as (f' & Hf' & Rf & Nf). assert (f' = f) as -> by (pose proof (eq_trans (eq_sym Hf') Hf) as Q; now injection Q).
  assert (Sc : forall e, sound_column k around (col around nx e)) by (intros e; unfold sound_column; destruct k; auto).
  assert (Cl : forall e, (e < ncols around nx)%nat -> (col around nx e < nx)%nat) by (intros; apply col_lt; auto; lia).
  apply (constant_same me t D i xi yi b f q); auto; try (rewrite Lx, Ly; auto; fail).
  - apply (mask_ext ny (ncols around nx)); auto. intros j e Hj He. rewrite Nf by auto. cbn [snd].
    destruct (snd (entry (None, true) hc j (col around nx e))) eqn:Sh; [|reflexivity]. cbn [orb]. symmetry. specialize (Nb j e Hj He (Sc e)). specialize (Hm hc Hhc j (col around nx e) Hj (Cl e He)).
    unfold depth_entry in Nb. destruct (water _ _ _ _ _ _ _); [destruct Hm as [Hm _]; [discriminate|congruence]|]. apply Nb.
  - rewrite Lx, Ly. intros j e Hj He. rewrite Nf by auto. cbn [fst snd]. intros K. apply orb_false_elim in K as [_ K]. specialize (Nb j e Hj He (Sc e)). specialize (Hm hc Hhc j (col around nx e) Hj (Cl e He)).
    unfold depth_entry in Nb. destruct (water _ _ _ _ _ _ _); [apply Hm; discriminate|]. destruct Nb as [Nb _]. exfalso. change (snd (entry (None, true) b j e) = true) in Nb. congruence.
  - intros Kl. rewrite Lx, Ly. intros j e Hj He. rewrite Nf by auto. cbn [fst]. apply (Hnum Kl); auto.
Qed.

(** ** C82: reading the constants first gives the same, if no constant of the water is
    masked or zero: heights *)
Theorem C82_otis_read_heights : forall fwd geo around me x0 dx nx y0 dy ny g hcs lonlat c,
  model_grid geo around x0 dx nx y0 dy ny g hcs ->
  (around = true -> forall p, In p lonlat -> in_span x0 dx nx (fwd p)) ->
  (forall hc, In hc hcs -> forall j i, (j < ny)%nat -> (i < nx)%nat -> water (entry 0 (ghz g)) (entry 0%Z (gmz g)) around nx Heights j i <> None ->
    snd (entry (None, true) hc j i) = false /\ fst (entry (None, true) hc j i) <> Some (0, 0)) ->
  (me = Linear -> forall hc, In hc hcs -> forall j i, (j < ny)%nat -> (i < nx)%nat -> fst (entry (None, true) hc j i) <> None) ->
  read_constants geo Vz g hcs = Ok c ->
  interpolate_otis_regular fwd geo me Vz c lonlat = extract_otis_regular fwd geo me Vz g hcs lonlat.
Proof.
  intros fwd geo around me x0 dx nx y0 dy ny g hcs lonlat c M Hp Hm Hnum Hc.
  destruct (read_total _ _ _ _ _ _ _ _ _ _ _ _ M (eq_refl : kind_of Vz = Some Heights)) as (xi & yi & b & fs & Er & Ax & Ay & _). pose proof Hc as Hc'. rewrite Er in Hc'. apply Ok_inj in Hc' as <-.
  assert (Nx : (2 <= nx)%nat) by apply M. assert (Ny : (2 <= ny)%nat) by apply M. assert (Hdx : 0 < dx) by apply M. assert (Ey : evenly y0 dy ny (gy g)) by apply M.
  assert (N2 : (2 <= ncols around nx)%nat) by (unfold ncols; destruct around; lia).
  destruct (evenly_ends _ _ _ _ Ax N2) as [Lo Hi]. unfold node_x in Lo, Hi. replace (_ + 0 * dx) with (if around then x0 - dx else x0) in Lo, Hi by lra.
  eapply (read_same_regular fwd geo around me Vz Heights); eauto; cbn [cx cy]; [discriminate| |].
  - intros lo hi E1 E2. rewrite Lo in E1. rewrite Hi in E2. apply Ok_inj in E1 as <-. apply Ok_inj in E2 as <-.
    destruct around; [|reflexivity]. destruct lonlat as [|p0 l]; [reflexivity|].
    rewrite !batch_none; auto; try discriminate; intros _ q Hq; apply in_map_iff in Hq as (p & <- & Hin); destruct (Hp eq_refl p Hin) as [P1 P2]; cbn [ncols]; assert (K : INR (nx + 2 - 1) = INR (nx - 1) + 2) by (replace (nx + 2 - 1)%nat with (S (S (nx - 1))) by lia; rewrite !S_INR; lra); rewrite ?K; split; lra.
  - intros pts q _ _ xe Hxe. unfold outside_axes. rewrite Lo, Hi. destruct (evenly_ends _ _ _ _ Hxe N2) as [-> ->].
    destruct (evenly_ends _ _ _ _ Ay Ny) as [-> ->]. destruct (evenly_ends _ _ _ _ Ey Ny) as [-> ->]. cbn [bind]. unfold node_y. cbn [INR]. now replace (y0 + 0 * dy) with y0 by lra.
Qed.
Print Assumptions C82_otis_read_heights.
(** all the variables, for points within the model and within the nodes of the variable *)
Theorem C82_otis_read_inside : forall fwd geo around me t k x0 dx nx y0 dy ny g hcs lonlat c,
  model_grid geo around x0 dx nx y0 dy ny g hcs -> kind_of t = Some k -> (k = Zonal -> around = true) ->
  (forall p, In p lonlat -> in_span x0 dx nx (fwd p) /\ in_rows y0 dy ny (fwd p) /\
     fst (fwd p) <= node_x k x0 dx (last_column around nx) /\ snd (fwd p) <= node_y k y0 dy (ny - 1)) ->
  (forall hc, In hc hcs -> forall j i, (j < ny)%nat -> (i < nx)%nat -> water (entry 0 (ghz g)) (entry 0%Z (gmz g)) around nx k j i <> None ->
    snd (entry (None, true) hc j i) = false /\ fst (entry (None, true) hc j i) <> Some (0, 0)) ->
  (me = Linear -> forall hc, In hc hcs -> forall j i, (j < ny)%nat -> (i < nx)%nat -> fst (entry (None, true) hc j i) <> None) ->
  read_constants geo t g hcs = Ok c ->
  interpolate_otis_regular fwd geo me t c lonlat = extract_otis_regular fwd geo me t g hcs lonlat.
Proof.
  intros fwd geo around me t k x0 dx nx y0 dy ny g hcs lonlat c M Hk Hw Hp Hm Hnum Hc.
  destruct (read_total _ _ _ _ _ _ _ _ _ _ _ _ M Hk) as (xi & yi & b & fs & Er & Ax & Ay & _). pose proof Hc as Hc'. rewrite Er in Hc'. apply Ok_inj in Hc' as <-.
  assert (Nx : (2 <= nx)%nat) by apply M. assert (Ny : (2 <= ny)%nat) by apply M. assert (Hdx : 0 < dx) by apply M. assert (Ey : evenly y0 dy ny (gy g)) by apply M.
  assert (Hdy : 0 < dy) by apply Ey.
  assert (N2 : (2 <= ncols around nx)%nat) by (unfold ncols; destruct around; lia).
  destruct (evenly_ends _ _ _ _ Ax N2) as [Lo Hi].
  assert (HiE : node_x k (if around then x0 - dx else x0) dx 0 + INR (ncols around nx - 1) * dx = node_x k x0 dx (last_column around nx)).
  { unfold node_x, ncols, last_column. destruct around.
    - replace (nx + 2 - 1)%nat with (S nx) by lia. rewrite S_INR, INR_IZR_INZ. destruct k; lra.
    - rewrite minus_IZR, <- INR_IZR_INZ, minus_INR by lia. cbn [INR]. destruct k; lra. }
  assert (LoE : node_x k (if around then x0 - dx else x0) dx 0 <= x0) by (unfold node_x; destruct around, k; lra).
  rewrite HiE in Hi.
  assert (YhE : node_y k y0 dy 0 + INR (ny - 1) * dy = node_y k y0 dy (ny - 1)) by (unfold node_y; cbn [INR]; destruct k; lra).
  assert (YlE : node_y k y0 dy 0 <= y0) by (unfold node_y; cbn [INR]; destruct k; lra).
  destruct (evenly_ends _ _ _ _ Ay Ny) as [La Ha]. rewrite YhE in Ha.
  assert (Bt : batch geo x0 (x0 + INR (nx - 1) * dx) (map fwd lonlat) = match lonlat with [] => Err ValueError | _ => Ok (map fwd lonlat) end).
  { destruct lonlat as [|p0 l]; [unfold batch; destruct geo; reflexivity|]. apply batch_none; [discriminate|]. intros _ q Hq. apply in_map_iff in Hq as (p & <- & Hin). apply (Hp p Hin). }
  eapply (read_same_regular fwd geo around me t k); eauto; cbn [cx cy].
  - intros lo hi E1 E2. rewrite Lo in E1. rewrite Hi in E2. apply Ok_inj in E1 as <-. apply Ok_inj in E2 as <-. rewrite Bt.
    destruct lonlat as [|p0 l]; [unfold batch; destruct geo; reflexivity|]. apply batch_none; [discriminate|]. intros _ q Hq. apply in_map_iff in Hq as (p & <- & Hin).
    destruct (Hp p Hin) as ([P1 P2] & _ & P3 & _). split; lra.
  - intros pts q Eb Hq xe Hxe. rewrite Bt in Eb. assert (pts = map fwd lonlat) as -> by (destruct lonlat; [discriminate|now apply Ok_inj in Eb]).
    apply in_map_iff in Hq as (p & <- & Hin). destruct (Hp p Hin) as (P1 & P2 & P3 & P4).
    rewrite (inside_valid around x0 dx nx y0 dy ny xe (gy g) (fwd p)) by (auto; now apply span_reach).
    unfold outside_axes. rewrite Lo, Hi, La, Ha. cbn [bind]. destruct P1 as [P1 _], P2 as [P2 _]. now rewrite !rlt_f by lra.
Qed.
Print Assumptions C82_otis_read_inside.
