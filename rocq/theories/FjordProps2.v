(** C91: which constants are filled in when constituents that were read are interpolated,
    and from which nodes. *)
From Coq Require Import Reals List Bool Arith ZArith Lra Lia.
From Verif Require Import PyBase RBase MathModel GeoModel ConvertProps GridModel InterpModel InterpProps ExtrapProps ExtractModel ExtractSpec NodeProps ExtractProofs ExtractProps SplineProps ReadProps ReturnProps SeriesModel SeriesProps3 RegularModel RegularProps5 CropModel ShoreModel ShoreSpec ShoreProofs CoastModel CoastSpec CoastProofs CoastProps CoastProps2 FjordModel FjordSpec FjordProofs FjordProps.
Import ListNotations.
Open Scope R_scope.

Definition on_regular (w : way) : bool := match w with Regular _ => true | _ => false end.
Lemma czero_is (z : cpx) : czero z = true <-> z = (0, 0).
Proof.
  destruct z as [u v]. unfold czero, cre, cim. cbn [fst snd]. unfold req. destruct (Req_EM_T u 0) as [->|N1]; [|cbn; split; [discriminate | intros E; congruence]].
  destruct (Req_EM_T v 0) as [->|N2]; cbn; split; auto; [discriminate | intros E; congruence].
Qed.
Lemma tide_is w (u v : R) m : tide w (Some (u, v), m) = match w with Some _ => if m then None else if czero (u, v) then None else Some (u, v) | None => None end.
Proof.
  unfold tide. destruct w; [|reflexivity]. destruct m; [reflexivity|]. unfold czero, cre, cim. cbn [fst snd]. unfold req. destruct (Req_EM_T u 0), (Req_EM_T v 0); reflexivity.
Qed.
Lemma tide_nan w m : tide w (None, m) = None. Proof. unfold tide. destruct w; [|reflexivity]. destruct m; reflexivity. Qed.
Lemma offered_refill w wt (c : gcell cpx) : tide wt (refill w c) = offered (on_regular w) wt c.
Proof.
  destruct c as [[[u v]|] m].
  - unfold offered. rewrite tide_is. destruct w as [me|me]; cbn [on_regular refill fst snd].
    + rewrite tide_is. destruct wt; [|reflexivity]. destruct m; [reflexivity|]. destruct (czero (u, v)); reflexivity.
    + destruct wt as [d|]; [|destruct (czero (u, v)); [unfold fill_number|]; rewrite tide_is; reflexivity].
      destruct (czero (u, v)) eqn:K; [unfold fill_number|]; rewrite tide_is.
      * assert (Nz : czero (100000000000000000000, 0) = false). { destruct (czero (100000000000000000000, 0)) eqn:E; auto. apply czero_is in E. injection E as E. lra. }
        rewrite Nz. destruct m; reflexivity.
      * rewrite K. destruct m; reflexivity.
  - unfold offered. rewrite tide_nan. replace (refill w (None, m)) with ((None : option cpx), m) by (destruct w; reflexivity). rewrite tide_nan. destruct wt, m; reflexivity.
Qed.
Lemma outside_nodes (around : bool) k x0 dx nx y0 dy ny xi yi q inv :
  evenly (node_x k (if around then x0 - dx else x0) dx 0) dx (ncols around nx) xi -> evenly (node_y k y0 dy 0) dy ny yi -> (2 <= nx)%nat -> (2 <= ny)%nat ->
  outside_axes xi yi q = Ok inv -> (inv = true <-> off_nodes around k x0 dx nx y0 dy ny (fst q) (snd q)).
Proof.
  intros Hx Hy Nx Ny H. unfold outside_axes in H. destruct (node_ends around k x0 dx nx Nx) as [F L].
  destruct (evenly_ends _ _ _ _ Hx) as [E1 E2]; [unfold ncols; destruct around; lia|]. destruct (evenly_ends _ _ _ _ Hy) as [E3 E4]; auto. rewrite E1, E2, E3, E4 in H. cbn [bind] in H.
  assert (YhE : node_y k y0 dy 0 + INR (ny - 1) * dy = node_y k y0 dy (ny - 1)) by (unfold node_y; cbn [INR]; destruct k; lra).
  rewrite <- L, <- F, YhE in H. apply Ok_inj in H as <-. unfold off_nodes. set (a := node_x k x0 dx (first_column around)). set (b := node_x k x0 dx (last_column around nx)). set (u := node_y k y0 dy 0). set (v := node_y k y0 dy (ny - 1)).
  unfold rlt. destruct (Rlt_dec (fst q) a), (Rlt_dec b (fst q)), (Rlt_dec (snd q) u), (Rlt_dec v (snd q)); cbn; split; intros K; try discriminate; auto;
    try (left; lra); try (right; lra); destruct K as [K|K]; exfalso; apply K; lra.
Qed.

(** ** The constants with extrapolation compared to those without *)
Theorem C91_filled : forall fwd geo around w t k x0 dx nx y0 dy ny g hcs lonlat cutoff c depths cols n p x ci hc,
  match cutoff with Some d => 0 <= d | None => True end ->
  model_grid geo around x0 dx nx y0 dy ny g hcs -> kind_of t = Some k -> (k = Zonal -> around = true) ->
  w = Quick Bilinear \/ (forall j i, (j < ny)%nat -> (i < nx)%nat -> fst (entry (None, true) hc j i) <> None) ->
  read_constants geo t g hcs = Ok c ->
  interpolate_extrapolated fwd geo w t (Some cutoff) c lonlat = Ok (depths, cols) ->
  nth_error lonlat n = Some p -> nth_error hcs ci = Some hc ->
  convention geo (node_x k x0 dx (first_column around)) (node_x k x0 dx (last_column around nx)) (map (fun p => fst (fwd p)) lonlat) (fst (fwd p)) x ->
  let z := fun j i => offered (match w with Regular _ => true | _ => false end) (water (entry 0 (ghz g)) (entry 0%Z (gmz g)) around nx k j i) (entry (None, true) hc j i) in
  exists cols0 cs0 cs D r0 r,
    interpolate_extrapolated fwd geo w t None c lonlat = Ok (depths, cols0) /\
    nth_error depths n = Some D /\ length depths = length lonlat /\ length cols = length hcs /\
    nth_error cols0 ci = Some cs0 /\ nth_error cs0 n = Some r0 /\ nth_error cols ci = Some cs /\ length cs = length lonlat /\ nth_error cs n = Some r /\
    (r0 <> None -> r = r0) /\
    (off_nodes around k x0 dx nx y0 dy ny x (snd (fwd p)) -> r = None) /\
    (~ off_nodes around k x0 dx nx y0 dy ny x (snd (fwd p)) -> r0 = None ->
       (exists j i, closest_node geo cutoff k x0 dx nx y0 dy ny z (fwd p) j i /\
          refetched (velocity t) D (z j i) r) \/
       (~ exists j i, close_node geo cutoff k x0 dx nx y0 dy ny z (fwd p) j i) /\ r = None).
Proof.
  intros fwd geo around w t k x0 dx nx y0 dy ny g hcs lonlat cutoff c ds cols n p x ci hc Hcut M Hk HZ Nw Hc H Hn Hhc Cv z.
  destruct (read_state _ _ _ _ _ _ _ _ _ _ _ _ _ M Hk Hc) as (Hxi & Hyi & A1 & A2 & Rb & Ab & Fb & Nb & Lf & Sf).
  destruct (Sf ci hc Hhc) as (f & Hf & Rf & Nf).
  pose proof (fun x => proj2 (C91_errors fwd geo w t cutoff c lonlat x)) as Noerr.
  destruct (interpolate_extrapolated fwd geo w t None c lonlat) as [[ds0 cols0]|e0] eqn:H0; [|rewrite (Noerr e0 eq_refl) in H; discriminate]. clear Noerr.
  assert (N2 : (2 <= ncols around nx)%nat) by (destruct M as (_ & _ & Hx & _); unfold ncols; destruct around; lia).
  unfold interpolate_extrapolated in H, H0. destruct (evenly_ends _ _ _ _ Hxi N2) as [E1 E2]. rewrite E1, E2 in H, H0. cbn [bind] in H, H0.
  pose proof M as (Ex & Ey & Hx & Hy & Rh & Rm & Rc & Ga).
  destruct (node_ends around k x0 dx nx Hx) as [F1 F2]. rewrite <- F2, <- F1 in H, H0.
  destruct (batch geo _ _ (map fwd lonlat)) as [pts|] eqn:Eb in H; [|discriminate]. rewrite Eb in H0. cbn [bind] in H, H0.
  destruct (mapM (outside_axes (cx c) (cy c)) pts) as [invs|] eqn:Ei; [|discriminate]. cbn [bind] in H, H0.
  destruct (mapM (depth_again w (cx c) (cy c) (cbath c)) pts) as [dd|] eqn:Ed; [|discriminate]. cbn [bind] in H, H0.
  match type of H with bind ?m _ = _ => destruct m as [o|] eqn:Eo; [|discriminate] end. cbn [bind] in H.
  match type of H0 with bind ?m _ = _ => destruct m as [o0|] eqn:Eo0; [|discriminate] end. cbn [bind] in H0.
  apply Ok_inj in H. apply Ok_inj in H0. injection H as -> ->. injection H0 as <- ->.
  pose proof (mapM_len _ _ _ Ei) as L1. pose proof (mapM_len _ _ _ Ed) as L2. pose proof (mapM_len _ _ _ Eo) as L3.
  pose proof (batch_len _ _ _ _ _ Eb) as L'. rewrite map_length in L'.
  assert (Hq : nth_error pts n = Some (x, snd (fwd p))) by (apply (batch_nth _ _ _ _ _ n (fwd p) x Eb); [now apply map_nth_error | now rewrite map_map]).
  destruct (mapM_nth _ _ _ _ _ Ei Hq) as (inv & I1 & I2). destruct (mapM_nth _ _ _ _ _ Ed Hq) as (D & D1 & D2).
  destruct (mapM_nth _ _ _ _ _ Eo Hf) as (cs & C1 & C2). destruct (mapM_nth _ _ _ _ _ Eo0 Hf) as (cs0 & C3 & C4).
  assert (Hp : nth_error (combine pts (combine invs ds)) n = Some ((x, snd (fwd p)), (inv, D))) by now repeat apply nth_error_combine.
  destruct (values_again_nth _ _ _ _ _ _ _ _ _ _ _ _ _ C1 Hp) as (h & Eh & _ & V). destruct (V cutoff eq_refl) as (near & queries & En & Iq & R1). clear V.
  destruct (values_again_nth _ _ _ _ _ _ _ _ _ _ _ _ _ C3 Hp) as (h0 & Eh0 & V0 & _). specialize (V0 eq_refl). assert (h0 = h) by congruence. subst h0.
  assert (Lp : length (combine pts (combine invs ds)) = length pts) by (rewrite !combine_length; lia).
  pose proof (values_again_len _ _ _ _ _ _ _ _ _ C1) as Lc.
  set (wt := water (entry 0 (ghz g)) (entry 0%Z (gmz g)) around nx k) in *.
  assert (Nb' : forall j e, (j < ny)%nat -> (e < ncols around nx)%nat -> depth_entry (wt j (col around nx e)) (entry (None, true) (cbath c) j e)).
  { intros j e Hj He. apply Nb; auto. unfold sound_column. destruct k; auto. }
  pose proof (outside_nodes around k x0 dx nx y0 dy ny _ _ _ inv Hxi Hyi Hx Hy I1) as Off. cbn [fst snd] in Off.
  assert (Nn : masked_again w D h = false -> fst h <> None).
  { intros Mh. apply (constant_number w (cx c) (cy c) f (cbath c) (x, snd (fwd p)) h D); auto. destruct Nw as [->|Nw]; [now left|]. right. exact (all_of_field around ny nx hc f (cbath c) Hx Rf Nw Nf). }
  assert (Nd : masked_again w D h = false -> fst D <> None) by exact (spot_number _ _ _ _ _ _ _ _ _ _ _ _ _ w f _ D h M Hk Hc (nth_error_In _ _ Hf) D1 Eh).
  exists cols0, cs0, cs, D, (value_again t inv D (h, masked_again w D h)), (value_again t inv D (if masked_again w D h then reply geo cutoff (x, snd (fwd p)) near else (h, false))).
  split; [reflexivity|]. split; [exact D2|]. split; [lia|]. split; [lia|]. split; [exact C4|]. split; [exact V0|]. split; [exact C2|]. split; [lia|]. split; [exact R1|].
  split. { destruct (masked_again w D h); [|reflexivity]. unfold value_again at 1. cbn [fst snd orb]. congruence. }
  split. { intros O. apply Off in O. subst inv. unfold value_again. rewrite orb_true_r. reflexivity. }
  intros O F. assert (Hinv : inv = false) by (destruct inv; auto; exfalso; apply O; now apply Off). subst inv.
  destruct (masked_again w D h) eqn:Mh.
  2:{ exfalso. unfold value_again in F. cbn [fst snd orb] in F. specialize (Nn eq_refl). specialize (Nd eq_refl). destruct (fst h) as [v|]; [|congruence]. unfold divided_again in F.
      destruct t; try discriminate; destruct (snd D); try discriminate; destruct (fst D); congruence. }
  assert (Round : around = true -> geo = true /\ INR nx * dx = 360) by (intros ->; destruct Ga as [(_ & G & E)|[G _]]; [auto | discriminate]).
  assert (Sw : forall j i, close_node geo cutoff k x0 dx nx y0 dy ny z (x, snd (fwd p)) j i <-> close_node geo cutoff k x0 dx nx y0 dy ny z (fwd p) j i).
  { intros j i. unfold close_node. rewrite (placed_apart geo _ _ _ _ _ _ _ Cv). rewrite <- surjective_pairing. reflexivity. }
  set (hc' := map (map (refill w)) (hc : field)). set (f' := map (map (refill w)) (f : field)).
  assert (Rc' : rect ny nx hc) by (apply Rc; eapply nth_error_In; eauto).
  assert (Lt : forall e, (e < ncols around nx)%nat -> (col around nx e < nx)%nat) by (intros e He; apply col_lt; auto; lia).
  assert (Rs : forall cl, refill w cl = (fst (refill w cl), snd cl)) by (intros [a b]; destruct w; reflexivity).
  assert (Fs : forall (cl : gcell cpx) m, fst (refill w (fst cl, m)) = fst (refill w cl)) by (intros [a b] m; destruct w; reflexivity).
  assert (Nf' : forall j e, (j < ny)%nat -> (e < ncols around nx)%nat ->
    entry (None, true) f' j e = (fst (entry (None, true) hc' j (col around nx e)), snd (entry (None, true) hc' j (col around nx e)) || snd (entry (None, true) (cbath c) j e))).
  { intros j e Hj He. unfold f', hc'. rewrite (map_entry (refill w) ny (ncols around nx) f (None, true)) by auto. rewrite (map_entry (refill w) ny nx hc (None, true)) by auto.
    pose proof (Nf j e Hj He) as Q. transitivity (refill w (fst (entry (None, true) hc j (col around nx e)), snd (entry (None, true) hc j (col around nx e)) || snd (entry (None, true) (cbath c) j e))); [f_equal; exact Q|].
    rewrite Rs. cbn [snd]. f_equal; [apply Fs|]. f_equal. rewrite Rs. reflexivity. }
  assert (Zs : forall j i, (j < ny)%nat -> (i < nx)%nat -> tide (wt j i) (entry (None, true) hc' j i) = z j i).
  { intros j i Hj Hi. unfold hc'. rewrite (map_entry (refill w) ny nx hc (None, true)) by auto. exact (offered_refill w (wt j i) (entry (None, true) hc j i)). }
  assert (Cs : forall q j i, close_node geo cutoff k x0 dx nx y0 dy ny (fun j i => tide (wt j i) (entry (None, true) hc' j i)) q j i <-> close_node geo cutoff k x0 dx nx y0 dy ny z q j i).
  { intros q j i. unfold close_node. split; intros (J1 & J2 & J3 & J4); (split; [exact J1|]; split; [exact J2|]; split; [|exact J4]); [rewrite <- (Zs j i J1 J2) | rewrite (Zs j i J1 J2)]; exact J3. }
  rewrite nodes_refill in En. fold f' in En.
  assert (Rf' : rect ny (ncols around nx) f') by now apply map_rect.
  destruct (reply_spec geo around k x0 dx y0 dy nx ny (cx c) (cy c) wt (cbath c) hc' f' Hx Hxi Hyi Round Rf' Nb' Nf' cutoff (x, snd (fwd p)) queries near Hcut (Iq eq_refl) En) as [(j & i & [Cl Mn] & ->) | [No ->]].
  - left. exists j, i. apply Cs in Cl. pose proof Cl as (J1 & J2 & Z0 & _). rewrite (Zs j i J1 J2). split.
    + split; [now apply Sw|]. intros j' i' Cl'. apply Sw in Cl'. apply Cs in Cl'. specialize (Mn j' i' Cl'). rewrite !(placed_apart geo _ _ _ _ _ _ _ Cv), <- surjective_pairing in Mn. exact Mn.
    + unfold value_again. cbn [fst snd orb]. destruct (z j i) as [v|] eqn:Ez; [|congruence].
      exists v, (cabs v), (phase_of v). split; [reflexivity|]. split; [destruct v; apply phase_of_spec|]. unfold divided_again, velocity. destruct D as [d m]. cbn [fst snd].
      destruct t, m, d; reflexivity.
  - right. split; [|reflexivity]. intros (j & i & Cl). apply No. exists j, i. apply Cs. now apply Sw.
Qed.
Print Assumptions C91_filled.
