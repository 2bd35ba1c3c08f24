(** C85: which constants are filled in, and from which nodes. *)
From Coq Require Import Reals List Bool Arith ZArith Lra Lia.
From Verif Require Import PyBase RBase MathModel GeoModel ConvertProps GridModel InterpModel InterpProps ExtrapProps ExtractModel ExtractSpec NodeProps ExtractProofs ExtractProps SplineProps ReturnProps SeriesModel RegularModel CropModel ShoreModel ShoreSpec ShoreProofs CoastModel CoastSpec CoastProofs CoastProps.
Import ListNotations.
Open Scope R_scope.

(** everything extraction computes for a point and a constituent, with and without *)
Lemma coast_inv fwd geo around w t k x0 dx nx y0 dy ny g hcs lonlat cutoff ds cols :
  model_grid geo around x0 dx nx y0 dy ny g hcs -> kind_of t = Some k ->
  extract_extrapolated fwd geo w t (Some cutoff) g hcs lonlat = Ok (ds, cols) ->
  exists xe xi yi b cols0 pts,
    extract_extrapolated fwd geo w t None g hcs lonlat = Ok (ds, cols0) /\
    evenly (if around then x0 - dx else x0) dx (ncols around nx) xe /\
    evenly (node_x k (if around then x0 - dx else x0) dx 0) dx (ncols around nx) xi /\
    evenly (node_y k y0 dy 0) dy ny yi /\ rect ny (ncols around nx) b /\
    (forall j e, (j < ny)%nat -> (e < ncols around nx)%nat -> sound_column k around (col around nx e) ->
      depth_entry (water (entry 0 (ghz g)) (entry 0%Z (gmz g)) around nx k j (col around nx e)) (entry (None, true) b j e)) /\
    batch geo x0 (x0 + INR (nx - 1) * dx) (map fwd lonlat) = Ok pts /\ length ds = length pts /\ length cols = length hcs /\
    forall n q, nth_error pts n = Some q -> exists D inv, nth_error ds n = Some D /\ depth_by w xi yi b q = Ok D /\ outside_axes xe (gy g) q = Ok inv /\
      forall c hc, nth_error hcs c = Some hc -> exists f h cs0 cs near queries, rect ny (ncols around nx) f /\
        (forall j e, (j < ny)%nat -> (e < ncols around nx)%nat ->
          entry (None, true) f j e = (fst (entry (None, true) hc j (col around nx e)), snd (entry (None, true) hc j (col around nx e)) || snd (entry (None, true) b j e))) /\
        constant_by w xi yi f q = Ok h /\ nth_error cols0 c = Some cs0 /\ nth_error cols c = Some cs /\ length cs0 = length pts /\ length cs = length pts /\
        nth_error cs0 n = Some (value_at t inv D (h, masked_by w D h)) /\
        near = filter (fun n => sound (snd n) && in_bounds (coords_of geo) cutoff queries (fst n)) (mesh_of geo xi yi (drop_invalid f)) /\ (masked_by w D h = true -> In (place geo q) queries) /\
        nth_error cs n = Some (value_at t inv D (if masked_by w D h then reply geo cutoff q near else (h, false))).
Proof.
  intros M Hk H. pose proof (around_test _ _ _ _ _ _ _ _ _ _ M) as Ha. destruct (around_axis _ _ _ _ _ _ _ _ _ _ M) as (xe & Exe & Hxe).
  pose proof (fun x => proj2 (C85_errors fwd geo w t cutoff g hcs lonlat x)) as Noerr.
  destruct (extract_extrapolated fwd geo w t None g hcs lonlat) as [[ds0 cols0]|e0] eqn:H0; [|rewrite (Noerr e0 eq_refl) in H; discriminate]. clear Noerr.
  destruct M as (Ex & Ey & Hx & Hy & Rh & Rm & Rc & _).
  unfold extract_extrapolated in H, H0. rewrite (evenly_spacing x0 dx nx), (evenly_spacing y0 dy ny) in H, H0 by auto. cbn [bind] in H, H0.
  destruct (evenly_ends x0 dx nx (gx g) Ex Hx) as [E1 E2]. rewrite E1, E2 in H, H0. cbn [bind] in H, H0.
  destruct (batch geo x0 (x0 + INR (nx - 1) * dx) (map fwd lonlat)) as [pts|] eqn:Eb; [|discriminate]. cbn [bind] in H, H0.
  rewrite Ha in H, H0. rewrite Exe in H, H0. cbn [bind] in H, H0.
  destruct (mapM (outside_axes xe (gy g)) pts) as [invs|] eqn:Ei; [|discriminate]. cbn [bind] in H, H0.
  destruct (layer_entries around dx dy x0 y0 xe (gy g) g t k ny nx Hk Rh Rm Hy Hx Hxe Ey) as (xi & yi & b & El & Hxi & Hyi & Rb & Nb).
  rewrite El in H, H0. cbn [bind] in H, H0.
  destruct (mapM (depth_by w xi yi b) pts) as [dd|] eqn:Ed; [|discriminate]. cbn [bind] in H, H0.
  match type of H with bind ?m _ = _ => destruct m as [o|] eqn:Eo; [|discriminate] end. cbn [bind] in H.
  match type of H0 with bind ?m _ = _ => destruct m as [o0|] eqn:Eo0; [|discriminate] end. cbn [bind] in H0.
  apply Ok_inj in H. apply Ok_inj in H0. injection H as -> ->. injection H0 as <- ->.
  pose proof (mapM_len _ _ _ Ei) as L1. pose proof (mapM_len _ _ _ Ed) as L2. pose proof (mapM_len _ _ _ Eo) as L3.
  exists xe, xi, yi, b, cols0, pts. split; [reflexivity|]. repeat (split; [assumption|]). split; [reflexivity|]. split; [exact L2|]. split; [exact L3|].
  intros n q Hq. destruct (mapM_nth _ _ _ _ _ Ei Hq) as (inv & I1 & I2). destruct (mapM_nth _ _ _ _ _ Ed Hq) as (D & D1 & D2).
  exists D, inv. repeat (split; [assumption|]). intros c hc Hc.
  assert (Hr : rect ny nx hc) by (apply Rc; eapply nth_error_In; eauto).
  destruct (@extend_if_entries (gcell (R * R)) (None, true) around ny nx hc Hr ltac:(lia)) as (h' & E' & R' & N').
  destruct (remask_entries b ny (ncols around nx) h' Rb R') as (f & Ef & Rf & Nf).
  destruct (mapM_nth _ _ _ _ _ Eo Hc) as (cs & C1 & C2). destruct (mapM_nth _ _ _ _ _ Eo0 Hc) as (cs0 & C3 & C4).
  rewrite E' in C1, C3. cbn [bind] in C1, C3. rewrite Ef in C1, C3. cbn [bind] in C1, C3.
  assert (Hp : nth_error (combine pts (combine invs ds)) n = Some (q, (inv, D))) by now repeat apply nth_error_combine.
  destruct (constituent_values_nth _ _ _ _ _ _ _ _ _ _ _ _ _ C1 Hp) as (h & Eh & _ & V). destruct (V cutoff eq_refl) as (near & queries & En & Iq & Er). clear V.
  destruct (constituent_values_nth _ _ _ _ _ _ _ _ _ _ _ _ _ C3 Hp) as (h0 & Eh0 & V0 & _). specialize (V0 eq_refl). assert (h0 = h) by congruence. subst h0.
  assert (Lp : length (combine pts (combine invs ds)) = length pts) by (rewrite !combine_length; lia).
  exists f, h, cs0, cs, near, queries. split; [exact Rf|]. split. { intros j e Hj He. etransitivity; [exact (Nf j e Hj He)|]. exact (f_equal (fun c : gcell (R * R) => (fst c, snd c || snd (entry (None, true) b j e))) (N' j e Hj He)). }
  split; [exact Eh|]. split; [exact C4|]. split; [exact C2|]. split; [rewrite (constituent_values_len _ _ _ _ _ _ _ _ _ C3); exact Lp|].
  split; [rewrite (constituent_values_len _ _ _ _ _ _ _ _ _ C1); exact Lp|]. split; [exact V0|]. split; [exact En|]. split; [exact Iq | exact Er].
Qed.
Lemma outside_off (around : bool) x0 dx nx y0 dy ny xe yg q inv :
  evenly (if around then x0 - dx else x0) dx (ncols around nx) xe -> evenly y0 dy ny yg -> (2 <= nx)%nat -> (2 <= ny)%nat ->
  outside_axes xe yg q = Ok inv -> (inv = true <-> off_grid around x0 dx nx y0 dy ny (fst q) (snd q)).
Proof.
  intros Hx Hy Nx Ny H. unfold outside_axes in H.
  destruct (evenly_ends _ _ _ _ Hx) as [E1 E2]; [unfold ncols; destruct around; lia|]. destruct (evenly_ends _ _ _ _ Hy) as [E3 E4]; auto. rewrite E1, E2, E3, E4 in H. cbn [bind] in H.
  apply Ok_inj in H as <-. unfold off_grid, reach, ncols. assert (L : INR (if around then nx + 2 - 1 else nx - 1) = if around then INR nx + 1 else INR (nx - 1)).
  { destruct around; auto. replace (nx + 2 - 1)%nat with (S nx) by lia. apply S_INR. }
  assert (L' : INR ((if around then (nx + 2)%nat else nx) - 1) = if around then INR nx + 1 else INR (nx - 1)) by (destruct around; exact L). rewrite L'. clear L L'.
  unfold rlt. destruct around.
  - destruct (Rlt_dec (fst q) (x0 - dx)), (Rlt_dec (x0 - dx + (INR nx + 1) * dx) (fst q)), (Rlt_dec (snd q) y0), (Rlt_dec (y0 + INR (ny - 1) * dy) (snd q)); cbn; split; intros F; try discriminate; auto;
      try (left; lra); try (right; lra); destruct F as [F|F]; exfalso; apply F; lra.
  - destruct (Rlt_dec (fst q) x0), (Rlt_dec (x0 + INR (nx - 1) * dx) (fst q)), (Rlt_dec (snd q) y0), (Rlt_dec (y0 + INR (ny - 1) * dy) (snd q)); cbn; split; intros F; try discriminate; auto;
      try (left; lra); try (right; lra); destruct F as [F|F]; exfalso; apply F; lra.
Qed.
Lemma all_of_field around ny nx (hc f : field) (b : list (list (gcell R))) : (2 <= nx)%nat -> rect ny (ncols around nx) f ->
  (forall j i, (j < ny)%nat -> (i < nx)%nat -> fst (entry (None, true) hc j i) <> None) ->
  (forall j e, (j < ny)%nat -> (e < ncols around nx)%nat ->
    entry (None, true) f j e = (fst (entry (None, true) hc j (col around nx e)), snd (entry (None, true) hc j (col around nx e)) || snd (entry (None, true) b j e))) -> all_of f.
Proof.
  intros Hx [Rl Rr] N Nf r c Hr Hc F. apply (In_nth _ _ []) in Hr as (j & Hj & Er). assert (Lr : length r = ncols around nx) by (apply Rr; rewrite <- Er; now apply nth_In).
  apply (In_nth _ _ (None, true)) in Hc as (e & He & Ee).
  assert (Hj' : (j < ny)%nat) by exact (eq_ind _ (fun n => (j < n)%nat) Hj _ Rl). assert (He' : (e < ncols around nx)%nat) by exact (eq_ind _ (fun n => (e < n)%nat) He _ Lr).
  assert (Lt : (col around nx e < nx)%nat). { unfold col, ncols in *. destruct around; [|lia]. destruct e as [|e]; [lia|]. destruct (Nat.eqb e nx) eqn:K; [lia|]. apply Nat.eqb_neq in K. lia. }
  assert (Ec : c = entry (None, true) f j e) by (symmetry; exact (eq_trans (f_equal (fun r => nth e r (None, true)) Er) Ee)).
  apply (N j _ Hj' Lt). rewrite Ec in F. pose proof (f_equal fst (Nf j e Hj' He')) as G. cbn [fst] in G. rewrite <- G. exact F.
Qed.
Lemma all_of_depths around ny nx (b : list (list (gcell R))) (w : nat -> nat -> option R) : rect ny (ncols around nx) b ->
  (forall j e, (j < ny)%nat -> (e < ncols around nx)%nat -> depth_entry (w j (col around nx e)) (entry (None, true) b j e)) -> all_of b.
Proof.
  intros [Rl Rr] Nb r c Hr Hc F. apply (In_nth _ _ []) in Hr as (j & Hj & Er). assert (Lr : length r = ncols around nx) by (apply Rr; rewrite <- Er; now apply nth_In).
  apply (In_nth _ _ (None, true)) in Hc as (e & He & Ee). assert (Ec : entry (None, true) b j e = c) by exact (eq_trans (f_equal (fun r => nth e r (None, true)) Er) Ee).
  assert (Hj' : (j < ny)%nat) by exact (eq_ind _ (fun n => (j < n)%nat) Hj _ Rl). assert (He' : (e < ncols around nx)%nat) by exact (eq_ind _ (fun n => (e < n)%nat) He _ Lr).
  pose proof (eq_ind _ (depth_entry (w j (col around nx e))) (Nb j e Hj' He') _ Ec) as De. exact (proj2 (water_value _ _ De) F).
Qed.
Lemma placed_apart geo lo hi xs x x' y q : convention geo lo hi xs x x' -> apart geo (x', y) q = apart geo (x, y) q.
Proof.
  intros C. assert (T : geo = false /\ x' = x \/ geo = true /\ exists r, x' = x + 360 * IZR r).
  { destruct C as [G|G|G _ _|G _ _|G _ _]; [now left | right; split; auto; exists 0%Z; lra | | |]; right; split; auto; unfold eastward, westward; repeat destruct (Rlt_dec _ _);
      solve [exists 0%Z; lra | exists 1%Z; lra | exists (-1)%Z; lra]. }
  destruct T as [[-> ->]|[-> [r ->]]]; [reflexivity|]. cbn [apart]. apply chord_turns.
Qed.

(** ** The constants with extrapolation compared to those without *)
Theorem C85_filled : forall fwd geo around w t k x0 dx nx y0 dy ny g hcs lonlat cutoff depths cols n p x c hc,
  match cutoff with Some d => 0 <= d | None => True end ->
  model_grid geo around x0 dx nx y0 dy ny g hcs -> kind_of t = Some k -> (k = Zonal -> around = true) ->
  w = Quick Bilinear \/ (forall j i, (j < ny)%nat -> (i < nx)%nat -> fst (entry (None, true) hc j i) <> None) ->
  extract_extrapolated fwd geo w t (Some cutoff) g hcs lonlat = Ok (depths, cols) ->
  nth_error lonlat n = Some p -> nth_error hcs c = Some hc ->
  convention geo x0 (x0 + INR (nx - 1) * dx) (map (fun p => fst (fwd p)) lonlat) (fst (fwd p)) x ->
  let z := fun j i => tide (water (entry 0 (ghz g)) (entry 0%Z (gmz g)) around nx k j i) (entry (None, true) hc j i) in
  exists cols0 cs0 cs D r0 r,
    extract_extrapolated fwd geo w t None g hcs lonlat = Ok (depths, cols0) /\
    nth_error depths n = Some D /\ length depths = length lonlat /\ length cols = length hcs /\
    nth_error cols0 c = Some cs0 /\ nth_error cs0 n = Some r0 /\ nth_error cols c = Some cs /\ length cs = length lonlat /\ nth_error cs n = Some r /\
    (r0 <> None -> r = r0) /\
    (off_grid around x0 dx nx y0 dy ny x (snd (fwd p)) -> r = None) /\
    (~ off_grid around x0 dx nx y0 dy ny x (snd (fwd p)) -> r0 = None ->
       (exists j i, closest_node geo cutoff k x0 dx nx y0 dy ny z (fwd p) j i /\
          fetched (velocity t) (if snd D then None else fst D) (z j i) r) \/
       (~ exists j i, close_node geo cutoff k x0 dx nx y0 dy ny z (fwd p) j i) /\ r = None).
Proof.
  intros fwd geo around w t k x0 dx nx y0 dy ny g hcs lonlat cutoff ds cols n p x c hc Hc M Hk HZ Nw H Hn Hhc Cv z.
  destruct (coast_inv _ _ _ _ _ _ _ _ _ _ _ _ _ _ _ _ _ _ M Hk H) as (xe & xi & yi & b & cols0 & pts & H0 & Hxe & Hxi & Hyi & Rb & Nb & Eb & Ld & Lc & V).
  pose proof (batch_len _ _ _ _ _ Eb) as L'. rewrite map_length in L'.
  assert (Hq : nth_error pts n = Some (x, snd (fwd p))) by (apply (batch_nth _ _ _ _ _ n (fwd p) x Eb); [now apply map_nth_error | now rewrite map_map]).
  destruct (V n _ Hq) as (D & inv & D1 & D2 & I1 & Vc). destruct (Vc c hc Hhc) as (f & h & cs0 & cs & near & queries & Rf & Nf & Eh & C0 & C1 & Lc0 & Lc1 & R0 & En & Iq & R1). clear V Vc.
  destruct M as (Ex & Ey & Hx & Hy & Rh & Rm & Rc & Ga).
  set (wt := water (entry 0 (ghz g)) (entry 0%Z (gmz g)) around nx k) in *.
  assert (Nb' : forall j e, (j < ny)%nat -> (e < ncols around nx)%nat -> depth_entry (wt j (col around nx e)) (entry (None, true) b j e)).
  { intros j e Hj He. apply Nb; auto. unfold sound_column. destruct k; auto. }
  pose proof (outside_off around x0 dx nx y0 dy ny xe (gy g) _ inv Hxe Ey Hx Hy I1) as Off. cbn [fst snd] in Off.
  assert (Nn : masked_by w D h = false -> fst h <> None).
  { intros Mh. apply (constant_by_number w xi yi f b (x, snd (fwd p)) h D); auto. destruct Nw as [->|Nw]; [now left|]. right. exact (all_of_field around ny nx hc f b Hx Rf Nw Nf). }
  assert (Nd : snd D = false -> fst D <> None) by exact (depth_by_number w xi yi b _ D (all_of_depths around ny nx b wt Rb Nb') D2).
  exists cols0, cs0, cs, D, (value_at t inv D (h, masked_by w D h)), (value_at t inv D (if masked_by w D h then reply geo cutoff (x, snd (fwd p)) near else (h, false))).
  split; [exact H0|]. split; [exact D1|]. split; [lia|]. split; [exact Lc|]. split; [exact C0|]. split; [exact R0|]. split; [exact C1|]. split; [lia|]. split; [exact R1|].
  split. { destruct (masked_by w D h); [|reflexivity]. unfold value_at at 1. cbn [fst snd orb]. congruence. }
  split. { intros O. apply Off in O. subst inv. unfold value_at. rewrite orb_true_r. reflexivity. }
  intros O F. assert (Hinv : inv = false) by (destruct inv; auto; exfalso; apply O; now apply Off). subst inv.
  destruct (masked_by w D h) eqn:Mh.
  2:{ exfalso. unfold value_at in F. cbn [fst snd orb] in F. specialize (Nn eq_refl). destruct (fst h); congruence. }
  assert (Round : around = true -> geo = true /\ INR nx * dx = 360) by (intros ->; destruct Ga as [(_ & G & E)|[G _]]; [auto | discriminate]).
  assert (Sw : forall j i, close_node geo cutoff k x0 dx nx y0 dy ny z (x, snd (fwd p)) j i <-> close_node geo cutoff k x0 dx nx y0 dy ny z (fwd p) j i).
  { intros j i. unfold close_node. rewrite (placed_apart geo _ _ _ _ _ _ _ Cv). rewrite <- surjective_pairing. reflexivity. }
  destruct (reply_spec geo around k x0 dx y0 dy nx ny xi yi wt b hc f Hx Hxi Hyi Round Rf Nb' Nf cutoff (x, snd (fwd p)) queries near Hc (Iq eq_refl) En) as [(j & i & [Cl Mn] & ->) | [No ->]].
  - left. exists j, i. fold (z j i). fold z in Cl, Mn. split.
    + split; [now apply Sw|]. intros j' i' Cl'. apply Sw in Cl'. specialize (Mn j' i' Cl'). rewrite !(placed_apart geo _ _ _ _ _ _ _ Cv), <- surjective_pairing in Mn. exact Mn.
    + destruct Cl as (_ & _ & Z0 & _). unfold value_at. cbn [fst snd orb]. destruct (z j i) as [v|] eqn:Ez; [|congruence].
      exists v, (cabs v), (phase_of v). split; [reflexivity|]. split; [destruct v; apply phase_of_spec|]. do 2 f_equal. unfold divided, velocity.
      destruct t; auto; (destruct (snd D); [reflexivity|]); unfold gnumber; destruct (fst D); auto; now contradiction Nd.
  - right. split; [|reflexivity]. intros (j & i & Cl). apply No. exists j, i. now apply Sw.
Qed.
Print Assumptions C85_filled.
