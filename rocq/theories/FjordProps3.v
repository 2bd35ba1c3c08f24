(** C91: extrapolation is the same whether the constituents are read first or not. *)
From Coq Require Import Reals List Bool Arith ZArith Lra Lia.
From Verif Require Import PyBase RBase MathModel GeoModel ConvertProps GridModel InterpModel InterpProps ExtrapProps ExtractModel ExtractSpec NodeProps ExtractProofs ExtractProps SplineProps ReadProps ReturnProps SeriesModel SeriesProps3 RegularModel RegularProps2 RegularProps5 CropModel ShoreModel ShoreSpec ShoreProofs CoastModel CoastSpec CoastProofs CoastProps CoastProps2 FjordModel FjordSpec FjordProofs FjordProps FjordProps2.
Import ListNotations.
Open Scope R_scope.

(** ** One point *)
Lemma bilinear_point_same xi yi ny nx b f q D1 D2 h : axis xi -> axis yi -> length xi = nx -> length yi = ny -> rect ny nx b -> rect ny nx f ->
  (forall j e, (j < ny)%nat -> (e < nx)%nat -> fst (entry (None, true) b j e) <> None) ->
  (forall j e, (j < ny)%nat -> (e < nx)%nat -> snd (entry (None, true) b j e) = true -> snd (entry (None, true) f j e) = true) ->
  extract_depth Bilinear xi yi b q = Ok D1 -> interpolate_depth Bilinear xi yi b q = Ok D2 -> cbilinear xi yi (drop_invalid f) q = Ok h ->
  seen D1 = seen D2 /\ is_nan h || snd D1 = is_nan h || snd D2.
Proof.
  intros A1 A2 Lx Ly Rb Rf Fb Mf E1 E2 Eh.
  assert (C1 : exists r1, constant Bilinear xi yi Vz D1 false q f = Ok r1) by (unfold constant; rewrite Eh; cbn [bind]; eauto). destruct C1 as [r1 C1].
  assert (C2 : exists r2, constant_again Bilinear xi yi Vz D2 false q f = Ok r2) by (unfold constant_again; rewrite Eh; cbn [bind]; eauto). destruct C2 as [r2 C2].
  destruct (same_constant xi yi ny nx b f Vz false q D1 D2 r1 r2 A1 A2 Lx Ly Rb Rf Fb Mf E1 E2 C1 C2) as [Sn ->]. split; [exact Sn|].
  unfold constant in C1. unfold constant_again in C2. rewrite Eh in C1, C2. cbn [bind] in C1, C2. rewrite <- C2 in C1. apply Ok_inj in C1. rewrite !orb_false_r in C1.
  unfold is_nan in *. destruct (fst h) as [v|]; [|reflexivity]. cbn [orb] in *. destruct (snd D1), (snd D2); auto; discriminate.
Qed.
Lemma regular_point_same me xi yi b f q D h h' : axis xi -> axis yi -> rect (length yi) (length xi) f -> rect (length yi) (length xi) b ->
  map (map snd) f = map (map snd) b ->
  (forall j e, (j < length yi)%nat -> (e < length xi)%nat -> snd (entry (None, true) f j e) = false -> fst (entry (None, true) f j e) <> Some (0, 0)) ->
  all_of f -> rregular me xi yi b q = Ok D -> cregular me xi yi f q = Ok h -> cregular me xi yi (map (map fill_zero) f) q = Ok h' ->
  is_fill h || snd D = is_fill h' || snd D /\ (is_fill h || snd D = false -> fst h = fst h').
Proof.
  intros A1 A2 Rf Rb Em Hz Hn HD Eh Eh'.
  assert (Hn' : me = Linear -> forall j e, (j < length yi)%nat -> (e < length xi)%nat -> fst (entry (None, true) f j e) <> None).
  { intros _ j e Hj He. destruct (entry_in (length yi) (length xi) f (None, true) j e Rf Hj He) as (r & I1 & I2). eapply Hn; eauto. }
  pose proof (constant_same me Vz D false xi yi b f q A1 A2 Rf Rb Em Hz Hn' HD) as E. unfold constant_regular in E. rewrite Eh, Eh' in E. cbn [bind] in E. apply Ok_inj in E. rewrite !orb_false_r in E.
  destruct (snd D) eqn:SD; [rewrite !orb_true_r; split; auto; discriminate|]. rewrite !orb_false_r in *.
  assert (N : is_fill h = false -> fst h <> None).
  { intros _. destruct (gregular_of _ _ _ _ _ _ _ _ _ Hn Eh) as [G|[-> O]]; auto. rewrite (gregular_outside _ _ _ _ _ _ _ _ _ O HD) in SD. discriminate. }
  assert (N' : is_fill h' = false -> fst h' <> None).
  { intros _. destruct (gregular_of _ _ _ _ _ _ _ _ _ (all_fill _ Hn) Eh') as [G|[-> O]]; auto. rewrite (gregular_outside _ _ _ _ _ _ _ _ _ O HD) in SD. discriminate. }
  destruct (is_fill h) eqn:F1, (is_fill h') eqn:F2; split; auto; try discriminate; cbn [orb] in *.
  - specialize (N' eq_refl). destruct (fst h'); [discriminate | congruence].
  - specialize (N eq_refl). destruct (fst h); [discriminate | congruence].
  - specialize (N eq_refl). destruct (fst h); [discriminate | congruence].
  - intros _. specialize (N eq_refl). specialize (N' eq_refl). destruct (fst h) as [z|], (fst h') as [z'|]; try congruence. injection E as P1 P2. f_equal.
    symmetry. apply (amplitude_phase_one z' z (cabs z') (phase_of z')); [destruct z'; apply phase_of_spec|].
    unfold convert in P1. rewrite P1, P2. destruct z; apply phase_of_spec.
Qed.

(** ** One constituent: the same points are masked, and the others have the same number *)
Definition same_reply (a b : gcell cpx * bool) : Prop := snd a = snd b /\ (snd a = false -> fst (fst a) = fst (fst b)).
Lemma put_replies hs hs' : Forall2 same_reply hs hs' -> forall new, Forall2 same_reply (put hs new) (put hs' new).
Proof.
  induction 1 as [|[h m] [h' m'] l l' [E1 E2] Hl IH]; intros new; [constructor|]. cbn [fst snd] in *. subst m'. cbn [put]. destruct m; [|constructor; [split; auto|apply IH]].
  destruct new as [|v new]; constructor; auto; split; auto; discriminate.
Qed.
Lemma replies_masks hs hs' : Forall2 same_reply hs hs' -> map snd hs = map snd hs' /\ existsb snd hs = existsb snd hs'.
Proof. induction 1 as [|[h m] [h' m'] l l' [E1 E2] Hl [I1 I2]]; [auto|]. cbn [fst snd] in *. subst m'. cbn. now rewrite I1, I2. Qed.
Lemma fill_replies geo c xi yi f f' pts hs hs' : drop_invalid f = drop_invalid f' -> Forall2 same_reply hs hs' -> Forall2 same_reply (fill_points geo c xi yi f pts hs) (fill_points geo c xi yi f' pts hs').
Proof. intros E Hh. unfold fill_points. destruct (replies_masks _ _ Hh) as [<- <-]. rewrite <- E. destruct (existsb snd hs); [now apply put_replies | exact Hh]. Qed.
Lemma refill_same f : (forall r c, In r f -> In c r -> snd c = false -> fst c <> Some (0, 0)) -> forall w, drop_invalid (readied w f) = drop_invalid f.
Proof.
  intros Hz w. rewrite nodes_refill. unfold drop_invalid. rewrite map_map. apply map_ext_in. intros r Hr. rewrite map_map. apply map_ext_in. intros c Hc. specialize (Hz r c Hr Hc).
  destruct w as [me|me]; [reflexivity|]. destruct c as [[v|] m]; [|reflexivity]. unfold refill, drop_cell. cbn [fst snd] in *. destruct (czero v) eqn:K; cbn [fst snd]; [|now rewrite K].
  destruct m; [now rewrite !orb_true_r|]. apply czero_is in K. exfalso. apply Hz; auto. now rewrite K.
Qed.
Lemma quick_same me f : drop_invalid (readied (Quick me) f) = drop_invalid f.
Proof. rewrite nodes_refill. unfold drop_invalid. rewrite map_map. apply map_ext. intros r. rewrite map_map. apply map_ext. reflexivity. Qed.
Lemma values_same geo w t k ex xi yi f pts inv ds1 ds2 cs1 cs2 : kind_of t = Some k -> length inv = length pts -> length ds1 = length pts -> length ds2 = length pts ->
  drop_invalid (readied w f) = drop_invalid f ->
  (forall n q D1 D2 h1 h2, nth_error pts n = Some q -> nth_error ds1 n = Some D1 -> nth_error ds2 n = Some D2 -> constant_by w xi yi f q = Ok h1 -> constant_of w xi yi (readied w f) q = Ok h2 ->
    masked_by w D1 h1 = masked_again w D2 h2 /\ (masked_by w D1 h1 = false -> fst h1 = fst h2)) ->
  (forall n D1 D2 z, nth_error ds1 n = Some D1 -> nth_error ds2 n = Some D2 -> divided_again t D2 z = Some (divided t D1 z)) ->
  constituent_values geo w t ex xi yi f (combine pts (combine inv ds1)) = Ok cs1 -> values_again geo w t ex xi yi f (combine pts (combine inv ds2)) = Ok cs2 -> cs1 = cs2.
Proof.
  intros Hk Li L1 L2 Ed Hp Hd H1 H2. unfold constituent_values in H1. unfold values_again in H2.
  match type of H1 with bind ?m _ = _ => destruct m as [hs1|] eqn:E1; [|discriminate] end. match type of H2 with bind ?m _ = _ => destruct m as [hs2|] eqn:E2; [|discriminate] end. cbn [bind] in H1, H2.
  rewrite (not_other t k) in H2 by auto. apply Ok_inj in H1 as <-. apply Ok_inj in H2 as <-.
  assert (P1 : map fst (combine pts (combine inv ds1)) = pts) by now apply combine3_fst. assert (P2 : map fst (combine pts (combine inv ds2)) = pts) by now apply combine3_fst.
  rewrite P1, P2. pose proof (mapM_len _ _ _ E1) as M1. pose proof (mapM_len _ _ _ E2) as M2. rewrite !combine_length in M1, M2.
  assert (Sr : Forall2 same_reply hs1 hs2).
  { clear P1 P2 Ed Hd M1 M2. revert inv ds1 ds2 hs1 hs2 Li L1 L2 Hp E1 E2. induction pts as [|q pts IH]; intros inv ds1 ds2 hs1 hs2 Li L1 L2 Hp E1 E2.
    - cbn in E1, E2. apply Ok_inj in E1 as <-. apply Ok_inj in E2 as <-. constructor.
    - destruct inv as [|i inv], ds1 as [|D1 ds1], ds2 as [|D2 ds2]; try discriminate. cbn [combine mapM fst snd] in E1, E2.
      destruct (constant_by w xi yi f q) as [h1|] eqn:Q1; [|discriminate]. destruct (constant_of w xi yi (readied w f) q) as [h2|] eqn:Q2; [|discriminate]. cbn [bind] in E1, E2.
      match type of E1 with bind ?m _ = _ => destruct m as [r1|] eqn:R1; [|discriminate] end. match type of E2 with bind ?m _ = _ => destruct m as [r2|] eqn:R2; [|discriminate] end. cbn [bind] in E1, E2.
      apply Ok_inj in E1 as <-. apply Ok_inj in E2 as <-. constructor; [exact (Hp 0%nat q D1 D2 h1 h2 eq_refl eq_refl eq_refl Q1 Q2)|].
      cbn [length] in *. apply (IH inv ds1 ds2 r1 r2); auto; try lia. intros n. exact (Hp (S n)). }
  assert (Sd : Forall2 same_reply (match ex with Some c => fill_points geo c xi yi f pts hs1 | None => hs1 end) (match ex with Some c => fill_points geo c xi yi (readied w f) pts hs2 | None => hs2 end)) by (destruct ex; [apply fill_replies; auto | exact Sr]).
  clear Sr E1 E2 P1 P2 Hp M1 M2. revert Sd. generalize (match ex with Some c => fill_points geo c xi yi f pts hs1 | None => hs1 end), (match ex with Some c => fill_points geo c xi yi (readied w f) pts hs2 | None => hs2 end).
  revert inv ds1 ds2 Li L1 L2 Hd. induction pts as [|q pts IH]; intros inv ds1 ds2 Li L1 L2 Hd a b Sd; [reflexivity|].
  destruct inv as [|i inv], ds1 as [|D1 ds1], ds2 as [|D2 ds2]; try discriminate. destruct Sd as [|[h m] [h' m'] a b [S1 S2] Sd]; [reflexivity|]. cbn [combine map fst snd] in *. cbn [length] in *. f_equal.
  - subst m'. unfold value_at, value_again. cbn [fst snd]. destruct m; [reflexivity|]. destruct i; [reflexivity|]. cbn [orb]. rewrite <- (S2 eq_refl). destruct (fst h) as [z|]; [|reflexivity]. now rewrite (Hd 0%nat D1 D2 z eq_refl eq_refl).
  - apply IH; auto; try lia. intros n. exact (Hd (S n)).
Qed.

(** ** The whole array *)
Definition plain (w : way) (k : kind) (around : bool) (nx ny : nat) (g : grid) (hcs : list field) : Prop :=
  match w with
  | Quick Bilinear => True
  | Quick Spline => forall hc, In hc hcs -> forall j i, (j < ny)%nat -> (i < nx)%nat ->
      snd (entry (None, true) hc j i) = true -> water (entry 0 (ghz g)) (entry 0%Z (gmz g)) around nx k j i = None
  | Regular _ => forall hc, In hc hcs -> forall j i, (j < ny)%nat -> (i < nx)%nat -> fst (entry (None, true) hc j i) <> None /\
      (water (entry 0 (ghz g)) (entry 0%Z (gmz g)) around nx k j i <> None -> snd (entry (None, true) hc j i) = false /\ fst (entry (None, true) hc j i) <> Some (0, 0))
  end.
Lemma read_same_filled fwd geo around w t k ex x0 dx nx y0 dy ny g hcs lonlat c depths cols depths' cols' :
  model_grid geo around x0 dx nx y0 dy ny g hcs -> kind_of t = Some k -> (k = Zonal -> around = true) ->
  plain w k around nx ny g hcs -> (velocity t = true -> w <> Quick Bilinear) ->
  read_constants geo t g hcs = Ok c ->
  (forall lo hi, amin (cx c) = Ok lo -> amax (cx c) = Ok hi -> batch geo lo hi (map fwd lonlat) = batch geo x0 (x0 + INR (nx - 1) * dx) (map fwd lonlat)) ->
  (forall pts q, batch geo x0 (x0 + INR (nx - 1) * dx) (map fwd lonlat) = Ok pts -> In q pts ->
    forall xe, evenly (if around then x0 - dx else x0) dx (ncols around nx) xe -> outside_axes (cx c) (cy c) q = outside_axes xe (gy g) q) ->
  extract_extrapolated fwd geo w t ex g hcs lonlat = Ok (depths, cols) -> interpolate_extrapolated fwd geo w t ex c lonlat = Ok (depths', cols') ->
  map seen depths' = map seen depths /\ cols' = cols.
Proof.
  intros M Hk Hw Hm Hv Hc HB HI H H'. pose proof M as M0.
  pose proof (around_test _ _ _ _ _ _ _ _ _ _ M) as Ha. destruct (around_axis _ _ _ _ _ _ _ _ _ _ M) as (xe & Exe & Hxe).
  destruct M as (Ex & Ey & Hx & Hy & Rh & Rm & Rc & _).
  destruct (layer_entries around dx dy x0 y0 xe (gy g) g t k ny nx Hk Rh Rm Hy Hx Hxe Ey) as (xi & yi & b & El & Hxi & Hyi & Rb & Nb).
  destruct (fields_total around ny nx b hcs Rb Hx Rc) as (fs & Ef).
  pose proof (read_inv _ _ _ _ _ _ _ _ _ _ _ _ _ _ _ _ _ M0 Exe El Ef Hc) as ->. clear Hc M0. cbn [cx cy] in *.
  assert (N2 : (2 <= ncols around nx)%nat) by (unfold ncols; destruct around; lia).
  assert (A1 : axis xi) by (eapply evenly_axis; eauto). assert (A2 : axis yi) by (eapply evenly_axis; eauto).
  assert (Lx : length xi = ncols around nx) by apply Hxi. assert (Ly : length yi = ny) by apply Hyi.
  assert (Ab : all_of b) by (intros r cl; exact (layer_data _ _ _ _ _ _ _ _ _ _ El r cl)).
  assert (Fb : forall j e, (j < ny)%nat -> (e < ncols around nx)%nat -> fst (entry (None, true) b j e) <> None).
  { intros j e Hj He. destruct (entry_in ny (ncols around nx) b (None, true) j e Rb Hj He) as (row & Hrow & Hcell). eapply Ab; eauto. }
  unfold extract_extrapolated in H. unfold interpolate_extrapolated in H'. cbn [cx cy cbath cfields] in H'.
  rewrite (evenly_spacing x0 dx nx), (evenly_spacing y0 dy ny) in H by auto. cbn [bind] in H.
  destruct (evenly_ends x0 dx nx (gx g) Ex Hx) as [G1 G2]. rewrite G1, G2 in H. cbn [bind] in H.
  rewrite (axis_min _ A1), (axis_max _ A1) in *. cbn [bind] in H'. rewrite (HB _ _ eq_refl eq_refl) in H'. clear HB.
  destruct (batch geo x0 (x0 + INR (nx - 1) * dx) (map fwd lonlat)) as [pts|] eqn:Eb; [|discriminate]. cbn [bind] in H, H'.
  rewrite Ha, Exe in H. cbn [bind] in H. rewrite (mapM_ext_in (outside_axes xi yi) (outside_axes xe (gy g))) in H' by (intros q Hq; exact (HI pts q eq_refl Hq xe Hxe)).
  destruct (mapM (outside_axes xe (gy g)) pts) as [inv|] eqn:Ei; [|discriminate]. cbn [bind] in H, H'. rewrite El in H. cbn [bind] in H.
  destruct (mapM (depth_by w xi yi b) pts) as [ds1|] eqn:Ed1; [|discriminate]. cbn [bind] in H.
  destruct (mapM (depth_again w xi yi b) pts) as [ds2|] eqn:Ed2; [|discriminate]. cbn [bind] in H'.
  match type of H with bind ?m _ = _ => destruct m as [o1|] eqn:Eo1; [|discriminate] end. match type of H' with bind ?m _ = _ => destruct m as [o2|] eqn:Eo2; [|discriminate] end. cbn [bind] in H, H'.
  apply Ok_inj in H. apply Ok_inj in H'. injection H as -> ->. injection H' as -> ->.
  pose proof (mapM_len _ _ _ Ei) as L0. pose proof (mapM_len _ _ _ Ed1) as L1. pose proof (mapM_len _ _ _ Ed2) as L2.
  assert (Eo1' : mapM (fun f => constituent_values geo w t ex xi yi f (combine pts (combine inv depths))) fs = Ok cols).
  { assert (E : mapM (fun hc => do f <- (do e <- extend_if around hc ;; remask b e) ;; constituent_values geo w t ex xi yi f (combine pts (combine inv depths))) hcs = Ok cols).
    { rewrite <- Eo1. apply mapM_ext_in. intros hc _. destruct (extend_if around hc); reflexivity. }
    destruct (mapM_unbind _ _ _ _ E) as (fs' & Ef' & E'). rewrite Ef in Ef'. apply Ok_inj in Ef' as <-. exact E'. }
  clear Eo1.
  assert (Ff : forall ci f, nth_error fs ci = Some f -> exists hc, In hc hcs /\ rect ny (ncols around nx) f /\ forall j e, (j < ny)%nat -> (e < ncols around nx)%nat ->
      entry (None, true) f j e = (fst (entry (None, true) hc j (col around nx e)), snd (entry (None, true) hc j (col around nx e)) || snd (entry (None, true) b j e))).
  { intros ci f Hf. assert (Hci : (ci < length hcs)%nat) by (eapply Nat.lt_le_trans; [apply nth_error_Some; rewrite Hf; discriminate|]; apply Nat.eq_le_incl; exact (mapM_len _ _ _ Ef)).
    destruct (nth_error hcs ci) as [hc|] eqn:Eh; [|apply nth_error_None in Eh; lia].
    destruct (fields_entries around ny nx b hcs fs Rb Hx Rc Ef ci hc Eh) as (f' & Hf' & Rf & Nf). assert (f' = f) as -> by (pose proof (eq_trans (eq_sym Hf') Hf) as Q; now injection Q).
    exists hc. split; [eapply nth_error_In; eauto|auto]. }
  assert (Sc : forall e, sound_column k around (col around nx e)) by (intros e; unfold sound_column; destruct k; auto).
  assert (Cl : forall e, (e < ncols around nx)%nat -> (col around nx e < nx)%nat) by (intros; apply col_lt; auto; lia).
  split.
  - apply nth_error_ext'. intros n. destruct (nth_error pts n) as [q|] eqn:Hq.
    + destruct (mapM_nth _ _ _ _ _ Ed1 Hq) as (D1 & K1 & K2). destruct (mapM_nth _ _ _ _ _ Ed2 Hq) as (D2 & K3 & K4).
      rewrite (map_nth_error seen _ _ K2), (map_nth_error seen _ _ K4). f_equal. symmetry.
      destruct w as [[|]|me]; cbn [depth_by depth_again extract_depth interpolate_depth] in K1, K3; [|congruence|congruence].
      set (f0 := map (map (fun _ : gcell R => ((None : option (R * R)), true))) b). assert (Rf0 : rect ny (ncols around nx) f0) by now apply map_rect.
      assert (C0 : exists h, cbilinear xi yi (drop_invalid f0) q = Ok h).
      { destruct q as [lon lat]. destruct (bilinear_served _ _ _ _ _ _ _ _ _ A1 A2 K3) as [Out|(i & j & C)].
        - unfold cbilinear. rewrite gpoint_outside by auto. eauto.
        - unfold cbilinear. rewrite (gpoint_eq (0, 0) cadd cscale xi yi _ lon lat i j A1 A2); [eauto| |exact C]. rewrite Lx, Ly. now apply map_rect. }
      destruct C0 as [h0 C0].
      eapply (bilinear_point_same xi yi ny (ncols around nx) b f0); eauto.
      intros j e Hj He _. unfold f0. now rewrite (map_entry _ ny (ncols around nx) b (None, true)) by auto.
    + apply nth_error_None in Hq. rewrite (proj2 (nth_error_None _ _)), (proj2 (nth_error_None _ _)); auto; rewrite map_length; lia.
  - apply nth_error_ext'. intros ci. destruct (nth_error fs ci) as [f|] eqn:Hf.
    + destruct (mapM_nth _ _ _ _ _ Eo1' Hf) as (cs1 & Q1 & Q2). destruct (mapM_nth _ _ _ _ _ Eo2 Hf) as (cs2 & Q3 & Q4). rewrite Q2, Q4. f_equal. symmetry.
      destruct (Ff ci f Hf) as (hc & Hin & Rf & Nf).
      assert (Em : w <> Quick Bilinear -> map (map snd) f = map (map snd) b).
      { intros Nw. apply (mask_ext ny (ncols around nx)); auto. intros j e Hj He. rewrite Nf by auto. cbn [snd].
        destruct (snd (entry (None, true) hc j (col around nx e))) eqn:Sh; [|reflexivity]. cbn [orb]. symmetry. specialize (Nb j e Hj He (Sc e)). unfold depth_entry in Nb.
        destruct w as [[|]|me]; cbn [plain] in Hm; [congruence| |].
        - specialize (Hm hc Hin j (col around nx e) Hj (Cl e He) Sh). destruct (water _ _ _ _ _ _ _); [discriminate|]. apply Nb.
        - specialize (Hm hc Hin j (col around nx e) Hj (Cl e He)). destruct (water _ _ _ _ _ _ _); [destruct Hm as [_ Hm]; destruct Hm as [Hm _]; [discriminate|congruence]|]. apply Nb. }
      assert (Zf : (exists me, w = Regular me) -> forall j e, (j < ny)%nat -> (e < ncols around nx)%nat -> snd (entry (None, true) f j e) = false -> fst (entry (None, true) f j e) <> Some (0, 0)).
      { intros [me ->] j e Hj He. rewrite Nf by auto. cbn [fst snd]. intros K. apply orb_false_elim in K as [_ K]. specialize (Nb j e Hj He (Sc e)). cbn [plain] in Hm. specialize (Hm hc Hin j (col around nx e) Hj (Cl e He)).
        unfold depth_entry in Nb. destruct (water _ _ _ _ _ _ _); [apply Hm; discriminate|]. destruct Nb as [Nb _]. exfalso. change (snd (entry (None, true) b j e) = true) in Nb. congruence. }
      assert (Af : (exists me, w = Regular me) -> all_of f).
      { intros [me ->]. apply (all_of_field around ny nx hc f b); auto. intros j i Hj Hi. cbn [plain] in Hm. apply (Hm hc Hin j i Hj Hi). }
      eapply (values_same geo w t k ex xi yi f pts inv depths depths'); eauto; try lia.
      * destruct w as [me|me]; [apply quick_same|]. apply refill_same. intros r cl Hr Hcl Sf.
        apply (In_nth _ _ []) in Hr as (j & Hj & Er). destruct Rf as [Rl Rr]. assert (Lr : length r = ncols around nx) by (apply Rr; rewrite <- Er; now apply nth_In).
        apply (In_nth _ _ (None, true)) in Hcl as (e & He & Ee). assert (Ec : entry (None, true) f j e = cl) by exact (eq_trans (f_equal (fun r => nth e r (None, true)) Er) Ee).
        rewrite <- Ec in *. apply Zf; eauto; [exact (eq_ind _ (fun n => (j < n)%nat) Hj _ Rl) | exact (eq_ind _ (fun n => (e < n)%nat) He _ Lr)].
      * intros n q D1 D2 h1 h2 Hq HD1 HD2 Eh1 Eh2.
        destruct (mapM_nth _ _ _ _ _ Ed1 Hq) as (D1' & K1 & K2). assert (D1' = D1) as -> by (pose proof (eq_trans (eq_sym K2) HD1) as Q; now injection Q).
        destruct (mapM_nth _ _ _ _ _ Ed2 Hq) as (D2' & K3 & K4). assert (D2' = D2) as -> by (pose proof (eq_trans (eq_sym K4) HD2) as Q; now injection Q).
        destruct w as [[|]|me]; cbn [depth_by depth_again constant_by constant_of readied masked_by masked_again] in *.
        -- rewrite Eh1 in Eh2. apply Ok_inj in Eh2 as <-. split; auto. eapply (bilinear_point_same xi yi ny (ncols around nx) b f); eauto.
           intros j e Hj He Kb. rewrite Nf by auto. cbn [snd]. rewrite Kb. apply orb_true_r.
        -- rewrite Eh1 in Eh2. apply Ok_inj in Eh2 as <-. split; auto. cbn [extract_depth interpolate_depth] in *. assert (D1 = D2) as -> by congruence.
           unfold rspline in K1. unfold cspline in Eh1. rewrite (spline_mask _ _ _ _ _ _ _ _ _ _ _ _ _ (Em ltac:(discriminate)) Eh1 K1). now destruct (snd D2).
        -- assert (D1 = D2) as -> by congruence. apply (regular_point_same me xi yi b f q D2 h1 h2); auto; try (rewrite Lx, Ly; auto; fail); try (apply Em; discriminate); try (apply Af; eauto; fail).
           rewrite Lx, Ly. apply Zf. eauto.
      * intros n D1 D2 z HD1 HD2. destruct (nth_error pts n) as [q|] eqn:Hq; [|apply nth_error_None in Hq; assert (n < length depths)%nat by (apply nth_error_Some; congruence); lia].
        destruct (mapM_nth _ _ _ _ _ Ed1 Hq) as (D1' & K1 & K2). assert (D1' = D1) as -> by (pose proof (eq_trans (eq_sym K2) HD1) as Q; now injection Q).
        destruct (mapM_nth _ _ _ _ _ Ed2 Hq) as (D2' & K3 & K4). assert (D2' = D2) as -> by (pose proof (eq_trans (eq_sym K4) HD2) as Q; now injection Q).
        destruct (velocity t) eqn:Vt; [|destruct t; try discriminate; reflexivity]. specialize (Hv eq_refl).
        assert (ED : D1 = D2 /\ (snd D2 = false -> fst D2 <> None)).
        { destruct w as [[|]|me]; [congruence| |]; cbn [depth_by depth_again extract_depth interpolate_depth] in *; (split; [congruence|]).
          - intros _. exact (gspline_of _ _ _ _ _ _ _ _ Ab K3).
          - intros Sd. destruct (gregular_of _ _ _ _ _ _ _ _ _ Ab K3) as [N|[-> _]]; [exact N|discriminate]. }
        destruct ED as [-> Nd]. unfold divided_again, divided. destruct t; try discriminate Vt; destruct (snd D2) eqn:Sd; auto; specialize (Nd eq_refl); unfold gnumber; destruct (fst D2); congruence.
    + apply nth_error_None in Hf. rewrite (proj2 (nth_error_None cols ci)), (proj2 (nth_error_None cols' ci)); auto.
      all: first [pose proof (mapM_len _ _ _ Eo1') as Lo; rewrite Lo; lia | pose proof (mapM_len _ _ _ Eo2) as Lo; rewrite Lo; lia].
Qed.

(** ** C91: heights: the same with extrapolation from extract_constants and from
    read_constants followed by interpolate_constants.  For splines masked constants are on
    land only; for the methods of scipy the constants of water are not masked and not zero *)
Theorem C91_read_heights : forall fwd geo around w x0 dx nx y0 dy ny g hcs lonlat ex c depths cols depths' cols',
  model_grid geo around x0 dx nx y0 dy ny g hcs ->
  (around = true -> forall p, In p lonlat -> in_span x0 dx nx (fwd p)) ->
  (w = Quick Spline -> forall hc, In hc hcs -> forall j i, (j < ny)%nat -> (i < nx)%nat ->
    snd (entry (None, true) hc j i) = true -> water (entry 0 (ghz g)) (entry 0%Z (gmz g)) around nx Heights j i = None) ->
  (forall me, w = Regular me -> forall hc, In hc hcs -> forall j i, (j < ny)%nat -> (i < nx)%nat -> fst (entry (None, true) hc j i) <> None /\
    (water (entry 0 (ghz g)) (entry 0%Z (gmz g)) around nx Heights j i <> None -> snd (entry (None, true) hc j i) = false /\ fst (entry (None, true) hc j i) <> Some (0, 0))) ->
  read_constants geo Vz g hcs = Ok c ->
  extract_extrapolated fwd geo w Vz ex g hcs lonlat = Ok (depths, cols) -> interpolate_extrapolated fwd geo w Vz ex c lonlat = Ok (depths', cols') ->
  map seen depths' = map seen depths /\ cols' = cols.
Proof.
  intros fwd geo around w x0 dx nx y0 dy ny g hcs lonlat ex c depths cols depths' cols' M Hp Hs Hr Hc H H'.
  destruct (read_state _ _ _ _ _ _ _ _ _ _ _ _ _ M (eq_refl : kind_of Vz = Some Heights) Hc) as (Ax & Ay & _).
  assert (Nx : (2 <= nx)%nat) by apply M. assert (Ny : (2 <= ny)%nat) by apply M. assert (Hdx : 0 < dx) by apply M. assert (Ey : evenly y0 dy ny (gy g)) by apply M.
  assert (N2 : (2 <= ncols around nx)%nat) by (unfold ncols; destruct around; lia).
  destruct (evenly_ends _ _ _ _ Ax N2) as [Lo Hi]. unfold node_x in Lo, Hi. replace (_ + 0 * dx) with (if around then x0 - dx else x0) in Lo, Hi by lra.
  eapply (read_same_filled fwd geo around w Vz Heights); eauto; try (intros K; discriminate K).
  - unfold plain. destruct w as [[|]|me]; eauto.
  - intros lo hi E1 E2. rewrite Lo in E1. rewrite Hi in E2. apply Ok_inj in E1 as <-. apply Ok_inj in E2 as <-.
    destruct around; [|reflexivity]. destruct lonlat as [|p0 l]; [reflexivity|].
    rewrite !batch_none; auto; try discriminate; intros _ q Hq; apply in_map_iff in Hq as (p & <- & Hin); destruct (Hp eq_refl p Hin) as [P1 P2]; cbn [ncols]; assert (K : INR (nx + 2 - 1) = INR (nx - 1) + 2) by (replace (nx + 2 - 1)%nat with (S (S (nx - 1))) by lia; rewrite !S_INR; lra); rewrite ?K; split; lra.
  - intros pts q _ _ xe Hxe. unfold outside_axes. rewrite Lo, Hi. destruct (evenly_ends _ _ _ _ Hxe N2) as [-> ->].
    destruct (evenly_ends _ _ _ _ Ay Ny) as [-> ->]. destruct (evenly_ends _ _ _ _ Ey Ny) as [-> ->]. cbn [bind]. unfold node_y. cbn [INR]. now replace (y0 + 0 * dy) with y0 by lra.
Qed.
Print Assumptions C91_read_heights.
(** all the variables, for points within the model and within the nodes of the variable;
    velocities not by the bilinear method, whose depth is treated differently (see
    C91_edge_refuted) *)
Theorem C91_read_inside : forall fwd geo around w t k x0 dx nx y0 dy ny g hcs lonlat ex c depths cols depths' cols',
  model_grid geo around x0 dx nx y0 dy ny g hcs -> kind_of t = Some k -> (k = Zonal -> around = true) ->
  (forall p, In p lonlat -> in_span x0 dx nx (fwd p) /\ in_rows y0 dy ny (fwd p) /\
     fst (fwd p) <= node_x k x0 dx (last_column around nx) /\ snd (fwd p) <= node_y k y0 dy (ny - 1)) ->
  (w = Quick Spline -> forall hc, In hc hcs -> forall j i, (j < ny)%nat -> (i < nx)%nat ->
    snd (entry (None, true) hc j i) = true -> water (entry 0 (ghz g)) (entry 0%Z (gmz g)) around nx k j i = None) ->
  (forall me, w = Regular me -> forall hc, In hc hcs -> forall j i, (j < ny)%nat -> (i < nx)%nat -> fst (entry (None, true) hc j i) <> None /\
    (water (entry 0 (ghz g)) (entry 0%Z (gmz g)) around nx k j i <> None -> snd (entry (None, true) hc j i) = false /\ fst (entry (None, true) hc j i) <> Some (0, 0))) ->
  (velocity t = true -> w <> Quick Bilinear) ->
  read_constants geo t g hcs = Ok c ->
  extract_extrapolated fwd geo w t ex g hcs lonlat = Ok (depths, cols) -> interpolate_extrapolated fwd geo w t ex c lonlat = Ok (depths', cols') ->
  map seen depths' = map seen depths /\ cols' = cols.
Proof.
  intros fwd geo around w t k x0 dx nx y0 dy ny g hcs lonlat ex c depths cols depths' cols' M Hk Hw Hp Hs Hr Hv Hc H H'.
  destruct (read_state _ _ _ _ _ _ _ _ _ _ _ _ _ M Hk Hc) as (Ax & Ay & _).
  assert (Nx : (2 <= nx)%nat) by apply M. assert (Ny : (2 <= ny)%nat) by apply M. assert (Hdx : 0 < dx) by apply M. assert (Ey : evenly y0 dy ny (gy g)) by apply M.
  assert (Hdy : 0 < dy) by apply Ey.
  assert (N2 : (2 <= ncols around nx)%nat) by (unfold ncols; destruct around; lia).
  destruct (evenly_ends _ _ _ _ Ax N2) as [Lo Hi].
  assert (HiE : node_x k (if around then x0 - dx else x0) dx 0 + INR (ncols around nx - 1) * dx = node_x k x0 dx (last_column around nx)).
  { unfold node_x, ncols, last_column. destruct around.
    - replace (nx + 2 - 1)%nat with (S nx) by lia. rewrite S_INR, INR_IZR_INZ. destruct k; lra.
    - rewrite minus_IZR, <- INR_IZR_INZ, minus_INR by lia. cbn [INR]. destruct k; lra. }
  assert (LoE : node_x k (if around then x0 - dx else x0) dx 0 <= x0) by (unfold node_x; destruct around, k; lra).
  rewrite HiE in Hi.
  assert (YhE : node_y k y0 dy 0 + INR (ny - 1) * dy = node_y k y0 dy (ny - 1)) by (unfold node_y; cbn [INR]; destruct k; lra).
  assert (YlE : node_y k y0 dy 0 <= y0) by (unfold node_y; cbn [INR]; destruct k; lra).
  destruct (evenly_ends _ _ _ _ Ay Ny) as [La Ha]. rewrite YhE in Ha.
  assert (Bt : batch geo x0 (x0 + INR (nx - 1) * dx) (map fwd lonlat) = match lonlat with [] => Err ValueError | _ => Ok (map fwd lonlat) end).
  { destruct lonlat as [|p0 l]; [unfold batch; destruct geo; reflexivity|]. apply batch_none; [discriminate|]. intros _ q Hq. apply in_map_iff in Hq as (p & <- & Hin). apply (Hp p Hin). }
  eapply (read_same_filled fwd geo around w t k); eauto.
  - unfold plain. destruct w as [[|]|me]; eauto.
  - intros lo hi E1 E2. rewrite Lo in E1. rewrite Hi in E2. apply Ok_inj in E1 as <-. apply Ok_inj in E2 as <-. rewrite Bt.
    destruct lonlat as [|p0 l]; [unfold batch; destruct geo; reflexivity|]. apply batch_none; [discriminate|]. intros _ q Hq. apply in_map_iff in Hq as (p & <- & Hin).
    destruct (Hp p Hin) as ([P1 P2] & _ & P3 & _). split; lra.
  - intros pts q Eb Hq xe Hxe. rewrite Bt in Eb. assert (pts = map fwd lonlat) as -> by (destruct lonlat; [discriminate|now apply Ok_inj in Eb]).
    apply in_map_iff in Hq. destruct Hq as (p & <- & Hin). destruct (Hp p Hin) as (P1 & P2 & P3 & P4).
    rewrite (inside_valid around x0 dx nx y0 dy ny xe (gy g) (fwd p)) by (auto; now apply span_reach).
    unfold outside_axes. rewrite Lo, Hi, La, Ha. cbn [bind]. destruct P1 as [P1 _], P2 as [P2 _]. now rewrite !rlt_f by lra.
Qed.
Print Assumptions C91_read_inside.
