(** C91: interpolation of OTIS constituents that were read, with extrapolation: errors, and
    what there is without the option. *)
From Coq Require Import Reals List Bool Arith ZArith Lra Lia.
From Verif Require Import PyBase RBase MathModel GeoModel ConvertProps GridModel InterpModel InterpProps ExtrapProps ExtractModel ExtractSpec NodeProps ExtractProofs ExtractProps SplineProps ReadProps ReturnProps SeriesModel SeriesProps3 RegularModel RegularProps5 CropModel ShoreModel ShoreSpec ShoreProofs CoastModel CoastSpec CoastProofs CoastProps CoastProps2 FjordModel FjordProofs.
Import ListNotations.
Open Scope R_scope.

(** ** The option makes no difference to errors *)
Theorem C91_errors : forall fwd geo w t cutoff c lonlat x,
  interpolate_extrapolated fwd geo w t (Some cutoff) c lonlat = Err x <-> interpolate_extrapolated fwd geo w t None c lonlat = Err x.
Proof.
  intros. unfold interpolate_extrapolated. destruct (amin (cx c)) as [lo|]; [|reflexivity]. cbn [bind]. destruct (amax (cx c)) as [hi|]; [|reflexivity]. cbn [bind].
  destruct (batch geo lo hi (map fwd lonlat)) as [pts|]; [|reflexivity]. cbn [bind].
  destruct (mapM (outside_axes (cx c) (cy c)) pts) as [inv|]; [|reflexivity]. cbn [bind].
  destruct (mapM (depth_again w (cx c) (cy c) (cbath c)) pts) as [ds|]; [|reflexivity]. cbn [bind].
  set (f := fun hc => values_again geo w t (Some cutoff) (cx c) (cy c) hc (combine pts (combine inv ds))).
  set (h := fun hc => values_again geo w t None (cx c) (cy c) hc (combine pts (combine inv ds))).
  assert (K := mapM_err f h (cfields c) x). destruct K as [K1 K2]. { intros hc _ y. unfold f, h. apply values_again_err. }
  destruct (mapM f (cfields c)) as [u|u], (mapM h (cfields c)) as [v|v]; cbn [bind] in *; split; intros H; try discriminate; injection H as ->;
    solve [pose proof (K2 eq_refl) as K; discriminate K | pose proof (K1 eq_refl) as K; discriminate K | pose proof (K1 eq_refl) as K; injection K as ->; reflexivity | pose proof (K2 eq_refl) as K; injection K as ->; reflexivity].
Qed.
Print Assumptions C91_errors.

(** ** Without the option: interpolation as in C68 and C82 *)
Lemma swap_tables {A} (at_ : A * (bool * gcell R) -> field -> res (option (R * R))) pts inv ds (fs : list field) rows :
  length inv = length pts -> length ds = length pts ->
  mapM (fun p => do cs <- mapM (at_ p) fs ;; Ok (snd (snd p), cs)) (combine pts (combine inv ds)) = Ok rows ->
  exists cols, mapM (fun f => mapM (fun p => at_ p f) (combine pts (combine inv ds))) fs = Ok cols /\ same_table rows ds cols (length fs).
Proof.
  intros Li Ld H. set (pps := combine pts (combine inv ds)) in *. assert (Lp : length pps = length pts) by (unfold pps; rewrite !combine_length; lia).
  destruct (rows_table (fun p => mapM (at_ p) fs) ds rows pts inv Li Ld H) as (tab & Et & -> & Lt). fold pps in Et, Lt.
  assert (Cols : exists cols, mapM (fun f => mapM (fun p => at_ p f) pps) fs = Ok cols).
  { apply mapM_in. intros f If. apply mapM_in. intros p Ip. destruct (mapM_ok_in _ _ _ p Et Ip) as [row Er]. destruct (mapM_ok_in _ _ _ f Er If) as [v Ev]. eauto. }
  destruct Cols as [cols Ec]. exists cols. split; [exact Ec|].
  split. { clear - Lt Lp Ld. assert (L : length ds = length tab) by lia. clear Lt Lp Ld. revert tab L. induction ds as [|D ds IH]; intros [|r tab] L; try discriminate; auto. cbn. f_equal. apply IH. auto. }
  split. { exact (mapM_len _ _ _ Ec). }
  intros n D row Hn. assert (Hrow : nth_error tab n = Some row). { clear - Hn. revert ds tab Hn. induction n as [|n IH]; intros [|D' ds] [|r tab] Hn; try discriminate; cbn in *; [congruence | eapply IH; eauto]. }
  split. { assert (Ip : exists p, nth_error pps n = Some p). { destruct (nth_error pps n) eqn:E; eauto. apply nth_error_None in E. assert (n < length tab)%nat by (apply nth_error_Some; congruence). lia. }
    destruct Ip as [p Hp]. destruct (mapM_nth _ _ _ _ _ Et Hp) as (r & R1 & R2). rewrite Hrow in R2. injection R2 as <-. exact (mapM_len _ _ _ R1). }
  intros c v Hv. destruct (mapM_swap at_ pps fs tab cols Et Ec n c row v Hrow Hv) as (col & C1 & C2). exists col. split; [exact C1|]. split; [|exact C2].
  assert (If : exists f, nth_error fs c = Some f). { destruct (nth_error fs c) eqn:E; eauto. apply nth_error_None in E. pose proof (mapM_len _ _ _ Ec). assert (c < length cols)%nat by (apply nth_error_Some; congruence). lia. }
  destruct If as [f Hf]. destruct (mapM_nth _ _ _ _ _ Ec Hf) as (col' & C3 & C4). rewrite C1 in C4. injection C4 as <-. pose proof (mapM_len _ _ _ C3) as L3. etransitivity; [exact L3|]. etransitivity; [|symmetry; exact (combine_length ds tab)]. lia.
Qed.
(** what has been read: depths that are numbers, and fields masked where they are *)
Lemma read_state geo around t k x0 dx nx y0 dy ny g hcs c : model_grid geo around x0 dx nx y0 dy ny g hcs -> kind_of t = Some k -> read_constants geo t g hcs = Ok c ->
  evenly (node_x k (if around then x0 - dx else x0) dx 0) dx (ncols around nx) (cx c) /\ evenly (node_y k y0 dy 0) dy ny (cy c) /\
  axis (cx c) /\ axis (cy c) /\ rect ny (ncols around nx) (cbath c) /\ all_of (cbath c) /\
  (forall j e, (j < ny)%nat -> (e < ncols around nx)%nat -> fst (entry (None, true) (cbath c) j e) <> None) /\
  (forall j e, (j < ny)%nat -> (e < ncols around nx)%nat -> sound_column k around (col around nx e) ->
      depth_entry (water (entry 0 (ghz g)) (entry 0%Z (gmz g)) around nx k j (col around nx e)) (entry (None, true) (cbath c) j e)) /\
  length (cfields c) = length hcs /\
  forall n hc, nth_error hcs n = Some hc -> exists f, nth_error (cfields c) n = Some f /\ rect ny (ncols around nx) f /\
    (forall j e, (j < ny)%nat -> (e < ncols around nx)%nat ->
       entry (None, true) f j e = (fst (entry (None, true) hc j (col around nx e)), snd (entry (None, true) hc j (col around nx e)) || snd (entry (None, true) (cbath c) j e))).
Proof.
  intros M Hk Hc. destruct (read_total _ _ _ _ _ _ _ _ _ _ _ _ M Hk) as (xi & yi & b & fs & Er & Hxi & Hyi & Rb & Nb & Ef).
  assert (Ad : all_of (cbath c)).
  { unfold read_constants in Hc. destruct (spacing (gx g)) as [dx'|]; [|discriminate]. cbn [bind] in Hc. destruct (spacing (gy g)) as [dy'|]; [|discriminate]. cbn [bind] in Hc.
    set (gl := geo && _) in Hc. destruct (if gl then extend_axis (gx g) dx' else Ok (gx g)) as [xe|]; [|discriminate]. cbn [bind] in Hc.
    destruct (layer gl dx' dy' xe (gy g) g t) as [[[xi' yi'] b']|] eqn:El; [|discriminate]. cbn [bind] in Hc.
    match type of Hc with bind ?m _ = _ => destruct m as [fs'|]; [|discriminate] end. cbn [bind] in Hc. apply Ok_inj in Hc as <-. cbn [cbath]. intros r cl. exact (layer_data _ _ _ _ _ _ _ _ _ _ El r cl). }
  rewrite Er in Hc. apply Ok_inj in Hc as <-. cbn [cx cy cbath cfields] in *. destruct M as (Ex & Ey & Hx & Hy & Rh & Rm & Rc & _).
  assert (N2 : (2 <= ncols around nx)%nat) by (unfold ncols; destruct around; lia).
  split; [exact Hxi|]. split; [exact Hyi|]. split; [eapply evenly_axis; eauto|]. split; [eapply evenly_axis; eauto|]. split; [exact Rb|]. split; [exact Ad|].
  split. { intros j e Hj He. destruct (entry_in ny (ncols around nx) b (None, true) j e Rb Hj He) as (row & Hrow & Hcell). eapply Ad; eauto. }
  split; [exact Nb|]. split; [exact (mapM_len _ _ _ Ef)|]. intros n hc Hn. exact (fields_entries around ny nx b hcs fs Rb Hx Rc Ef n hc Hn).
Qed.
Lemma field_of geo around t k x0 dx nx y0 dy ny g hcs c : model_grid geo around x0 dx nx y0 dy ny g hcs -> kind_of t = Some k -> read_constants geo t g hcs = Ok c ->
  forall f, In f (cfields c) -> rect ny (ncols around nx) f /\
    forall j e, (j < ny)%nat -> (e < ncols around nx)%nat -> snd (entry (None, true) (cbath c) j e) = true -> snd (entry (None, true) f j e) = true.
Proof.
  intros M Hk Hc f If. destruct (read_state _ _ _ _ _ _ _ _ _ _ _ _ _ M Hk Hc) as (_ & _ & _ & _ & _ & _ & _ & _ & Lf & St).
  apply In_nth_error in If as [n Hn]. destruct (nth_error hcs n) as [hc|] eqn:Eh; [|apply nth_error_None in Eh; assert (n < length (cfields c))%nat by (apply nth_error_Some; congruence); lia].
  destruct (St n hc Eh) as (f' & Hf & Rf & Nf). assert (f' = f) as -> by congruence. split; [exact Rf|]. intros j e Hj He Sb. rewrite Nf by auto. cbn [snd]. rewrite Sb. apply orb_true_r.
Qed.
Lemma spot_number geo around t k x0 dx nx y0 dy ny g hcs c w f q D h : model_grid geo around x0 dx nx y0 dy ny g hcs -> kind_of t = Some k -> read_constants geo t g hcs = Ok c ->
  In f (cfields c) -> depth_again w (cx c) (cy c) (cbath c) q = Ok D -> constant_of w (cx c) (cy c) (readied w f) q = Ok h -> masked_again w D h = false -> fst D <> None.
Proof.
  intros M Hk Hc If HD Eh Mh. destruct (read_state _ _ _ _ _ _ _ _ _ _ _ _ _ M Hk Hc) as (Hxi & Hyi & A1 & A2 & Rb & Ab & Fb & _). destruct (field_of _ _ _ _ _ _ _ _ _ _ _ _ _ M Hk Hc f If) as [Rf Mf].
  exact (depth_number w (cx c) (cy c) ny (ncols around nx) (cbath c) f q h D A1 A2 (proj1 (proj2 Hxi)) (proj1 (proj2 Hyi)) Rb Rf Ab Fb Mf HD Eh Mh).
Qed.
Lemma value_convert t inv D h (m : bool) : (m = false -> fst D <> None /\ snd D = false) ->
  value_again t inv D (h, m) = if m || inv then None else match fst h with Some z => Some (convert t D z, phase_of z) | None => None end.
Proof.
  intros K. unfold value_again. cbn [fst snd]. destruct m; [reflexivity|]. destruct (K eq_refl) as [Nd Sd]. destruct inv; [reflexivity|]. cbn [orb]. destruct (fst h) as [z|]; [|reflexivity].
  unfold divided_again, convert, gnumber. rewrite Sd. destruct (fst D) as [d|]; [|congruence]. destruct t; reflexivity.
Qed.
Theorem C91_off : forall fwd geo around me t k x0 dx nx y0 dy ny g hcs lonlat c rows c',
  model_grid geo around x0 dx nx y0 dy ny g hcs -> kind_of t = Some k -> read_constants geo t g hcs = Ok c ->
  interpolate_constants fwd geo me t c lonlat = Ok (rows, c') ->
  exists depths cols, interpolate_extrapolated fwd geo (Quick me) t None c lonlat = Ok (depths, cols) /\ same_table rows depths cols (length hcs).
Proof.
  intros fwd geo around me t k x0 dx nx y0 dy ny g hcs lonlat c rows c' M Hk Hc H.
  destruct (read_state _ _ _ _ _ _ _ _ _ _ _ _ _ M Hk Hc) as (_ & _ & _ & _ & _ & _ & _ & _ & Lf & _). unfold interpolate_constants in H. unfold interpolate_extrapolated.
  destruct (amin (cx c)) as [lo|]; [|discriminate]. cbn [bind] in *. destruct (amax (cx c)) as [hi|]; [|discriminate]. cbn [bind] in *.
  destruct (batch geo lo hi (map fwd lonlat)) as [pts|]; [|discriminate]. cbn [bind] in *.
  destruct (mapM (outside_axes (cx c) (cy c)) pts) as [inv|] eqn:Ei; [|discriminate]. cbn [bind] in *.
  change (depth_again (Quick me) (cx c) (cy c) (cbath c)) with (interpolate_depth me (cx c) (cy c) (cbath c)).
  destruct (mapM (interpolate_depth me (cx c) (cy c) (cbath c)) pts) as [ds|] eqn:Ed; [|discriminate]. cbn [bind] in *. rewrite (not_other t k) in H by auto.
  match type of H with bind ?m _ = _ => destruct m as [o|] eqn:Eo; [|discriminate] end. cbn [bind] in H. apply Ok_inj in H. injection H as -> _.
  assert (Es : mapM (fun p => do cs <- mapM (spot (Quick me) (cx c) (cy c) t p) (cfields c) ;; Ok (snd (snd p), cs)) (combine pts (combine inv ds)) = Ok rows).
  { etransitivity; [|exact Eo]. apply mapM_ext_in. intros [q [i D]] Hin. cbn [snd]. f_equal. apply mapM_ext_in. intros f If.
    pose proof (RegularProps5.in_combine_value _ _ _ _ _ _ _ Ed Hin) as HD. unfold spot, constant_again. cbn [fst snd].
    assert (Same : constant_of (Quick me) (cx c) (cy c) (readied (Quick me) f) q = match me with Bilinear => cbilinear (cx c) (cy c) (drop_invalid f) q | Spline => cspline (cx c) (cy c) f q end) by (destruct me; reflexivity).
    rewrite <- Same. clear Same. destruct (constant_of (Quick me) (cx c) (cy c) (readied (Quick me) f) q) as [h|] eqn:Eh; [|reflexivity]. cbn [bind]. f_equal.
    rewrite value_convert; [destruct me; reflexivity|]. intros Mh. split; [exact (spot_number _ _ _ _ _ _ _ _ _ _ _ _ _ (Quick me) f q D h M Hk Hc If HD Eh Mh)|].
    destruct me; cbn [masked_again] in Mh; [now apply orb_false_iff in Mh | exact Mh]. }
  destruct (swap_tables (spot (Quick me) (cx c) (cy c) t) pts inv ds (cfields c) rows (mapM_len _ _ _ Ei) (mapM_len _ _ _ Ed) Es) as (cols & Ec & St).
  exists ds, cols. rewrite Lf in St. split; [|exact St]. rewrite (mapM_same _ (fun f => mapM (fun p => spot (Quick me) (cx c) (cy c) t p f) (combine pts (combine inv ds)))) by (intros f; exact (values_spots geo (Quick me) t k (cx c) (cy c) f _ Hk)).
  rewrite Ec. reflexivity.
Qed.
Print Assumptions C91_off.
Theorem C91_off_regular : forall fwd geo around me t k x0 dx nx y0 dy ny g hcs lonlat c rows,
  model_grid geo around x0 dx nx y0 dy ny g hcs -> kind_of t = Some k -> read_constants geo t g hcs = Ok c ->
  interpolate_otis_regular fwd geo me t c lonlat = Ok rows ->
  exists depths cols, interpolate_extrapolated fwd geo (Regular me) t None c lonlat = Ok (depths, cols) /\ same_table rows depths cols (length hcs).
Proof.
  intros fwd geo around me t k x0 dx nx y0 dy ny g hcs lonlat c rows M Hk Hc H.
  destruct (read_state _ _ _ _ _ _ _ _ _ _ _ _ _ M Hk Hc) as (_ & _ & _ & _ & _ & _ & _ & _ & Lf & _). unfold interpolate_otis_regular in H. unfold interpolate_extrapolated.
  destruct (amin (cx c)) as [lo|]; [|discriminate]. cbn [bind] in *. destruct (amax (cx c)) as [hi|]; [|discriminate]. cbn [bind] in *.
  destruct (batch geo lo hi (map fwd lonlat)) as [pts|]; [|discriminate]. cbn [bind] in *.
  destruct (mapM (outside_axes (cx c) (cy c)) pts) as [inv|] eqn:Ei; [|discriminate]. cbn [bind] in *.
  change (depth_again (Regular me) (cx c) (cy c) (cbath c)) with (rregular me (cx c) (cy c) (cbath c)).
  destruct (mapM (rregular me (cx c) (cy c) (cbath c)) pts) as [ds|] eqn:Ed; [|discriminate]. cbn [bind] in *. rewrite (not_other t k) in H by auto.
  assert (Es : mapM (fun p => do cs <- mapM (spot (Regular me) (cx c) (cy c) t p) (cfields c) ;; Ok (snd (snd p), cs)) (combine pts (combine inv ds)) = Ok rows).
  { etransitivity; [|exact H]. apply mapM_ext_in. intros [q [i D]] Hin. cbn [snd]. f_equal. apply mapM_ext_in. intros f If.
    pose proof (RegularProps5.in_combine_value _ _ _ _ _ _ _ Ed Hin) as HD. unfold spot, constant_regular. cbn [fst snd].
    change (cregular me (cx c) (cy c) (map (map fill_zero) f) q) with (constant_of (Regular me) (cx c) (cy c) (readied (Regular me) f) q).
    destruct (constant_of (Regular me) (cx c) (cy c) (readied (Regular me) f) q) as [h|] eqn:Eh; [|reflexivity]. cbn [bind]. f_equal.
    rewrite value_convert; [reflexivity|]. intros Mh. split; [exact (spot_number _ _ _ _ _ _ _ _ _ _ _ _ _ (Regular me) f q D h M Hk Hc If HD Eh Mh)|].
    cbn [masked_again] in Mh. now apply orb_false_iff in Mh. }
  destruct (swap_tables (spot (Regular me) (cx c) (cy c) t) pts inv ds (cfields c) rows (mapM_len _ _ _ Ei) (mapM_len _ _ _ Ed) Es) as (cols & Ec & St).
  exists ds, cols. rewrite Lf in St. split; [|exact St]. rewrite (mapM_same _ (fun f => mapM (fun p => spot (Regular me) (cx c) (cy c) t p f) (combine pts (combine inv ds)))) by (intros f; exact (values_spots geo (Regular me) t k (cx c) (cy c) f _ Hk)).
  rewrite Ec. reflexivity.
Qed.
Print Assumptions C91_off_regular.
