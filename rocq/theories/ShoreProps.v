(** C84: constants extrapolated from the nearest valid node. *)
From Coq Require Import Reals List Bool Arith ZArith Lra Lia.
From Verif Require Import PyBase RBase MathModel GeoModel ConvertProps GridModel GridProofs InterpModel InterpProps ExtrapProps ExtractModel ExtractSpec NodeProps ExtractProofs ExtractProps SplineProps ReturnProps MergeSpec MergeProps SeriesModel SeriesSpec SeriesProofs SeriesProps SeriesProps2 SeriesProps3 RegularModel RegularSpec RegularProofs RegularProps RegularProps2 CropModel CropSpec CropProofs CropProofs2 CropProps CropProps2 CropProps3 CropProps4 ShoreModel ShoreSpec ShoreProofs.
Import ListNotations.
Open Scope R_scope.

(** ** Without extrapolation the constants are those of C69, C82 and C83 *)
Lemma fill_files_off src w sc b buffer files : forall pts, fill_files src w sc b buffer None files pts = crop_files src w sc b buffer files pts.
Proof.
  induction files as [|s files IH]; intros pts; [reflexivity|]. cbn [fill_files crop_files]. destruct (spacing (slon s)) as [d|]; [|reflexivity]. cbn [bind].
  destruct (if any_limit b then crop_sheet _ _ s else Ok s) as [t|]; [|reflexivity]. cbn [bind]. destruct (if any_limit b then Ok pts else adjust _ pts) as [pts'|]; [|reflexivity]. cbn [bind].
  destruct (extend_cut _ _ t) as [e|]; [|reflexivity]. cbn [bind]. rewrite file_values_none. destruct (mapM _ pts') as [cs|]; [|reflexivity]. cbn [bind]. now rewrite IH.
Qed.
Theorem C84_off : forall src w sc bounds buffer files pts,
  extract_options src w sc true bounds buffer None files pts = extract_cropped src w sc bounds buffer files pts.
Proof.
  intros. unfold extract_options, extract_cropped. destruct (amin _); [|reflexivity]. cbn [bind]. destruct (amax _); [|reflexivity]. cbn [bind].
  destruct (amin _); [|reflexivity]. cbn [bind]. destruct (amax _); [|reflexivity]. cbn [bind]. apply fill_files_off.
Qed.
Print Assumptions C84_off.
Lemma uncropped_off src w sc bounds buffer files pts : extract_options src w sc false bounds buffer None files pts = extract_cropped src w sc (Some (Limits 0 0 0 0)) buffer files pts.
Proof. rewrite <- C84_off. reflexivity. Qed.
Theorem C84_off_whole : forall src me sc bounds buffer files pts,
  extract_options src (Quick me) sc false bounds buffer None files pts = extract_series src me sc files pts.
Proof. intros. rewrite uncropped_off. apply C83_zero. Qed.
Print Assumptions C84_off_whole.
Theorem C84_off_regular : forall src me sc bounds buffer files pts,
  extract_options src (Regular me) sc false bounds buffer None files pts = extract_series_regular src me sc files pts.
Proof. intros. rewrite uncropped_off. apply C83_zero_regular. Qed.
Print Assumptions C84_off_regular.

(** ** Extrapolation never fails where interpolation does not *)
Lemma file_values_both src w sc c e pts : (exists cs cs0, file_values src w sc (Some c) e pts = Ok cs /\ file_values src w sc None e pts = Ok cs0) \/
  exists x, file_values src w sc (Some c) e pts = Err x /\ file_values src w sc None e pts = Err x.
Proof. unfold file_values. destruct (mapM _ pts); cbn [bind]; [left | right]; eauto. Qed.
Lemma fill_files_both src w sc b buffer c files : forall pts, (exists out out0, fill_files src w sc b buffer (Some c) files pts = Ok out /\ fill_files src w sc b buffer None files pts = Ok out0) \/
  exists x, fill_files src w sc b buffer (Some c) files pts = Err x /\ fill_files src w sc b buffer None files pts = Err x.
Proof.
  induction files as [|s files IH]; intros pts; cbn [fill_files]; [left; eauto|]. destruct (spacing (slon s)) as [d|]; [|right; eexists; split; reflexivity]. cbn [bind].
  destruct (if any_limit b then crop_sheet _ _ s else Ok s) as [t|]; [|right; eexists; split; reflexivity]. cbn [bind]. destruct (if any_limit b then Ok pts else adjust _ pts) as [pts'|]; [|right; eexists; split; reflexivity]. cbn [bind].
  destruct (extend_cut _ _ t) as [e|]; [|right; eexists; split; reflexivity]. cbn [bind]. destruct (file_values_both src w sc c e pts') as [(cs & cs0 & -> & ->)|(x & -> & ->)]; [|right; eexists; split; reflexivity]. cbn [bind].
  destruct (IH pts') as [(o & o0 & -> & ->)|(x & -> & ->)]; cbn [bind]; [left; exists (cs :: o), (cs0 :: o0); auto | right; eexists; split; reflexivity].
Qed.
Lemma options_both src w sc crop bounds buffer c files pts : (exists out out0, extract_options src w sc crop bounds buffer (Some c) files pts = Ok out /\ extract_options src w sc crop bounds buffer None files pts = Ok out0) \/
  exists x, extract_options src w sc crop bounds buffer (Some c) files pts = Err x /\ extract_options src w sc crop bounds buffer None files pts = Err x.
Proof.
  unfold extract_options. destruct (amin (map fst pts)); [|right; eexists; split; reflexivity]. cbn [bind]. destruct (amax (map fst pts)); [|right; eexists; split; reflexivity]. cbn [bind].
  destruct (amin (map snd pts)); [|right; eexists; split; reflexivity]. cbn [bind]. destruct (amax (map snd pts)); [|right; eexists; split; reflexivity]. cbn [bind]. apply fill_files_both.
Qed.
Theorem C84_errors : forall src w sc crop bounds buffer cutoff files pts x,
  extract_options src w sc crop bounds buffer (Some cutoff) files pts = Err x <-> extract_options src w sc crop bounds buffer None files pts = Err x.
Proof.
  intros. destruct (options_both src w sc crop bounds buffer cutoff files pts) as [(o & o0 & -> & ->)|(x' & -> & ->)]; split; intros H; try discriminate; auto.
Qed.
Print Assumptions C84_errors.

(** ** The whole model *)
Lemma placed_turns fr x : exists k, placed fr x = x + 360 * IZR k.
Proof.
  destruct fr; cbn [placed]; unfold eastward, westward; repeat destruct (Rlt_dec _ _); [exists 1%Z | exists 0%Z | exists (-1)%Z | exists 0%Z | exists 0%Z]; lra.
Qed.
Lemma nearby_turns c x0 dx nx y0 dy ny z x y k j i : nearby c x0 dx nx y0 dy ny z (x + 360 * IZR k, y) j i <-> nearby c x0 dx nx y0 dy ny z (x, y) j i.
Proof. unfold nearby. now rewrite chord_turns. Qed.
Lemma nearest_turns c x0 dx nx y0 dy ny z x y k j i : nearest_valid c x0 dx nx y0 dy ny z (x + 360 * IZR k, y) j i <-> nearest_valid c x0 dx nx y0 dy ny z (x, y) j i.
Proof.
  unfold nearest_valid. rewrite nearby_turns. rewrite chord_turns. split; intros [H K]; split; auto; intros j' i' H'; specialize (K j' i'); rewrite nearby_turns, chord_turns in *; auto.
Qed.
Lemma no_limits : any_limit (Limits 0 0 0 0) = false.
Proof. unfold any_limit; cbn [x_min x_max y_min y_max]; now rewrite req_t. Qed.
Lemma fill_files_nth src w sc fr buffer ex files : (forall s, In s files -> framed fr (slon s)) -> forall pts out,
  (forall q, In q pts -> -360 <= fst q <= 540) -> fill_files src w sc (Limits 0 0 0 0) buffer ex files pts = Ok out ->
  length out = length files /\
  forall c s, nth_error files c = Some s -> exists e cs, extend_sheet src s = Ok e /\
    file_values src w sc ex e (map (fun p => (placed fr (fst p), snd p)) pts) = Ok cs /\ nth_error out c = Some cs.
Proof.
  induction files as [|s files IH]; intros Hf pts out Hp H.
  - apply Ok_inj in H as <-. split; auto. intros [|c] s Hc; discriminate.
  - cbn [fill_files] in H. rewrite no_limits in H. destruct (spacing (slon s)) as [d|] eqn:Ed; [|discriminate]. cbn [bind] in H.
    destruct (adjust (slon s) pts) as [pts'|] eqn:Ea; [|discriminate]. cbn [bind] in H.
    rewrite extend_cut_same in H by auto. destruct (extend_sheet src s) as [e|] eqn:Ee; [|discriminate]. cbn [bind] in H.
    destruct (file_values src w sc ex e pts') as [cs|] eqn:Ec; [|discriminate]. cbn [bind] in H.
    destruct (fill_files src w sc (Limits 0 0 0 0) buffer ex files pts') as [out'|] eqn:Eo; [|discriminate]. cbn [bind] in H. apply Ok_inj in H as <-.
    apply (adjust_placed fr) in Ea; [|apply Hf; now left]. subst pts'.
    assert (Hp' : forall q, In q (map (fun p : R * R => (placed fr (fst p), snd p)) pts) -> -360 <= fst q <= 540).
    { intros q Hq. apply in_map_iff in Hq as (p & <- & Hq). cbn [fst]. apply placed_twice. auto. }
    destruct (IH (fun s' Hs => Hf s' (or_intror Hs)) _ _ Hp' Eo) as [Lo Vo]. split; [cbn [length]; lia|].
    intros [|c] s' Hc; cbn [nth_error] in Hc; [injection Hc as <-; exists e, cs; auto|].
    destruct (Vo c s' Hc) as (e' & cs' & E1 & E2 & E3). exists e', cs'. split; [auto|]. split; [|exact E3].
    rewrite map_map in E2. cbn [fst snd] in E2. rewrite <- E2. f_equal. apply map_ext_in. intros p Hq. f_equal. symmetry. apply placed_twice. auto.
Qed.
Lemma series_inv_options src w sc fr bounds buffer ex files pts out c s around x0 dx nx y0 dy ny :
  (forall s, In s files -> framed fr (slon s)) -> (forall q, In q pts -> -360 <= fst q <= 540) ->
  extract_options src w sc false bounds buffer ex files pts = Ok out ->
  nth_error files c = Some s -> sheet_grid around x0 dx nx y0 dy ny s ->
  exists e cs, extend_sheet src s = Ok e /\ grown src around x0 dx nx y0 dy ny s e /\ (around = true -> INR nx * dx = 360) /\
    nth_error out c = Some cs /\ file_values src w sc ex e (map (fun p => (placed fr (fst p), snd p)) pts) = Ok cs.
Proof.
  intros Hf Hp H Hc G. unfold extract_options in H. destruct (amin (map fst pts)); [|discriminate]. cbn [bind] in H. destruct (amax (map fst pts)); [|discriminate]. cbn [bind] in H.
  destruct (amin (map snd pts)); [|discriminate]. cbn [bind] in H. destruct (amax (map snd pts)); [|discriminate]. cbn [bind] in H.
  destruct (fill_files_nth src w sc fr buffer ex files Hf pts out Hp H) as [_ V]. destruct (V c s Hc) as (e & cs & E1 & E2 & E3).
  destruct (extend_sheet_grid src _ _ _ _ _ _ _ _ G) as (e' & Ee & He). pose proof Ee as Ee'. rewrite E1 in Ee'. apply Ok_inj in Ee' as <-. clear Ee.
  exists e, cs. split; [auto|]. destruct He as (A1 & A2 & A3 & A4). destruct G as (Gx & Gy & Nx & Ny & Rs & Ga). split; [|split; [|auto]].
  - split; [auto|]. split; [now rewrite A2|]. auto.
  - intros ->. destruct Ga as [[_ Ga]|[Ga _]]; [auto | discriminate].
Qed.
(** the extent of a model with the columns repeated around the globe *)
Definition beyond (src : series) (around : bool) (x0 dx : R) (nx : nat) (y0 dy : R) (ny : nat) (x y : R) : Prop :=
  x < node_x Heights x0 dx (first_of around) \/ node_x Heights x0 dx (last_of (behind src) around nx) < x \/
  y < node_y Heights y0 dy 0 \/ node_y Heights y0 dy (ny - 1) < y.
Lemma outside_beyond src around x0 dx nx y0 dy ny lon lat x y inv : evenly (x0 - INR (bef around) * dx) dx (bef around + nx + aft src around) lon -> evenly y0 dy ny lat ->
  (2 <= nx)%nat -> (2 <= ny)%nat -> outside_sheet src lon lat (x, y) = Ok inv ->
  (src = GOT -> inv = false) /\ (src = FES -> beyond src around x0 dx nx y0 dy ny x y -> inv = true) /\ (~ beyond src around x0 dx nx y0 dy ny x y -> inv = false).
Proof.
  intros Hx Hy Nx Ny H. split; [intros ->; apply Ok_inj in H; auto|]. split.
  - intros -> B. unfold outside_sheet, outside_axes in H. destruct (first_last_lon FES around x0 dx nx lon Nx Hx) as [F1 F2]. destruct (first_last_lat y0 dy ny lat Ny Hy) as [F3 F4].
    destruct (evenly_ends _ _ _ _ Hx) as [M1 M2]; [lia|]. destruct (evenly_ends _ _ _ _ Hy) as [M3 M4]; auto.
    destruct (st_axes (bef around) (aft FES around) nx ny x0 dx y0 dy lon lat Hx Hy Nx Ny) as [A1 A2].
    rewrite (axis_min _ A1), (axis_max _ A1), (axis_min _ A2), (axis_max _ A2) in H. cbn [bind fst snd] in H. apply Ok_inj in H as <-.
    assert (N0 : node_y Heights y0 dy 0 = y0) by (unfold node_y; cbn [INR]; lra). unfold beyond in B. rewrite N0 in B. unfold node_y in B. rewrite F1, F2, F3, F4.
    destruct B as [B|[B|[B|B]]]; rewrite (rlt_t _ _ B), ?orb_true_r; reflexivity.
  - intros B. unfold beyond in B. assert (K : outside_sheet src lon lat (x, y) = Ok false).
    { apply (inside_sheet src around x0 dx nx y0 dy ny); auto; unfold node_y in B; cbn [INR] in B; lra. }
    rewrite K in H. now apply Ok_inj in H.
Qed.
Theorem C84_filled : forall src w sc fr bounds buffer cutoff files pts out c s n x y around x0 dx nx y0 dy ny,
  match cutoff with Some d => 0 <= d | None => True end ->
  (forall s, In s files -> framed fr (slon s)) -> (forall q, In q pts -> -360 <= fst q <= 540) ->
  extract_options src w sc false bounds buffer (Some cutoff) files pts = Ok out ->
  nth_error files c = Some s -> sheet_grid around x0 dx nx y0 dy ny s -> w = Quick Bilinear \/ numbers ny nx s ->
  nth_error pts n = Some (x, y) ->
  let z := fun j i => valid (entry (None, true) (shc s) j i) in
  exists out0 cs0 cs r0 r,
    extract_options src w sc false bounds buffer None files pts = Ok out0 /\
    nth_error out0 c = Some cs0 /\ nth_error cs0 n = Some r0 /\ nth_error out c = Some cs /\ nth_error cs n = Some r /\
    (r0 <> None -> r = r0) /\
    (src = FES -> beyond src around x0 dx nx y0 dy ny (placed fr x) y -> r = None) /\
    (src = GOT \/ ~ beyond src around x0 dx nx y0 dy ny (placed fr x) y -> r0 = None ->
       (exists j i, nearest_valid cutoff x0 dx nx y0 dy ny z (x, y) j i /\ scaled sc (z j i) r) \/
       (~ exists j i, nearby cutoff x0 dx nx y0 dy ny z (x, y) j i) /\ r = None).
Proof.
  intros src w sc fr bounds buffer cutoff files pts out c s n x y around x0 dx nx y0 dy ny Hcut Hf Hp H Hc G Nw Hn z.
  destruct (options_both src w sc false bounds buffer cutoff files pts) as [(o & out0 & E & E0)|(e & E & _)]; [|congruence]. rewrite H in E. apply Ok_inj in E as <-.
  destruct (series_inv_options _ _ _ _ _ _ _ _ _ _ _ _ _ _ _ _ _ _ _ Hf Hp H Hc G) as (e & cs & Ee & Gr & Ro & O1 & O2).
  destruct (series_inv_options _ _ _ _ _ _ _ _ _ _ _ _ _ _ _ _ _ _ _ Hf Hp E0 Hc G) as (e' & cs0 & Ee' & _ & _ & P1 & P2). rewrite Ee in Ee'. apply Ok_inj in Ee' as <-.
  pose proof (map_nth_error (fun p => (placed fr (fst p), snd p)) _ _ Hn) as Hn'. cbn [fst snd] in Hn'.
  destruct (file_filled src around x0 dx y0 dy nx ny s e Gr Ro w sc cutoff _ cs n _ Hcut Nw O2 Hn') as (inv & r0 & r & V1 & V2 & V3 & V4 & V5 & V6).
  rewrite file_values_none in P2. destruct (mapM_nth _ _ _ n _ P2 Hn') as (r0' & R1 & R2). rewrite V2 in R1. apply Ok_inj in R1 as <-.
  exists out0, cs0, cs, r0, r. split; [exact E0|]. split; [exact P1|]. split; [exact R2|]. split; [exact O1|]. split; [exact V3|]. split; [exact V5|].
  destruct Gr as (Gx & Gy & Nx & Ny & _). destruct (outside_beyond src around x0 dx nx y0 dy ny _ _ _ _ inv Gx Gy Nx Ny V1) as (B1 & B2 & B3). split.
  - intros Es B. apply V4. auto.
  - intros B F. assert (Ei : inv = false) by (destruct B; auto). specialize (V6 Ei F). destruct (placed_turns fr x) as (k & Ek). rewrite Ek in V6. destruct V6 as [(j & i & A1 & A2)|[A1 A2]].
    + left. exists j, i. split; [|exact A2]. exact (proj1 (nearest_turns _ _ _ _ _ _ _ _ _ _ k _ _) A1).
    + right. split; [|exact A2]. intros (j & i & K). apply A1. exists j, i. exact (proj2 (nearby_turns _ _ _ _ _ _ _ _ _ _ k _ _) K).
Qed.
Print Assumptions C84_filled.
