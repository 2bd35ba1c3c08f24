(** C90: ATLAS models that are read before they are interpolated. *)
From Coq Require Import Reals List Bool Arith ZArith Lra Lia.
From Verif Require Import PyBase RBase MathModel GeoModel ConvertProps GridModel GridProofs InterpModel InterpProps ExtrapProps ExtractModel ExtractSpec NodeProps ExtractProofs ExtractProps SplineProps ReturnProps SeriesModel SeriesSpec SeriesProofs SeriesProps SeriesProps2 SeriesProps3 StretchProofs AtlasNcModel AtlasNcSpec AtlasNcProps AtlasNcProps2 AtlasNcProps3 RegularModel RegularProps3 CropModel CropSpec CropProofs CropProps ShoreModel ShoreSpec ShoreProofs ShoreProps NarrowModel NarrowSpec NarrowProofs NarrowProps NarrowProps4 ReefModel ReefSpec ReefProofs ReefProps ReefProps2 ReefProps3 LaterModel LaterSpec LaterProofs LaterProps LaterProps2 LaterProps3 LagoonModel LagoonProofs.
Import ListNotations.
Open Scope R_scope.

(** ** C90: without the options *)
Theorem C90_reading_off : forall t bounds b m g files,
  read_lagoon t false bounds m g files = read_atlas t g files /\
  read_lagoon t true None m g files = read_atlas t g files /\
  (x_min b = 0 -> x_max b = 0 -> y_min b = 0 -> y_max b = 0 -> read_lagoon t true (Some b) m g files = read_atlas t g files).
Proof.
  intros. split; [reflexivity|]. split; [reflexivity|]. intros E1 E2 E3 E4. unfold read_lagoon.
  assert (K : any_limit b = false) by (unfold any_limit; rewrite E1, E2, E3, E4, req_t by reflexivity; reflexivity). rewrite K. reflexivity.
Qed.
Print Assumptions C90_reading_off.
Lemma lagoon_points w t sc xi yi hc ps : lagoon_constituent w t sc None xi yi hc ps =
  mapM (fun p => do k <- number_by w xi yi (primed w hc) (fst p) ;; Ok (atlas_value t sc (snd (snd p)) (fst (snd p)) k)) ps.
Proof.
  unfold lagoon_constituent. induction ps as [|p ps IH]; [reflexivity|]. cbn [mapM]. destruct (number_by w xi yi (primed w hc) (fst p)) as [k|]; [|reflexivity]. cbn [bind]. rewrite <- IH.
  destruct (mapM _ ps) as [hs|]; [|reflexivity]. cbn [bind combine map fst snd]. rewrite reef_atlas. reflexivity.
Qed.
Lemma atlas_value_number t sc D i h h' : same_number h h' -> atlas_value t sc D i h = atlas_value t sc D i h'.
Proof. intros [E1 E2]. unfold atlas_value. rewrite <- E1. destruct (snd h); [reflexivity|]. now rewrite E2. Qed.
Theorem C90_interpolation_off : forall me re t sc c pts,
  interpolate_lagoon (Quick me) t sc None c pts = interpolate_atlas_constants me t sc c pts /\
  (do r <- interpolate_lagoon (Regular re) t sc None c pts ;; Ok (fst r)) = interpolate_atlas_regular re t sc c pts.
Proof.
  intros me re t sc c pts. unfold interpolate_lagoon, interpolate_atlas_constants, interpolate_atlas_regular. destruct c as [lon lat b fs]. cbn [alon alat abath afields dredged]. split.
  - destruct (adjust lon pts) as [pts'|]; [|reflexivity]. cbn [bind]. destruct (mapM (outside_axes lon lat) pts') as [inv|]; [|reflexivity]. cbn [bind].
    destruct me; cbn [abath]; [change (bed_by (Quick Bilinear) lon lat) with (sounding Bilinear lon lat) | change (bed_by (Quick Spline) lon lat) with (sounding Spline lon lat)]; (match goal with |- bind (mapM ?F pts') _ = _ => destruct (mapM F pts') as [ds|]; [|reflexivity] end); cbn [bind]; (destruct t; [..|reflexivity]);
    (match goal with |- bind (mapM ?F fs) _ = bind (mapM ?G fs) _ => rewrite (mapM_ext_in F G); [reflexivity|] end); intros f _; rewrite lagoon_points; apply mapM_ext_in; intros [q [i D]] _; cbn [fst snd number_by primed]; unfold atlas_constant.
    all: try reflexivity.
    all: pose proof (bilinear_number lon lat (fst f) q) as K; destruct (cbilinear lon lat (fst f) q) as [h|], (cbilinear lon lat (map (map wiped) (fst f)) q) as [h'|]; cbn [agree bind] in *; try contradiction; [|now subst]; f_equal; symmetry; now apply atlas_value_number.
  - destruct (adjust lon pts) as [pts'|]; [|reflexivity]. cbn [bind]. destruct (mapM (outside_axes lon lat) pts') as [inv|]; [|reflexivity]. cbn [bind]. change (bed_by (Regular re) lon lat) with (rregular re lon lat).
    destruct (mapM (rregular re lon lat b) pts') as [ds|]; [|reflexivity]. cbn [bind]. destruct t; [..|reflexivity];
    (match goal with |- bind (bind ?x _) _ = bind ?y _ => assert (E : x = y); [apply mapM_ext_in|destruct x, y; [apply Ok_inj in E as <-; reflexivity | discriminate | discriminate | injection E as <-; reflexivity]] end); intros f _; rewrite lagoon_points; apply mapM_ext_in; intros [q [i D]] _; reflexivity.
Qed.
Print Assumptions C90_interpolation_off.

(** ** Extraction of a model and interpolation of what was read *)
Lemma mapM_gives {A B} (F : A -> res B) l out a b : mapM F l = Ok out -> In a l -> F a = Ok b -> In b out.
Proof.
  revert out. induction l as [|x l IH]; intros out H Ha E; [destruct Ha|]. cbn [mapM] in H. destruct (F x) as [y|] eqn:Ex; [|discriminate]. cbn [bind] in H. destruct (mapM F l) as [o|]; [|discriminate]. apply Ok_inj in H as <-.
  destruct Ha as [<-|Ha]; [left; congruence | right; eauto].
Qed.
(** the same constants, depths and names *)
Definition same_reads (w : way) (a : res AtlasNcModel.answer) (b : res (list (list (option (R * R))) * list (gcell R) * atlas_tides)) : Prop :=
  match a, b with
  | Ok a, Ok (cs, ds, c) => cs = aconst a /\ Forall2 (same_depth w) (adepth a) ds /\ map snd (afields c) = anames a
  | Err e, Err e' => e = e'
  | _, _ => False
  end.
Lemma from_same w t sc ex d lon lat h files pts pts' c : lagoon_from t d lon lat h (fun hc => Ok hc) files = Ok c -> t <> Vother ->
  axis (alon c) -> axis (alat c) -> (forall f, In f (afields c) -> rect (length (alat c)) (length (alon c)) (fst f) /\ backed w (length (alat c)) (length (alon c)) (fst f)) ->
  adjust (alon c) pts = Ok pts' ->
  same_reads w (reef_from w t sc ex d lon lat h (fun hc => Ok hc) files pts') (interpolate_lagoon w t sc ex c pts).
Proof.
  intros H Ht A1 A2 Hf Ha. unfold lagoon_from in H. unfold reef_from, interpolate_lagoon. rewrite Ha. cbn [bind]. set (glob := isclose _ _) in *.
  destruct (if glob then extend_axis lon d else Ok lon) as [xi|]; [|discriminate]. cbn [bind] in *. destruct (extend_if glob h) as [b|]; [|discriminate]. cbn [bind] in *.
  match type of H with bind (mapM ?F files) _ = _ => destruct (mapM F files) as [fs|] eqn:Efs; [|discriminate] end. cbn [bind] in H. apply Ok_inj in H as <-. cbn [alon alat abath afields] in *.
  destruct (mapM (outside_axes xi lat) pts') as [inv|]; [|reflexivity]. cbn [bind].
  assert (K : agree (Forall2 (same_depth w)) (mapM (bed_by w xi lat b) pts') (mapM (bed_by w xi lat (dredged w b)) pts')).
  { clear. induction pts' as [|q pts IH]; [constructor|]. cbn [mapM]. pose proof (bed_same w xi lat b q) as S1.
    destruct (bed_by w xi lat b q) as [D|], (bed_by w xi lat (dredged w b) q) as [D'|]; cbn [agree] in S1; try contradiction; [|now subst]. cbn [bind].
    destruct (mapM _ pts) as [ds|], (mapM (bed_by w xi lat (dredged w b)) pts) as [ds'|]; cbn [agree bind] in *; try contradiction; [|exact IH]. now constructor. }
  destruct (mapM (bed_by w xi lat b) pts') as [ds|], (mapM (bed_by w xi lat (dredged w b)) pts') as [ds'|]; cbn [agree bind] in *; try contradiction; [|exact K].
  assert (Sp : Forall2 (same_place w) (combine pts' (combine inv ds)) (combine pts' (combine inv ds'))).
  { clear - K. revert pts' inv. induction K as [|D D' ds ds' E1 _ IH]; intros [|q pts] [|i inv]; cbn [combine]; constructor; [|apply IH]. split; [reflexivity|]. split; [reflexivity|]. split; [apply E1 | now apply same_bed]. }
  match goal with |- same_reads w (bind (mapM ?F files) _) _ =>
    assert (Sf : mapM F files = (do cs <- mapM (fun f => lagoon_constituent w t sc ex xi lat (fst f) (combine pts' (combine inv ds'))) fs ;; Ok (combine cs (map snd fs)))) end.
  { eapply mapM_two; [exact Efs|]. intros f p Hin Ep. cbn beta in Ep. destruct (read_netcdf_file t f) as [r|] eqn:Ef; [|discriminate]. cbn [bind] in *. destruct (extend_if glob (fst r)) as [e|] eqn:Ee; [|discriminate]. cbn [bind] in *.
    destruct (remask b e) as [hc|] eqn:Er; [|discriminate]. cbn [bind] in *. apply Ok_inj in Ep as <-. cbn [fst snd].
    assert (Hp : In (hc, snd r) fs) by (apply (mapM_gives _ _ _ f _ Efs Hin); rewrite Ef; cbn [bind]; rewrite Ee; cbn [bind]; rewrite Er; reflexivity). destruct (Hf _ Hp) as [Rg Bk]. cbn [fst] in Rg, Bk. rewrite (constituent_same w t sc ex xi lat hc _ _ A1 A2 Rg Bk Sp). reflexivity. }
  match goal with |- same_reads w (bind (mapM ?F files) _) _ => rewrite Sf end. cbn [bind].
  match goal with |- same_reads w (bind (bind (mapM ?G fs) _) _) _ => destruct (mapM G fs) as [o|e] eqn:Eo end; cbn [bind]; [|destruct t; try reflexivity; congruence].
  apply mapM_len in Eo. assert (E1 : map fst (combine o (map snd fs)) = o /\ map snd (combine o (map snd fs)) = map snd fs).
  { clear - Eo. revert o Eo. induction fs as [|p fs IH]; intros [|c o] Eo; try discriminate; [auto|]. cbn [map combine fst snd]. destruct (IH o) as [I1 I2]; [now injection Eo|]. split; f_equal; auto. }
  destruct E1 as [E1 E2]. destruct t; try congruence; cbn [same_reads aconst adepth anames afields]; rewrite E1, E2; auto.
Qed.
