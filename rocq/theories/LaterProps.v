(** C89: constants read from cropped FES and GOT models, then interpolated and
    extrapolated. *)
From Coq Require Import Reals List Bool Arith ZArith Lra Lia.
From Verif Require Import PyBase RBase MathModel GeoModel ConvertProps GridModel GridProofs InterpModel InterpProps ExtrapProps ExtractModel ExtractSpec NodeProps ExtractProofs ExtractProps SplineProps ReturnProps MergeSpec MergeProps SeriesModel SeriesSpec SeriesProofs SeriesProps SeriesProps2 SeriesProps3 RegularModel RegularSpec RegularProofs RegularProps RegularProps2 CropModel CropSpec CropProofs CropProofs2 CropProps CropProps2 CropProps3 CropProps4 ShoreModel ShoreSpec ShoreProofs ShoreProps ShoreProps2 LaterModel LaterSpec LaterProofs.
Import ListNotations.
Open Scope R_scope.

(** ** Without the options the constants are those of C69 and C82 *)
Theorem C89_reading_off : forall src bounds b m files,
  read_options src false bounds m files = read_series src files /\
  read_options src true None m files = read_series src files /\
  (x_min b = 0 -> x_max b = 0 -> y_min b = 0 -> y_max b = 0 -> read_options src true (Some b) m files = read_series src files).
Proof.
  intros. split; [reflexivity|]. split; [reflexivity|]. intros E1 E2 E3 E4. unfold read_options, read_series, read_sheet.
  assert (K : any_limit b = false) by (unfold any_limit; rewrite E1, E2, E3, E4, req_t by reflexivity; reflexivity). rewrite K. reflexivity.
Qed.
Print Assumptions C89_reading_off.
Lemma field_values_off src me sc lon lat f pts : field_values src (Quick me) sc None lon lat f pts = mapM (tide_constant src me sc lon lat f) pts.
Proof.
  unfold field_values. induction pts as [|q pts IH]; [reflexivity|]. cbn [mapM]. rewrite <- IH. clear IH. unfold tide_constant at 1, interpolated_field at 1. destruct (outside_sheet src lon lat q) as [inv|]; [|reflexivity]. cbn [bind].
  destruct me; match goal with |- context [do h <- ?x ;; _] => destruct x as [h|]; [|reflexivity] end; cbn [bind]; match goal with |- context [mapM ?f pts] => destruct (mapM f pts) as [hs|]; [|reflexivity] end; cbn [bind map fst snd combine]; f_equal; f_equal;
  unfold finished, settled; cbn [hidden fst snd]; reflexivity.
Qed.
Lemma field_values_regular_off src me sc lon lat f pts : field_values src (Regular me) sc None lon lat f pts = mapM (tide_regular src me sc lon lat f) pts.
Proof.
  unfold field_values. induction pts as [|q pts IH]; [reflexivity|]. cbn [mapM]. rewrite <- IH. clear IH. unfold tide_regular at 1, interpolated_field at 1. destruct (outside_sheet src lon lat q) as [inv|]; [|reflexivity]. cbn [bind].
  match goal with |- context [do h <- ?x ;; _] => destruct x as [h|]; [|reflexivity] end; cbn [bind]; match goal with |- context [mapM ?f pts] => destruct (mapM f pts) as [hs|]; [|reflexivity] end; cbn [bind map fst snd combine]; f_equal; f_equal;
  unfold finished, settled_regular; cbn [hidden fst snd]; reflexivity.
Qed.
Theorem C89_interpolation_off : forall src me re sc t pts,
  interpolate_options src (Quick me) sc None t pts = interpolate_series src me sc t pts /\
  interpolate_options src (Regular re) sc None t pts = interpolate_series_regular src re sc t pts.
Proof.
  intros. unfold interpolate_options, interpolate_series, interpolate_series_regular. split; (destruct (taxes t) as [[lon lat]|]; [|reflexivity]); (destruct (adjust lon pts) as [pts'|]; [|reflexivity]); cbn [bind];
  apply mapM_ext_in; intros f _; [apply field_values_off | apply field_values_regular_off].
Qed.
Print Assumptions C89_interpolation_off.

(** ** Extraction as one pass over the grids that are read *)
Lemma mapM_then {A B C} (f : A -> res B) (g : B -> res C) l es : mapM f l = Ok es -> mapM (fun a => do b <- f a ;; g b) l = mapM g es.
Proof.
  revert es. induction l as [|a l IH]; intros es H; [apply Ok_inj in H as <-; reflexivity|]. cbn [mapM] in *. destruct (f a) as [b|]; [|discriminate]. cbn [bind] in *.
  destruct (mapM f l) as [bs|]; [|discriminate]. cbn [bind] in H. apply Ok_inj in H as <-. cbn [mapM]. now rewrite (IH bs).
Qed.
Lemma mapM_map {A B C} (f : A -> B) (g : B -> res C) l : mapM g (map f l) = mapM (fun a => g (f a)) l.
Proof. induction l as [|a l IH]; [reflexivity|]. cbn [map mapM]. now rewrite IH. Qed.
Lemma last_axes es X Y : es <> [] -> (forall e, In e es -> slon e = X /\ slat e = Y) -> fold_left (fun (_ : option (list R * list R)) e => Some (slon e, slat e)) es None = Some (X, Y).
Proof.
  intros Hn H. destruct es as [|e1 es]; [congruence|]. cbn [fold_left]. destruct (H e1 (or_introl eq_refl)) as [-> ->].
  assert (K : forall e, In e es -> slon e = X /\ slat e = Y) by (intros; apply H; now right). clear - K. induction es as [|e es IH]; [reflexivity|].
  cbn [fold_left]. destruct (K e (or_introl eq_refl)) as [-> ->]. apply IH. intros; apply K; now right.
Qed.
Lemma interpolate_read src w sc ex es X Y pts pts' : es <> [] -> (forall e, In e es -> slon e = X /\ slat e = Y) -> adjust X pts = Ok pts' ->
  (forall e, In e es -> file_values src w sc ex e pts' = field_values src w sc ex (slon e) (slat e) (shc e) pts') ->
  interpolate_options src w sc ex (Tides (fold_left (fun _ e => Some (slon e, slat e)) es None) (map shc es)) pts = mapM (fun e => file_values src w sc ex e pts') es.
Proof.
  intros Hn Ha Ea Hv. unfold interpolate_options. cbn [taxes tfields]. rewrite (last_axes es X Y) by auto. rewrite Ea. cbn [bind]. rewrite mapM_map. apply mapM_ext_in. intros e He. rewrite Hv by auto.
  destruct (Ha e He) as [-> ->]. reflexivity.
Qed.
(** grids with the values that are needed *)
Definition usable_for (w : way) (ny nx : nat) (s : sheet) : Prop := w = Quick Bilinear \/ w = Regular Nearest \/ numbers ny nx s.
Lemma grown_field src glob x0 dx nx y0 dy ny u e w sc ex pts : grown src glob x0 dx nx y0 dy ny u e -> (glob = true -> INR nx * dx = 360) -> usable_for w ny nx u ->
  file_values src w sc ex e pts = field_values src w sc ex (slon e) (slat e) (shc e) pts.
Proof.
  intros G Ro U. pose proof G as (Gx & Gy & Nx & Ny & Rh & Ne).
  destruct (st_axes (bef glob) (aft src glob) nx ny x0 dx y0 dy (slon e) (slat e) Gx Gy Nx Ny) as [A1 A2].
  destruct (st_lengths (bef glob) (aft src glob) nx ny x0 dx y0 dy (slon e) (slat e) Gx Gy) as [L1 L2].
  apply file_field; auto; [now rewrite L1, L2|]. rewrite L1, L2. intros N1 N2 j i Hj Hi. destruct U as [U|[U|U]]; [congruence|congruence|].
  replace i with (ec (bef glob) (Z.of_nat i - Z.of_nat (bef glob))) by (unfold ec; lia). rewrite Ne by (auto; unfold SeriesProofs.within; lia). apply U; auto. now apply column_lt.
Qed.

(** ** C89: without cropping, interpolating what was read is extracting it *)
Lemma fill_files_mapM src w sc fr buffer ex files : (forall s, In s files -> framed fr (slon s) /\ exists d, spacing (slon s) = Ok d) -> forall pts,
  pts <> [] -> (forall q, In q pts -> -360 <= fst q <= 540) ->
  fill_files src w sc (Limits 0 0 0 0) buffer ex files pts = mapM (fun s => do e <- extend_sheet src s ;; file_values src w sc ex e (map (fun p => (placed fr (fst p), snd p)) pts)) files.
Proof.
  induction files as [|s files IH]; intros Hf pts Hn Hp; [reflexivity|]. cbn [fill_files mapM]. rewrite no_limits.
  destruct (Hf s (or_introl eq_refl)) as [Fr (d & Ed)]. rewrite Ed. cbn [bind].
  destruct (adjust_ok (slon s) pts) as (pts' & Ea); auto. { intros K. rewrite K in Ed. discriminate. }
  rewrite Ea. cbn [bind]. apply (adjust_placed fr) in Ea; auto. subst pts'. rewrite extend_cut_same by auto. destruct (extend_sheet src s) as [e|]; [|reflexivity]. cbn [bind].
  destruct (file_values src w sc ex e _) as [cs|]; [|reflexivity]. cbn [bind].
  rewrite IH; [|intros; apply Hf; now right|intros K; apply map_eq_nil in K; auto|intros q Hq; apply in_map_iff in Hq as (p & <- & Hin); cbn [fst]; apply placed_twice; auto].
  replace (map (fun p : R * R => (placed fr (fst p), snd p)) (map (fun p : R * R => (placed fr (fst p), snd p)) pts)) with (map (fun p : R * R => (placed fr (fst p), snd p)) pts); [reflexivity|].
  rewrite map_map. apply map_ext_in. intros p Hin. cbn [fst snd]. now rewrite (proj1 (placed_twice fr (fst p) (Hp p Hin))).
Qed.
Lemma mapM_all {A B} (f : A -> res B) l : (forall a, In a l -> exists b, f a = Ok b) -> exists bs, mapM f l = Ok bs.
Proof. induction l as [|a l IH]; intros H; [exists []; reflexivity|]. destruct (H a (or_introl eq_refl)) as (b & E). destruct IH as (bs & Eb); [intros; apply H; now right|]. exists (b :: bs). cbn [mapM]. rewrite E. cbn [bind]. now rewrite Eb. Qed.
Lemma mapM_from {A B} (f : A -> res B) l bs b : mapM f l = Ok bs -> In b bs -> exists a, In a l /\ f a = Ok b.
Proof.
  revert bs. induction l as [|a l IH]; intros bs H Hb; [apply Ok_inj in H as <-; destruct Hb|]. cbn [mapM] in H. destruct (f a) as [b0|] eqn:E; [|discriminate]. cbn [bind] in H.
  destruct (mapM f l) as [bs'|]; [|discriminate]. cbn [bind] in H. apply Ok_inj in H as <-. destruct Hb as [<-|Hb]; [exists a; split; [now left|auto]|]. destruct (IH bs' eq_refl Hb) as (a' & I & E'). exists a'. split; [now right|auto].
Qed.
Lemma options_whole src w sc bounds buffer ex files pts : pts <> [] -> extract_options src w sc false bounds buffer ex files pts = fill_files src w sc (Limits 0 0 0 0) buffer ex files pts.
Proof. intros Hn. unfold extract_options. destruct pts as [|p pts]; [congruence|]. reflexivity. Qed.
Lemma options_given src w sc b buffer ex files pts : pts <> [] -> extract_options src w sc true (Some b) buffer ex files pts = fill_files src w sc b buffer ex files pts.
Proof. intros Hn. unfold extract_options. destruct pts as [|p pts]; [congruence|]. reflexivity. Qed.
Theorem C89_read : forall src w sc ex fr bounds buffer files pts around x0 dx nx y0 dy ny,
  files <> [] ->
  (forall s, In s files -> framed fr (slon s) /\ sheet_grid around x0 dx nx y0 dy ny s /\ usable_for w ny nx s) ->
  (forall q, In q pts -> -360 <= fst q <= 540) -> same_frame src fr around x0 dx nx pts ->
  exists t, read_options src false bounds 0 files = Ok t /\
    interpolate_options src w sc ex t pts = extract_options src w sc false bounds buffer ex files pts.
Proof.
  intros src w sc ex fr bounds buffer files pts around x0 dx nx y0 dy ny Hne Hf Hp Hs.
  assert (Re : forall s, In s files -> exists e, extend_sheet src s = Ok e).
  { intros s Hin. destruct (Hf s Hin) as (_ & G & _). destruct (extend_sheet_grid src _ _ _ _ _ _ _ _ G) as (e & Ee & _). eauto. }
  destruct (mapM_all _ _ Re) as (es & Ees). unfold read_options. change (read_sheet src false bounds 0) with (extend_sheet src). rewrite Ees. cbn [bind]. eexists. split; [reflexivity|].
  destruct files as [|s0 files']; [congruence|]. clear Hne.
  destruct (Hf s0 (or_introl eq_refl)) as (Fr0 & G0 & _). destruct (extend_sheet_grid src _ _ _ _ _ _ _ _ G0) as (e0 & _ & Hx0 & Hlat0 & _).
  assert (Gy0 : evenly y0 dy ny (slat s0)) by apply G0.
  assert (Ge : forall e, In e es -> exists s, In s (s0 :: files') /\ grown src around x0 dx nx y0 dy ny s e /\ (around = true -> INR nx * dx = 360) /\ usable_for w ny nx s).
  { intros e He. destruct (mapM_from _ _ _ _ Ees He) as (s & Hin & Ee). exists s. split; [auto|]. destruct (Hf s Hin) as (_ & G & U).
    destruct (extend_sheet_grid src _ _ _ _ _ _ _ _ G) as (e' & Ee' & A1 & A2 & A3 & A4). rewrite Ee in Ee'. apply Ok_inj in Ee' as <-. destruct G as (Gx & Gy & Nx & Ny & Rs & Ga). split; [|split; [|auto]].
    - split; [auto|]. split; [now rewrite A2|]. auto.
    - intros ->. destruct Ga as [[_ Ga]|[Ga _]]; [auto | discriminate]. }
  assert (Ax : forall e, In e es -> slon e = slon e0 /\ slat e = slat s0).
  { intros e He. destruct (Ge e He) as (s & _ & (Gx & Gy & _) & _). split; [now apply (evenly_unique _ _ _ _ _ Gx Hx0) | now apply (evenly_unique _ _ _ _ _ Gy Gy0)]. }
  assert (Ne : es <> []) by (intros ->; apply mapM_len in Ees; discriminate).
  destruct pts as [|q0 t0] eqn:Ept.
  { unfold interpolate_options. cbn [taxes]. rewrite (last_axes es (slon e0) (slat s0)) by auto. reflexivity. }
  rewrite <- Ept in *. assert (Hn : pts <> []) by (rewrite Ept; discriminate). clear Ept q0 t0.
  rewrite (interpolate_read src w sc ex es (slon e0) (slat s0) pts (map (fun p => (placed fr (fst p), snd p)) pts)); auto.
  - rewrite options_whole by auto.
    rewrite (fill_files_mapM src w sc fr) by (auto; intros s Hs'; destruct (Hf s Hs') as (F & G & _); split; auto; exists dx; apply (evenly_spacing x0 dx nx); apply G).
    symmetry. apply (mapM_then (extend_sheet src) (fun e => file_values src w sc ex e _)). exact Ees.
  - apply (adjust_longer src fr around x0 dx nx y0 dy ny s0); auto.
  - intros e He. destruct (Ge e He) as (s & _ & G & Ro & U). apply (grown_field src around x0 dx nx y0 dy ny s e); auto.
Qed.
Print Assumptions C89_read.
