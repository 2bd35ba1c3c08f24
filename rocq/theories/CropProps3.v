(** C83: cropped models, when extraction succeeds, and the same as without cropping. *)
From Coq Require Import Reals List Bool Arith ZArith Lra Lia.
From Verif Require Import PyBase RBase MathModel GeoModel ConvertProps GridModel GridProofs InterpModel InterpProps ExtractModel ExtractSpec NodeProps ExtractProofs ExtractProps SplineProps ReturnProps MergeSpec MergeProps SeriesModel SeriesSpec SeriesProofs SeriesProps SeriesProps2 SeriesProps3 RegularModel RegularSpec RegularProofs RegularProps RegularProps2 CropModel CropSpec CropProofs CropProofs2 CropProps CropProps2.
Import ListNotations.
Open Scope R_scope.

(** ** C83: extraction succeeds where two columns and two rows are left; bilinearly every
    point must be west of the last column *)
Lemma value_ok src w sc around x0 dx nx y0 dy ny s e pts : grown src around x0 dx nx y0 dy ny s e -> w <> Regular Unknown ->
  (w = Quick Bilinear -> forall p, In p pts -> fst p <> node_x Heights x0 dx (last_of (behind src) around nx)) ->
  exists cs, mapM (sheet_value src w sc e) pts = Ok cs.
Proof.
  intros (Hx & Hy & Nx & Ny & Rh & _) Hw Hl. assert (Em : map (fun p : R * R => (placed Either (fst p), snd p)) pts = pts) by (rewrite <- (map_id pts) at 2; apply map_ext; now intros []).
  rewrite <- Em. destruct w as [me|me]; cbn [sheet_value].
  - apply (sheet_constant_ok src me sc Either around x0 dx nx y0 dy ny e pts Nx Ny Hx Hy Rh). intros ->. now apply Hl.
  - apply (sheet_regular_ok src me sc Either around x0 dx nx y0 dy ny e pts); auto. congruence.
Qed.
Theorem C83_returns : forall src w sc bounds buffer b files pts,
  pts <> [] -> for_points bounds pts b -> some_limit b -> w <> Regular Unknown ->
  (forall s, In s files -> exists around x0 dx nx y0 dy ny m f i j, sheet_grid around x0 dx nx y0 dy ny s /\ margin buffer dx m /\
     window x0 dx nx (x_min b) (x_max b) f /\ (f = 0%Z \/ around = true /\ 1 / 10000 < dx) /\
     column_available b m src around x0 dx nx f i /\ column_available b m src around x0 dx nx f (i + 1) /\ (S j < ny)%nat /\ row_stays b m y0 dy j /\ row_stays b m y0 dy (S j) /\
     (w = Quick Bilinear -> forall p, In p pts -> exists k, column_available b m src around x0 dx nx f k /\ fst p < node_x Heights x0 dx k)) ->
  exists out, extract_cropped src w sc bounds buffer files pts = Ok out /\ length out = length files.
Proof.
  intros src w sc bounds buffer b files pts Hn Hb Sb Hw Hf.
  assert (Go : exists out, crop_files src w sc b buffer files pts = Ok out /\ length out = length files).
  { induction files as [|s files IH]; [exists []; auto|]. destruct (Hf s (or_introl eq_refl)) as (around & x0 & dx & nx & y0 & dy & ny & m & f & i & j & G & Hm & W & Hff & Ai & Ai1 & Hj & Rj & Rj1 & Hbi).
    destruct (crop_exists _ _ _ _ _ _ _ _ _ _ _ _ _ _ G W Hff Ai Ai1 Hj Rj Rj1) as (glob & a & na & j0 & k & u & e & X1 & X2 & X3 & X4 & _).
    destruct IH as (out & E1 & E2); [intros s' Hs'; apply Hf; now right|].
    cbn [crop_files]. rewrite any_limit_t by auto. pose proof G as (Gx & _ & Nx & _). assert (Hd : 0 < dx) by apply Gx. rewrite (evenly_spacing x0 dx nx) by auto. cbn [bind].
    replace (match src with FES => dx | GOT => Rabs dx end) with dx in * by (destruct src; auto; now rewrite Rabs_pos_eq by lra).
    rewrite (buffer_is _ _ _ Hm), X1. cbn [bind]. rewrite X2. cbn [bind].
    destruct (value_ok src w sc _ _ _ _ _ _ _ _ _ pts X3 Hw) as (cs & ->).
    - intros Ew p Hp K. destruct (Hbi Ew p Hp) as (k' & Ak & Lk). destruct (X4 k' Ak) as [Rk _]. rewrite K in Lk.
      assert (Q : (k' - a <= last_of (behind src) glob na)%Z) by (unfold reached, last_of in *; destruct glob; lia). apply IZR_le in Q. rewrite minus_IZR in Q. unfold node_x in Lk. nra.
    - cbn [bind]. rewrite E1. cbn [bind]. eexists. split; [reflexivity|]. cbn. lia. }
  destruct Go as (out & E1 & E2). exists out. split; auto. unfold extract_cropped.
  destruct pts as [|q t]; [congruence|]. cbn [map amin amax bind]. replace (match bounds with Some _ => _ | None => _ end) with b; auto.
  unfold for_points in Hb. destruct bounds; auto. destruct Hb as [B1 B2]. apply extremes_min in B1 as [B1 B1']. apply extremes_min in B2 as [B2 B2'].
  cbn [map amin amax] in *. apply Ok_inj in B1, B1', B2, B2'. destruct b; cbn in *. now subst.
Qed.
Print Assumptions C83_returns.

(** ** C83: without a row or a column within the bounds there is an IndexError *)
Lemma flatnonzero_none {A} (g : A -> bool) l : (forall a, In a l -> g a = false) -> flatnonzero g l = [].
Proof. unfold flatnonzero. generalize 0%nat. induction l as [|a l IH]; intros i H; [reflexivity|]. cbn [flatnonzero_from]. rewrite (H a) by now left. apply IH. intros a' Ha'. apply H. now right. Qed.
Lemma none_stays lo hi m x0 d n l : evenly x0 d n l -> (forall i, (i < n)%nat -> ~ stays lo hi m (x0 + INR i * d)) -> flatnonzero (within_limits (lo - m) (hi + m)) l = [].
Proof.
  intros (_ & L & E) H. apply flatnonzero_none. intros a Ha. apply not_true_is_false. rewrite within_limits_iff. intros K.
  destruct (In_nth _ _ 0 Ha) as (i & Hi & <-). rewrite E in K by lia. apply (H i); auto. lia.
Qed.
Theorem C83_empty : forall src w sc bounds buffer b m s files pts around x0 dx nx y0 dy ny f,
  pts <> [] -> for_points bounds pts b -> some_limit b -> margin buffer dx m ->
  sheet_grid around x0 dx nx y0 dy ny s -> window x0 dx nx (x_min b) (x_max b) f -> f = 0%Z \/ around = true /\ 1 / 10000 < dx ->
  (forall i, (f <= i < f + Z.of_nat nx)%Z -> ~ stays (x_min b) (x_max b) m (node_x Heights x0 dx i)) \/
  (forall j, (j < ny)%nat -> ~ row_stays b m y0 dy j) ->
  extract_cropped src w sc bounds buffer (s :: files) pts = Err IndexError.
Proof.
  intros src w sc bounds buffer b m s files pts around x0 dx nx y0 dy ny f Hn Hb Sb Hm G W Hf He. unfold extract_cropped.
  assert (Eb : match bounds with Some b => b | None => Limits (match amin (map fst pts) with Ok v => v | _ => 0 end) (match amax (map fst pts) with Ok v => v | _ => 0 end) (match amin (map snd pts) with Ok v => v | _ => 0 end) (match amax (map snd pts) with Ok v => v | _ => 0 end) end = b).
  { unfold for_points in Hb. destruct bounds; auto. destruct Hb as [B1 B2]. apply extremes_min in B1 as [B1 B1']. apply extremes_min in B2 as [B2 B2']. rewrite B1, B1', B2, B2'. now destruct b. }
  destruct pts as [|q t]; [congruence|]. cbn [map amin amax bind] in *. rewrite Eb. cbn [crop_files]. rewrite any_limit_t by auto.
  pose proof G as (Gx & _ & Nx & _). assert (Hd : 0 < dx) by apply Gx. rewrite (evenly_spacing x0 dx nx) by auto. cbn [bind].
  replace (match src with FES => dx | GOT => Rabs dx end) with dx in * by (destruct src; auto; now rewrite Rabs_pos_eq by lra). rewrite (buffer_is _ _ _ Hm).
  destruct (reframe_grid _ _ _ _ _ _ _ _ _ _ G W Hf) as (t' & T1 & (Tx & Ty & _ & _ & Rt & _) & _). unfold crop_sheet. rewrite T1. cbn [bind]. unfold cut.
  destruct He as [He|He].
  - rewrite (none_stays (x_min b) (x_max b) m _ _ _ _ Tx). 2:{ intros i Hi. replace (node_x Heights x0 dx f + INR i * dx) with (node_x Heights x0 dx (f + Z.of_nat i)) by (unfold node_x; rewrite plus_IZR, <- INR_IZR_INZ; ring). apply He. lia. }
    destruct (ind_slice _ (shc t')) as [rows|e] eqn:Er; cbn [bind ind_slice]; [reflexivity|].
    destruct (flatnonzero _ (slat t')); [|discriminate]. now injection Er as <-.
  - rewrite (none_stays (y_min b) (y_max b) m _ _ _ _ Ty); [reflexivity|]. intros j Hj. now apply He.
Qed.
Print Assumptions C83_empty.

(** ** C83: a model whose first column is the nearest one to the meridian where it would be
    cut cannot be cropped: ValueError *)
Theorem C83_first_column_refuted : forall src w sc bounds buffer b s files pts around x0 dx nx y0 dy ny,
  pts <> [] -> for_points bounds pts b -> some_limit b -> sheet_grid around x0 dx nx y0 dy ny s ->
  Rmin (x_min b) (x_max b) < 0 /\ 180 < x0 + INR (nx - 1) * dx /\ closest_column x0 dx nx 180 0 \/
  0 <= Rmin (x_min b) (x_max b) /\ 180 < Rmax (x_min b) (x_max b) /\ x0 < 0 /\ closest_column x0 dx nx 0 0 ->
  extract_cropped src w sc bounds buffer (s :: files) pts = Err ValueError.
Proof.
  intros src w sc bounds buffer b s files pts around x0 dx nx y0 dy ny Hn Hb Sb G He. unfold extract_cropped.
  assert (Eb : match bounds with Some b => b | None => Limits (match amin (map fst pts) with Ok v => v | _ => 0 end) (match amax (map fst pts) with Ok v => v | _ => 0 end) (match amin (map snd pts) with Ok v => v | _ => 0 end) (match amax (map snd pts) with Ok v => v | _ => 0 end) end = b).
  { unfold for_points in Hb. destruct bounds; auto. destruct Hb as [B1 B2]. apply extremes_min in B1 as [B1 B1']. apply extremes_min in B2 as [B2 B2']. rewrite B1, B1', B2, B2'. now destruct b. }
  destruct pts as [|q t]; [congruence|]. cbn [map amin amax bind] in *. rewrite Eb. cbn [crop_files]. rewrite any_limit_t by auto.
  pose proof G as (Gx & _ & Nx & _). rewrite (evenly_spacing x0 dx nx) by auto. cbn [bind]. unfold crop_sheet, reframe. destruct (evenly_ends _ _ _ _ Gx Nx) as [-> ->]. cbn [bind].
  assert (Hr : exists o, repeated (slon s) = Ok o). { pose proof Gx as (_ & L & _). destruct (slon s); [cbn in L; exfalso; lia|cbn; eauto]. } destruct Hr as (o & Hr).
  destruct He as [(H1 & H2 & H3)|(H1 & H2 & H3 & H4)].
  - rewrite !rlt_t by auto. cbn [andb]. unfold shift_sheet. rewrite Hr. cbn [bind]. rewrite (closest_least x0 dx nx _ _ _ Gx H3). reflexivity.
  - rewrite (rlt_f (Rmin _ _)) by auto. cbn [andb]. rewrite (rlt_t 180), (rlt_t x0) by auto. cbn [andb]. unfold shift_sheet. rewrite Hr. cbn [bind]. rewrite (closest_least x0 dx nx _ _ _ Gx H4). reflexivity.
Qed.
Print Assumptions C83_first_column_refuted.
