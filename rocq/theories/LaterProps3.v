(** C89: the constants interpolated and extrapolated from models that were read. *)
From Coq Require Import Reals List Bool Arith ZArith Lra Lia.
From Verif Require Import PyBase RBase MathModel GeoModel ConvertProps GridModel GridProofs InterpModel InterpProps ExtrapProps ExtractModel ExtractSpec NodeProps ExtractProofs ExtractProps SplineProps ReturnProps MergeSpec MergeProps SeriesModel SeriesSpec SeriesProofs SeriesProps SeriesProps2 SeriesProps3 RegularModel RegularSpec RegularProofs RegularProps RegularProps2 CropModel CropSpec CropProofs CropProofs2 CropProps CropProps2 CropProps3 CropProps4 ShoreModel ShoreSpec ShoreProofs ShoreProps ShoreProps2 LaterModel LaterSpec LaterProofs LaterProps LaterProps2.
Import ListNotations.
Open Scope R_scope.

(** ** Extrapolation never fails where interpolation does not *)
Lemma mapM_both {A B} (g h : A -> res B) l : (forall a, (exists u v, g a = Ok u /\ h a = Ok v) \/ exists e, g a = Err e /\ h a = Err e) ->
  (exists u v, mapM g l = Ok u /\ mapM h l = Ok v) \/ exists e, mapM g l = Err e /\ mapM h l = Err e.
Proof.
  intros K. induction l as [|a l IH]; [left; exists [], []; auto|]. cbn [mapM]. destruct (K a) as [(u & v & -> & ->)|(e & -> & ->)]; [|right; exists e; auto]. cbn [bind].
  destruct IH as [(us & vs & -> & ->)|(e & -> & ->)]; cbn [bind]; [left; exists (u :: us), (v :: vs); auto | right; exists e; auto].
Qed.
Lemma interpolate_both src w sc c t pts : (exists out out0, interpolate_options src w sc (Some c) t pts = Ok out /\ interpolate_options src w sc None t pts = Ok out0) \/
  exists x, interpolate_options src w sc (Some c) t pts = Err x /\ interpolate_options src w sc None t pts = Err x.
Proof.
  unfold interpolate_options. destruct (taxes t) as [[lon lat]|]; [|right; eexists; split; reflexivity]. destruct (adjust lon pts) as [pts'|]; [|right; eexists; split; reflexivity]. cbn [bind].
  apply mapM_both. intros f. unfold field_values. destruct (mapM _ pts'); cbn [bind]; [left | right]; eauto.
Qed.
Theorem C89_errors : forall src w sc cutoff t pts x,
  interpolate_options src w sc (Some cutoff) t pts = Err x <-> interpolate_options src w sc None t pts = Err x.
Proof. intros. destruct (interpolate_both src w sc cutoff t pts) as [(o & o0 & -> & ->)|(x' & -> & ->)]; split; intros H; try discriminate; auto. Qed.
Print Assumptions C89_errors.

(** ** C89: a point without an interpolated constant gets that of the nearest valid node *)
Theorem C89_filled : forall src w sc fr cutoff files pts t out c s n x y around x0 dx nx y0 dy ny,
  match cutoff with Some d => 0 <= d | None => True end ->
  (forall s, In s files -> framed fr (slon s) /\ sheet_grid around x0 dx nx y0 dy ny s /\ (w = Quick Bilinear \/ numbers ny nx s)) ->
  (forall q, In q pts -> -360 <= fst q <= 540) -> same_frame src fr around x0 dx nx pts ->
  read_options src false None 0 files = Ok t -> interpolate_options src w sc (Some cutoff) t pts = Ok out ->
  nth_error files c = Some s -> nth_error pts n = Some (x, y) ->
  let z := fun j i => valid (entry (None, true) (shc s) j i) in
  exists out0 cs0 cs r0 r,
    interpolate_options src w sc None t pts = Ok out0 /\
    nth_error out0 c = Some cs0 /\ nth_error cs0 n = Some r0 /\ nth_error out c = Some cs /\ nth_error cs n = Some r /\
    (r0 <> None -> r = r0) /\
    (src = FES -> beyond src around x0 dx nx y0 dy ny (placed fr x) y -> r = None) /\
    (src = GOT \/ ~ beyond src around x0 dx nx y0 dy ny (placed fr x) y -> r0 = None ->
       (exists j i, nearest_valid cutoff x0 dx nx y0 dy ny z (x, y) j i /\ scaled sc (z j i) r) \/
       (~ exists j i, nearby cutoff x0 dx nx y0 dy ny z (x, y) j i) /\ r = None).
Proof.
  intros src w sc fr cutoff files pts t out c s n x y around x0 dx nx y0 dy ny Hcut Hf Hp Hs Ht H Hc Hn z.
  assert (Ne : files <> []) by (intros ->; destruct c; discriminate).
  assert (Hf' : forall s, In s files -> framed fr (slon s) /\ sheet_grid around x0 dx nx y0 dy ny s /\ usable_for w ny nx s).
  { intros s' Hs'. destruct (Hf s' Hs') as (F & G & U). split; [auto|]. split; [auto|]. unfold usable_for. destruct U; auto. }
  destruct (C89_read src w sc (Some cutoff) fr None None files pts around x0 dx nx y0 dy ny Ne Hf' Hp Hs) as (t1 & T1 & E1). rewrite Ht in T1. apply Ok_inj in T1 as <-.
  destruct (C89_read src w sc None fr None None files pts around x0 dx nx y0 dy ny Ne Hf' Hp Hs) as (t2 & T2 & E2). rewrite Ht in T2. apply Ok_inj in T2 as <-.
  rewrite H in E1. symmetry in E1. destruct (Hf s (nth_error_In _ _ Hc)) as (_ & G & U).
  destruct (C84_filled src w sc fr None None cutoff files pts out c s n x y around x0 dx nx y0 dy ny Hcut (fun s Hin => proj1 (Hf s Hin)) Hp E1 Hc G U Hn) as (out0 & cs0 & cs & r0 & r & A1 & A).
  exists out0, cs0, cs, r0, r. split; [now rewrite E2 | exact A].
Qed.
Print Assumptions C89_filled.

(** ** Margins of zero *)
Lemma few_eps lo hi l : exists e, 0 < e /\ forall x, In x l -> stays lo hi 0 x <-> stays lo hi e x.
Proof.
  induction l as [|a l (e & He & IH)]; [exists 1; split; [lra|intros x []]|].
  assert (K : exists e', 0 < e' /\ (stays lo hi 0 a <-> stays lo hi e' a)).
  { unfold stays. destruct (Rlt_le_dec a lo); [exists ((lo - a) / 2); split; [lra|]; split; intros; lra|]. destruct (Rlt_le_dec hi a); [exists ((a - hi) / 2); split; [lra|]; split; intros; lra|]. exists 1. split; [lra|]. split; intros; lra. }
  destruct K as (e' & He' & K). exists (Rmin e e'). split; [now apply Rmin_pos|].
  assert (Sm : forall e1 e2 x, 0 < e1 <= e2 -> (stays lo hi 0 x <-> stays lo hi e2 x) -> (stays lo hi 0 x <-> stays lo hi e1 x)).
  { intros e1 e2 x Le Q. split; intros Hs; [unfold stays in *; lra|]. apply Q. unfold stays in *. lra. }
  intros x [<-|Hx]; [apply (Sm _ e'); auto; split; [now apply Rmin_pos | apply Rmin_r] | apply (Sm _ e); auto; split; [now apply Rmin_pos | apply Rmin_l]].
Qed.
Lemma margin_exists b m x0 dx nx y0 dy ny f : exists m', m' <> 0 /\ same_kept b m m' x0 dx nx y0 dy ny f.
Proof.
  destruct (Req_dec m 0) as [->|N]; [|exists m; split; [auto | apply same_kept_refl]].
  destruct (few_eps (x_min b) (x_max b) (map (fun k => node_x Heights x0 dx (f + Z.of_nat k)) (seq 0 nx))) as (e1 & P1 & K1). destruct (few_eps (y_min b) (y_max b) (map (node_y Heights y0 dy) (seq 0 ny))) as (e2 & P2 & K2).
  exists (Rmin e1 e2). assert (P : 0 < Rmin e1 e2) by now apply Rmin_pos. split; [lra|].
  assert (Sm : forall lo hi e x, Rmin e1 e2 <= e -> (stays lo hi 0 x <-> stays lo hi e x) -> (stays lo hi 0 x <-> stays lo hi (Rmin e1 e2) x)).
  { intros lo hi e x Le Q. split; intros Hs; [unfold stays in *; lra|]. apply Q. unfold stays in *. lra. }
  split.
  - intros i Hi. apply (Sm _ _ e1); [apply Rmin_l|]. apply K1. apply in_map_iff. exists (Z.to_nat (i - f)). split; [f_equal; lia|]. apply in_seq. lia.
  - intros j Hj. apply (Sm _ _ e2); [apply Rmin_r|]. apply K2. apply in_map_iff. exists j. split; [reflexivity|]. apply in_seq. lia.
Qed.
Lemma available_same b m m' src around x0 dx nx y0 dy ny f i : (1 <= nx)%nat -> same_kept b m m' x0 dx nx y0 dy ny f -> column_available b m src around x0 dx nx f i <-> column_available b m' src around x0 dx nx f i.
Proof.
  intros Hx [K _]. unfold column_available, available. pose proof (K f ltac:(lia)) as K1. pose proof (K (f + Z.of_nat nx - 1)%Z ltac:(lia)) as K2. split; intros [[A B]|(A & B & C & D)].
  - left. split; [auto|]. now apply K. - right. tauto. - left. split; [auto|]. now apply K. - right. tauto.
Qed.

(** ** C89: with splines the constants from a model cropped when it was read are the
    bilinear interpolants of the four nodes of the model around the point *)
Theorem C89_spline : forall src sc b m files pts pts' t out c s n x y around x0 dx nx y0 dy ny f i j,
  (forall s, In s files -> sheet_grid around x0 dx nx y0 dy ny s /\ numbers ny nx s) ->
  INR nx * dx <= 360 -> 1 / 200 < dx -> some_limit b ->
  window x0 dx nx (x_min b) (x_max b) f -> f = 0%Z \/ around = true ->
  read_options src true (Some b) m files = Ok t -> interpolate_options src (Quick Spline) sc None t pts = Ok out ->
  nth_error files c = Some s -> moved (kept_longitude b m src around x0 dx nx f) pts pts' -> nth_error pts' n = Some (x, y) ->
  column_available b m src around x0 dx nx f i -> column_available b m src around x0 dx nx f (i + 1) ->
  (S j < ny)%nat -> row_stays b m y0 dy j -> row_stays b m y0 dy (S j) ->
  node_x Heights x0 dx i <= x < node_x Heights x0 dx (i + 1) ->
  bracket (S (S j) = ny) (node_y Heights y0 dy j) (node_y Heights y0 dy (S j)) y ->
  let z := corners Heights x0 dx y0 dy nx x y i j (fun j i => valid (entry (None, true) (shc s) j i)) in
  exists cs r, nth_error out c = Some cs /\ length cs = length pts /\ nth_error cs n = Some r /\
    (complete z -> both (mean (part fst z)) (mean (part snd z)) <> None /\ scaled sc (both (mean (part fst z)) (mean (part snd z))) r) /\ (~ complete z -> r = None).
Proof.
  intros src sc b m files pts pts' t out c s n x y around x0 dx nx y0 dy ny f i j Hf Hw Hd Sb W Hf0 Ht H Hc Mv Hn Ai Ai1 Hj Rj Rj1 Bx By z.
  destruct (margin_exists b m x0 dx nx y0 dy ny f) as (m' & Hm' & Sk). pose proof (nth_error_In _ _ Hc) as Hin. destruct (Hf s Hin) as [G Hv]. pose proof G as (_ & _ & Nx & _).
  assert (Ne : files <> []) by (intros ->; destruct Hin).
  assert (Hn' : pts <> []) by (intros ->; inversion Mv; subst; destruct n; discriminate).
  assert (Lp : length pts' = length pts) by (inversion Mv; subst; auto; apply map_length).
  destruct (C89_cropped src (Quick Spline) sc None b m m' files pts pts' around x0 dx nx y0 dy ny f i j) as (t' & T & E); auto.
  { intros s' Hs'. destruct (Hf s' Hs'). unfold usable_for. auto. }
  rewrite Ht in T. apply Ok_inj in T as <-. rewrite H in E. symmetry in E. rewrite C84_off in E. rewrite <- Lp. destruct Sk as [Sk1 Sk2].
  apply (C83_spline src sc (Some b) (Some m') b m' files pts' out c s n x y around x0 dx nx y0 dy ny f i j E); auto; try (now apply (available_same b m m' src around x0 dx nx y0 dy ny f); [lia|split|]).
  - reflexivity. - unfold margin. auto. - destruct Hf0; [left; auto | right; split; [auto | lra]]. - apply Sk2; auto; lia. - apply Sk2; auto.
Qed.
Print Assumptions C89_spline.
