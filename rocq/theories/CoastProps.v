(** C85: extrapolation for OTIS models. *)
From Coq Require Import Reals List Bool Arith ZArith Lra Lia.
From Verif Require Import PyBase RBase MathModel GeoModel ConvertProps GridModel InterpModel InterpProps ExtrapProps ExtractModel ExtractSpec NodeProps ExtractProofs ExtractProps SplineProps ReturnProps SeriesModel RegularModel CropModel ShoreModel ShoreSpec ShoreProofs CoastModel CoastSpec CoastProofs.
Import ListNotations.
Open Scope R_scope.

Lemma mapM_both {A B C} (f : A -> res B) (g : A -> res C) l out : (forall a, In a l -> forall r, f a = Ok r -> exists r', g a = Ok r') -> mapM f l = Ok out -> exists out', mapM g l = Ok out'.
Proof.
  revert out. induction l as [|a l IH]; intros out Hfg H; [eexists; reflexivity|]. cbn [mapM] in *. destruct (f a) as [r|] eqn:E; [|discriminate]. cbn [bind] in H.
  destruct (mapM f l) as [rs|]; [|discriminate]. destruct (Hfg a (or_introl eq_refl) r E) as [r' ->]. destruct (IH rs) as [out' ->]; [intros; eapply Hfg; eauto; now right | reflexivity |]. eexists. reflexivity.
Qed.
Lemma mapM_err {A B C} (f : A -> res B) (g : A -> res C) l x : (forall a, In a l -> forall y, f a = Err y <-> g a = Err y) -> mapM f l = Err x <-> mapM g l = Err x.
Proof.
  induction l as [|a l IH]; intros Hfg; [split; discriminate|]. cbn [mapM]. specialize (IH (fun a H => Hfg a (or_intror H))). specialize (Hfg a (or_introl eq_refl)).
  destruct (f a) as [r|e] eqn:Ef, (g a) as [r'|e'] eqn:Eg; cbn [bind].
  - destruct (mapM f l) as [u|u], (mapM g l) as [v|v]; cbn [bind]; destruct IH as [I1 I2]; split; intros H; try discriminate; solve [auto | apply I2 in H; discriminate | apply I1 in H; discriminate].
  - pose proof (proj2 (Hfg e') eq_refl). discriminate.
  - pose proof (proj1 (Hfg e) eq_refl). discriminate.
  - pose proof (proj1 (Hfg e) eq_refl) as K. injection K as ->. split; intros H; injection H as ->; reflexivity.
Qed.

(** ** The option makes no difference to errors *)
Theorem C85_errors : forall fwd geo w t cutoff g hcs lonlat x,
  extract_extrapolated fwd geo w t (Some cutoff) g hcs lonlat = Err x <-> extract_extrapolated fwd geo w t None g hcs lonlat = Err x.
Proof.
  intros. unfold extract_extrapolated. destruct (spacing (gx g)) as [dx|]; [|reflexivity]. cbn [bind]. destruct (spacing (gy g)) as [dy|]; [|reflexivity]. cbn [bind].
  destruct (amin (gx g)) as [lo|]; [|reflexivity]. cbn [bind]. destruct (amax (gx g)) as [hi|]; [|reflexivity]. cbn [bind]. destruct (batch geo lo hi (map fwd lonlat)) as [pts|]; [|reflexivity]. cbn [bind].
  set (glob := geo && _). destruct (if glob then extend_axis (gx g) dx else Ok (gx g)) as [xe|]; [|reflexivity]. cbn [bind].
  destruct (mapM (outside_axes xe (gy g)) pts) as [inv|]; [|reflexivity]. cbn [bind]. destruct (layer glob dx dy xe (gy g) g t) as [[[xi yi] b]|]; [|reflexivity]. cbn [bind].
  destruct (mapM (depth_by w xi yi b) pts) as [ds|]; [|reflexivity]. cbn [bind].
  set (f := fun hc => do e <- extend_if glob hc ;; do f <- remask b e ;; constituent_values geo w t (Some cutoff) xi yi f (combine pts (combine inv ds))).
  set (h := fun hc => do e <- extend_if glob hc ;; do f <- remask b e ;; constituent_values geo w t None xi yi f (combine pts (combine inv ds))).
  assert (K := mapM_err f h hcs x). destruct K as [K1 K2].
  { intros hc _ y. unfold f, h. destruct (extend_if glob hc) as [e|]; [|reflexivity]. cbn [bind]. destruct (remask b e) as [m|]; [|reflexivity]. cbn [bind]. apply constituent_values_err. }
  destruct (mapM f hcs) as [u|u], (mapM h hcs) as [v|v]; cbn [bind] in *; split; intros H; try discriminate; injection H as ->;
    solve [pose proof (K2 eq_refl) as K; discriminate K | pose proof (K1 eq_refl) as K; discriminate K | pose proof (K1 eq_refl) as K; injection K as ->; reflexivity | pose proof (K2 eq_refl) as K; injection K as ->; reflexivity].
Qed.
Print Assumptions C85_errors.

(** ** Without the option: extraction as in C68 and C82 *)
Lemma combine3_fst {A B C} (a : list A) (b : list B) (c : list C) : length b = length a -> length c = length a -> map fst (combine a (combine b c)) = a.
Proof. revert b c. induction a as [|x a IH]; intros [|y b] [|z c] L1 L2; try discriminate; auto. cbn. f_equal. apply IH; auto. Qed.
Lemma combine3_depth {A B C} (a : list A) (b : list B) (c : list C) : length b = length a -> length c = length a -> map (fun p => snd (snd p)) (combine a (combine b c)) = c.
Proof. revert b c. induction a as [|x a IH]; intros [|y b] [|z c] L1 L2; try discriminate; auto. cbn. f_equal. apply IH; auto. Qed.
(** the constants point by point: those of one constituent at a point *)
Definition at_point (w : way) (xi yi : list R) (t : variable) (p : (R * R) * (bool * gcell R)) (f : field) : res (option (R * R)) :=
  do h <- constant_by w xi yi f (fst p) ;; Ok (value_at t (fst (snd p)) (snd (snd p)) (h, masked_by w (snd (snd p)) h)).
Lemma values_points geo w t xi yi f pps : constituent_values geo w t None xi yi f pps = mapM (fun p => at_point w xi yi t p f) pps.
Proof.
  unfold constituent_values. induction pps as [|p pps IH]; [reflexivity|]. cbn [mapM]. unfold at_point at 1. destruct (constant_by w xi yi f (fst p)) as [h|]; [|reflexivity]. cbn [bind].
  rewrite <- IH. destruct (mapM _ pps) as [hs|]; reflexivity.
Qed.
Lemma point_constant me xi yi t q inv D f : at_point (Quick me) xi yi t (q, (inv, D)) f = constant me xi yi t D inv q f.
Proof.
  unfold at_point, constant. cbn [fst snd constant_by]. destruct me; [destruct (cbilinear xi yi (drop_invalid f) q) as [h|] | destruct (cspline xi yi f q) as [h|]]; try reflexivity; cbn [bind]; f_equal; unfold value_at; cbn [fst snd masked_by].
  - destruct (is_nan h || snd D || inv) eqn:E; auto. destruct (fst h) as [z|]; auto. do 2 f_equal. unfold divided, convert. destruct t; auto; destruct (snd D); auto; rewrite orb_true_r in E; discriminate.
  - destruct (snd h || snd D || inv) eqn:E; auto. destruct (fst h) as [z|]; auto. do 2 f_equal. unfold divided, convert. destruct t; auto; destruct (snd D); auto; rewrite orb_true_r in E; discriminate.
Qed.
Lemma point_regular me xi yi t q inv D f : at_point (Regular me) xi yi t (q, (inv, D)) f = constant_regular me xi yi t D inv q f.
Proof.
  unfold at_point, constant_regular. cbn [fst snd constant_by]. destruct (cregular me xi yi f q) as [h|]; [|reflexivity]. cbn [bind]. f_equal. unfold value_at. cbn [fst snd masked_by].
  destruct (is_fill h || snd D || inv) eqn:E; auto. destruct (fst h) as [z|]; auto. do 2 f_equal. unfold divided, convert. destruct t; auto; destruct (snd D); auto; rewrite orb_true_r in E; discriminate.
Qed.
(** a table of results read by points and by constituents *)
Lemma mapM_swap {A B C} (f : A -> B -> res C) : forall la lb rows cols, mapM (fun a => mapM (f a) lb) la = Ok rows -> mapM (fun b => mapM (fun a => f a b) la) lb = Ok cols ->
  forall n m row v, nth_error rows n = Some row -> nth_error row m = Some v -> exists col, nth_error cols m = Some col /\ nth_error col n = Some v.
Proof.
  intros la lb rows cols H1 H2 n m row v Hn Hm. pose proof (mapM_len _ _ _ H1) as L1. assert (La : exists a, nth_error la n = Some a).
  { destruct (nth_error la n) as [a|] eqn:E; eauto. apply nth_error_None in E. assert (n < length rows)%nat by (apply nth_error_Some; congruence). lia. }
  destruct La as [a Ha]. destruct (mapM_nth _ _ _ _ _ H1 Ha) as (r & R1 & R2). rewrite Hn in R2. injection R2 as <-. pose proof (mapM_len _ _ _ R1) as L2.
  assert (Lb : exists b, nth_error lb m = Some b). { destruct (nth_error lb m) as [b|] eqn:E; eauto. apply nth_error_None in E. assert (m < length row)%nat by (apply nth_error_Some; congruence). lia. }
  destruct Lb as [b Hb]. destruct (mapM_nth _ _ _ _ _ R1 Hb) as (v' & V1 & V2). rewrite Hm in V2. injection V2 as <-.
  destruct (mapM_nth _ _ _ _ _ H2 Hb) as (col & C1 & C2). exists col. split; [exact C2|]. destruct (mapM_nth _ _ _ _ _ C1 Ha) as (v' & V3 & V4). congruence.
Qed.
Lemma mapM_in {A B} (f : A -> res B) l : (forall a, In a l -> exists r, f a = Ok r) -> exists out, mapM f l = Ok out.
Proof.
  induction l as [|a l IH]; intros H; [eexists; reflexivity|]. cbn [mapM]. destruct (H a (or_introl eq_refl)) as [r ->]. destruct IH as [o ->]; [intros; apply H; now right|]. eexists. reflexivity.
Qed.
Lemma mapM_ok_in {A B} (f : A -> res B) l out a : mapM f l = Ok out -> In a l -> exists r, f a = Ok r.
Proof. intros H I. apply In_nth_error in I as [n Hn]. destruct (mapM_nth _ _ _ _ _ H Hn) as (r & R1 & _). eauto. Qed.
Definition points_first (fwd : R * R -> R * R) (geo : bool) (w : way) (t : variable) (g : grid) (hcs : list field) (lonlat : list (R * R)) : res (list result) :=
  do dx <- spacing (gx g) ;; do dy <- spacing (gy g) ;;
  do lo <- amin (gx g) ;; do hi <- amax (gx g) ;;
  do pts <- batch geo lo hi (map fwd lonlat) ;;
  let glob := geo && isclose (last (gx g) 0 - hd 0 (gx g)) (360 - dx) in
  do xe <- (if glob then extend_axis (gx g) dx else Ok (gx g)) ;;
  do inv <- mapM (outside_axes xe (gy g)) pts ;;
  do l <- layer glob dx dy xe (gy g) g t ;;
  let '(xi, yi, b) := l in
  do ds <- mapM (depth_by w xi yi b) pts ;;
  do fs <- mapM (fun hc => do e <- extend_if glob hc ;; remask b e) hcs ;;
  mapM (fun p => do cs <- mapM (at_point w xi yi t p) fs ;; Ok (snd (snd p), cs)) (combine pts (combine inv ds)).
Lemma mapM_same {A B} (f g : A -> res B) l : (forall a, f a = g a) -> mapM f l = mapM g l.
Proof. intros H. induction l as [|a l IH]; [reflexivity|]. cbn [mapM]. now rewrite H, IH. Qed.
Lemma points_quick fwd geo me t g hcs lonlat : extract_constants fwd geo me t g hcs lonlat = points_first fwd geo (Quick me) t g hcs lonlat.
Proof.
  unfold extract_constants, points_first. destruct (spacing (gx g)) as [dx|]; [|reflexivity]. cbn [bind]. destruct (spacing (gy g)) as [dy|]; [|reflexivity]. cbn [bind].
  destruct (amin (gx g)) as [lo|]; [|reflexivity]. cbn [bind]. destruct (amax (gx g)) as [hi|]; [|reflexivity]. cbn [bind]. destruct (batch geo lo hi (map fwd lonlat)) as [pts|]; [|reflexivity]. cbn [bind].
  set (glob := geo && _). destruct (if glob then extend_axis (gx g) dx else Ok (gx g)) as [xe|]; [|reflexivity]. cbn [bind].
  destruct (mapM (outside_axes xe (gy g)) pts) as [inv|]; [|reflexivity]. cbn [bind]. destruct (layer glob dx dy xe (gy g) g t) as [[[xi yi] b]|]; [|reflexivity]. cbn [bind].
  change (depth_by (Quick me) xi yi b) with (extract_depth me xi yi b). destruct (mapM (extract_depth me xi yi b) pts) as [ds|]; [|reflexivity]. cbn [bind].
  destruct (mapM (fun hc => do e <- extend_if glob hc ;; remask b e) hcs) as [fs|]; [|reflexivity]. cbn [bind]. apply mapM_same. intros [q [i D]]. cbn [snd].
  rewrite (mapM_same (at_point (Quick me) xi yi t (q, (i, D))) (constant me xi yi t D i q)) by (intros; apply point_constant). reflexivity.
Qed.
Lemma points_regular fwd geo me t g hcs lonlat : extract_otis_regular fwd geo me t g hcs lonlat = points_first fwd geo (Regular me) t g hcs lonlat.
Proof.
  unfold extract_otis_regular, points_first. destruct (spacing (gx g)) as [dx|]; [|reflexivity]. cbn [bind]. destruct (spacing (gy g)) as [dy|]; [|reflexivity]. cbn [bind].
  destruct (amin (gx g)) as [lo|]; [|reflexivity]. cbn [bind]. destruct (amax (gx g)) as [hi|]; [|reflexivity]. cbn [bind]. destruct (batch geo lo hi (map fwd lonlat)) as [pts|]; [|reflexivity]. cbn [bind].
  set (glob := geo && _). destruct (if glob then extend_axis (gx g) dx else Ok (gx g)) as [xe|]; [|reflexivity]. cbn [bind].
  destruct (mapM (outside_axes xe (gy g)) pts) as [inv|]; [|reflexivity]. cbn [bind]. destruct (layer glob dx dy xe (gy g) g t) as [[[xi yi] b]|]; [|reflexivity]. cbn [bind].
  change (depth_by (Regular me) xi yi b) with (rregular me xi yi b). destruct (mapM (rregular me xi yi b) pts) as [ds|]; [|reflexivity]. cbn [bind].
  destruct (mapM (fun hc => do e <- extend_if glob hc ;; remask b e) hcs) as [fs|]; [|reflexivity]. cbn [bind]. apply mapM_same. intros [q [i D]]. cbn [snd].
  rewrite (mapM_same (at_point (Regular me) xi yi t (q, (i, D))) (constant_regular me xi yi t D i q)) by (intros; apply point_regular). reflexivity.
Qed.
(** the same table: the constant of point n and constituent c is in row n, column c of the
    one and in row c, column n of the other *)
Definition same_table (rows : list result) (depths : list (gcell R)) (cols : list (list (option (R * R)))) (nc : nat) : Prop :=
  depths = map fst rows /\ length cols = nc /\
  forall n D row, nth_error rows n = Some (D, row) -> length row = nc /\
    forall c v, nth_error row c = Some v -> exists col, nth_error cols c = Some col /\ length col = length rows /\ nth_error col n = Some v.
Lemma map_fields {T} glob b (k : field -> res T) hcs : mapM (fun hc => do e <- extend_if glob hc ;; do f <- remask b e ;; k f) hcs =
  mapM (fun hc => do f <- (do e <- extend_if glob hc ;; remask b e) ;; k f) hcs.
Proof. apply mapM_same. intros hc. destruct (extend_if glob hc); reflexivity. Qed.
Lemma mapM_bind {A B C} (f : A -> res B) (k : B -> res C) l : forall out o, mapM f l = Ok out -> mapM k out = Ok o -> mapM (fun a => do b <- f a ;; k b) l = Ok o.
Proof.
  induction l as [|a l IH]; intros out o H Hk; cbn [mapM] in *; [apply Ok_inj in H as <-; exact Hk|].
  destruct (f a) as [b|]; [|discriminate]. cbn [bind] in *. destruct (mapM f l) as [bs|]; [|discriminate]. cbn [bind] in H. apply Ok_inj in H as <-. cbn [mapM] in Hk.
  destruct (k b) as [c|]; [|discriminate]. cbn [bind] in *. destruct (mapM k bs) as [cs|] eqn:E; [|discriminate]. rewrite (IH bs cs eq_refl E). exact Hk.
Qed.
Lemma mapM_unbind {A B C} (f : A -> res B) (k : B -> res C) l : forall o, mapM (fun a => do b <- f a ;; k b) l = Ok o -> exists out, mapM f l = Ok out /\ mapM k out = Ok o.
Proof.
  induction l as [|a l IH]; intros o H; cbn [mapM] in *; [exists []; auto|]. destruct (f a) as [b|]; [|discriminate]. cbn [bind] in *. destruct (k b) as [c|] eqn:Ek; [|discriminate]. cbn [bind] in H.
  destruct (mapM (fun a => do b <- f a ;; k b) l) as [cs|]; [|discriminate]. cbn [bind] in H. destruct (IH cs eq_refl) as (bs & -> & E). cbn [bind]. exists (b :: bs). split; [reflexivity|]. cbn [mapM]. rewrite Ek, E. exact H.
Qed.
Lemma rows_table {A B E T} (f : A * (B * E) -> res T) : forall ds rows pts inv, length inv = length pts -> length ds = length pts ->
  mapM (fun p => do cs <- f p ;; Ok (snd (snd p), cs)) (combine pts (combine inv ds)) = Ok rows ->
  exists tab, mapM f (combine pts (combine inv ds)) = Ok tab /\ rows = combine ds tab /\ length tab = length (combine pts (combine inv ds)).
Proof.
  induction ds as [|D ds IH]; intros rows [|q pts] [|i inv] Li Ld H; try discriminate.
  - cbn in H. apply Ok_inj in H as <-. exists []. auto.
  - cbn [combine mapM] in *. destruct (f (q, (i, D))) as [r|]; [|discriminate]. cbn [bind snd] in H.
    match type of H with bind ?m _ = _ => destruct m as [rs|] eqn:Er; [|discriminate] end. cbn [bind] in H. apply Ok_inj in H as <-.
    cbn [length] in Li, Ld. destruct (IH rs pts inv ltac:(lia) ltac:(lia) Er) as (tab & Et & -> & Lt). exists (r :: tab). rewrite Et. cbn [bind]. split; [reflexivity|]. split; [reflexivity|]. cbn [length]. lia.
Qed.
Lemma table_swap fwd geo w t g hcs lonlat :
  (forall rows, points_first fwd geo w t g hcs lonlat = Ok rows -> exists ds cols, extract_extrapolated fwd geo w t None g hcs lonlat = Ok (ds, cols) /\ same_table rows ds cols (length hcs)) /\
  (forall ds cols, extract_extrapolated fwd geo w t None g hcs lonlat = Ok (ds, cols) -> exists rows, points_first fwd geo w t g hcs lonlat = Ok rows).
Proof.
  unfold extract_extrapolated, points_first. destruct (spacing (gx g)) as [dx|]; [|split; discriminate]. cbn [bind]. destruct (spacing (gy g)) as [dy|]; [|split; discriminate]. cbn [bind].
  destruct (amin (gx g)) as [lo|]; [|split; discriminate]. cbn [bind]. destruct (amax (gx g)) as [hi|]; [|split; discriminate]. cbn [bind]. destruct (batch geo lo hi (map fwd lonlat)) as [pts|] eqn:Eb; [|split; discriminate]. cbn [bind].
  set (glob := geo && _). destruct (if glob then extend_axis (gx g) dx else Ok (gx g)) as [xe|]; [|split; discriminate]. cbn [bind].
  destruct (mapM (outside_axes xe (gy g)) pts) as [inv|] eqn:Ei; [|split; discriminate]. cbn [bind]. destruct (layer glob dx dy xe (gy g) g t) as [[[xi yi] b]|]; [|split; discriminate]. cbn [bind].
  destruct (mapM (depth_by w xi yi b) pts) as [ds|] eqn:Ed; [|split; discriminate]. cbn [bind].
  pose proof (mapM_len _ _ _ Ei) as Li. pose proof (mapM_len _ _ _ Ed) as Ld. set (pps := combine pts (combine inv ds)). rewrite map_fields.
  assert (Lp : length pps = length pts) by (unfold pps; rewrite !combine_length; lia).
  split.
  - intros rows H. destruct (mapM (fun hc => do e <- extend_if glob hc ;; remask b e) hcs) as [fs|] eqn:Ef; [|discriminate]. cbn [bind] in H.
    assert (Rows : exists tab, mapM (fun p => mapM (at_point w xi yi t p) fs) pps = Ok tab /\ rows = combine ds tab /\ length tab = length pps).
    { exact (rows_table (fun p => mapM (at_point w xi yi t p) fs) ds rows pts inv Li Ld H). }
    destruct Rows as (tab & Et & -> & Lt).
    assert (Cols : exists cols, mapM (fun f => mapM (fun p => at_point w xi yi t p f) pps) fs = Ok cols).
    { apply mapM_in. intros f If. apply mapM_in. intros p Ip. destruct (mapM_ok_in _ _ _ p Et Ip) as [row Er]. destruct (mapM_ok_in _ _ _ f Er If) as [v Ev]. eauto. }
    destruct Cols as [cols Ec]. assert (Ec' : mapM (fun f => constituent_values geo w t None xi yi f pps) fs = Ok cols) by (rewrite <- Ec; apply mapM_same; intros; apply values_points).
    match goal with |- context [bind ?m (fun out => Ok (ds, out))] => assert (Em : m = Ok cols) by exact (mapM_bind _ (fun f => constituent_values geo w t None xi yi f pps) hcs fs cols Ef Ec'); rewrite Em end. cbn [bind]. exists ds, cols. split; [reflexivity|]. pose proof (mapM_len _ _ _ Ef) as Lf.
    split. { clear - Lt Lp Ld. assert (L : length ds = length tab) by lia. clear Lt Lp Ld. revert tab L. induction ds as [|D ds IH]; intros [|r tab] L; try discriminate; auto. cbn. f_equal. apply IH. auto. }
    split. { rewrite (mapM_len _ _ _ Ec). exact Lf. }
    intros n D row Hn. assert (Hrow : nth_error tab n = Some row). { clear - Hn. revert ds tab Hn. induction n as [|n IH]; intros [|D' ds] [|r tab] Hn; try discriminate; cbn in *; [congruence | eapply IH; eauto]. }
    split. { assert (Ip : exists p, nth_error pps n = Some p). { destruct (nth_error pps n) eqn:E; eauto. apply nth_error_None in E. assert (n < length tab)%nat by (apply nth_error_Some; congruence). lia. }
      destruct Ip as [p Hp]. destruct (mapM_nth _ _ _ _ _ Et Hp) as (r & R1 & R2). rewrite Hrow in R2. injection R2 as <-. rewrite (mapM_len _ _ _ R1). exact Lf. }
    intros c v Hv. destruct (mapM_swap (at_point w xi yi t) pps fs tab cols Et Ec n c row v Hrow Hv) as (col & C1 & C2). exists col. split; [exact C1|]. split; [|exact C2].
    assert (If : exists f, nth_error fs c = Some f). { destruct (nth_error fs c) eqn:E; eauto. apply nth_error_None in E. pose proof (mapM_len _ _ _ Ec). assert (c < length cols)%nat by (apply nth_error_Some; congruence). lia. }
    destruct If as [f Hf]. destruct (mapM_nth _ _ _ _ _ Ec Hf) as (col' & C3 & C4). rewrite C1 in C4. injection C4 as <-. pose proof (mapM_len _ _ _ C3) as L3. etransitivity; [exact L3|]. etransitivity; [|symmetry; exact (combine_length ds tab)]. lia.
  - intros ds' cols H. match type of H with bind ?m _ = _ => destruct m as [o|] eqn:Eo; [|discriminate] end. destruct (mapM_unbind _ _ _ _ Eo) as (fs & -> & Ec). cbn [bind].
    apply mapM_in. intros p Ip. assert (R : exists cs, mapM (at_point w xi yi t p) fs = Ok cs).
    { apply mapM_in. intros f If. destruct (mapM_ok_in _ _ _ f Ec If) as [col Ecol]. rewrite values_points in Ecol. exact (mapM_ok_in _ _ _ p Ecol Ip). }
    destruct R as [cs ->]. eexists. reflexivity.
Qed.
Theorem C85_off : forall fwd geo me t g hcs lonlat rows,
  extract_constants fwd geo me t g hcs lonlat = Ok rows ->
  exists depths cols, extract_extrapolated fwd geo (Quick me) t None g hcs lonlat = Ok (depths, cols) /\ same_table rows depths cols (length hcs).
Proof. intros fwd geo me t g hcs lonlat rows H. rewrite points_quick in H. exact (proj1 (table_swap _ _ _ _ _ _ _) _ H). Qed.
Print Assumptions C85_off.
Theorem C85_off_regular : forall fwd geo me t g hcs lonlat rows,
  extract_otis_regular fwd geo me t g hcs lonlat = Ok rows ->
  exists depths cols, extract_extrapolated fwd geo (Regular me) t None g hcs lonlat = Ok (depths, cols) /\ same_table rows depths cols (length hcs).
Proof. intros fwd geo me t g hcs lonlat rows H. rewrite points_regular in H. exact (proj1 (table_swap _ _ _ _ _ _ _) _ H). Qed.
Print Assumptions C85_off_regular.
(** and it fails only where that fails *)
Theorem C85_off_returns : forall fwd geo t g hcs lonlat,
  (forall me x, extract_extrapolated fwd geo (Quick me) t None g hcs lonlat = Ok x -> exists rows, extract_constants fwd geo me t g hcs lonlat = Ok rows) /\
  (forall me x, extract_extrapolated fwd geo (Regular me) t None g hcs lonlat = Ok x -> exists rows, extract_otis_regular fwd geo me t g hcs lonlat = Ok rows).
Proof.
  intros. split; intros me [ds cols] H; [rewrite points_quick | rewrite points_regular]; exact (proj2 (table_swap _ _ _ _ _ _ _) _ _ H).
Qed.
Print Assumptions C85_off_returns.
