(** C87: extrapolation for ATLAS models. *)
From Coq Require Import Reals List Bool Arith ZArith Lra Lia.
From Verif Require Import PyBase RBase MathModel GeoModel ConvertProps GridModel InterpModel InterpProps ExtrapProps ExtractModel ExtractSpec NodeProps ExtractProofs ExtractProps SplineProps ReturnProps SeriesModel SeriesSpec SeriesProofs SeriesProps SeriesProps2 SeriesProps3 StretchProofs AtlasNcModel AtlasNcSpec AtlasNcProps AtlasNcProps2 RegularModel CropModel CropProofs ShoreModel ShoreSpec ShoreProofs ShoreProps CoastModel CoastSpec CoastProofs CoastProps NarrowModel ReefModel ReefSpec ReefProofs.
From Verif Require MaskModel.
Import ListNotations.
Open Scope R_scope.

Lemma not_cropped_un crop bounds pts : not_cropped crop bounds pts -> uncropped crop bounds pts.
Proof.
  intros [H|H]; [now left|]. right. destruct bounds as [b|]; [|exact H]. destruct H as (E1 & E2 & E3 & E4). unfold any_limit. rewrite E1, E2, E3, E4. unfold req. destruct (Req_EM_T 0 0); [reflexivity | congruence].
Qed.
(** ** Without the options: extraction as in C71 and C82 *)
Theorem C87_off : forall me t sc crop bounds buffer g files pts, not_cropped crop bounds pts ->
  extract_reef (Quick me) t sc None crop bounds buffer g files pts = extract_atlas me t sc g files pts.
Proof.
  intros me t sc crop bounds buffer g files pts U. rewrite reef_off by now apply not_cropped_un. rewrite atlas_quick. destruct (read_netcdf_grid t g) as [[[lon lat] h]|]; [|reflexivity]. cbn [bind].
  destruct (amin (map fst pts)); [|reflexivity]. cbn [bind]. destruct (spacing lon) as [d|]; [|reflexivity]. cbn [bind]. destruct (adjust lon pts) as [pts'|]; [|reflexivity]. cbn [bind]. apply plain_off.
Qed.
Print Assumptions C87_off.
Theorem C87_off_regular : forall me t sc crop bounds buffer g files pts, not_cropped crop bounds pts ->
  extract_reef (Regular me) t sc None crop bounds buffer g files pts = extract_atlas_regular me t sc g files pts.
Proof.
  intros me t sc crop bounds buffer g files pts U. rewrite reef_off by now apply not_cropped_un. rewrite atlas_regularly. destruct (read_netcdf_grid t g) as [[[lon lat] h]|]; [|reflexivity]. cbn [bind].
  destruct (amin (map fst pts)); [|reflexivity]. cbn [bind]. destruct (spacing lon) as [d|]; [|reflexivity]. cbn [bind]. destruct (adjust lon pts) as [pts'|]; [|reflexivity]. cbn [bind]. apply plain_off.
Qed.
Print Assumptions C87_off_regular.

(** ** Extrapolation makes no difference to errors, depths and names *)
Definition same_rest (a b : AtlasNcModel.answer) : Prop := adepth a = adepth b /\ anames a = anames b.
Lemma from_both w t sc co d lon lat h fields files pts :
  (exists out out0, reef_from w t sc (Some co) d lon lat h fields files pts = Ok out /\ reef_from w t sc None d lon lat h fields files pts = Ok out0 /\ same_rest out out0) \/
  (exists e, reef_from w t sc (Some co) d lon lat h fields files pts = Err e /\ reef_from w t sc None d lon lat h fields files pts = Err e).
Proof.
  unfold reef_from. set (glob := isclose _ _). destruct (if glob then extend_axis lon d else Ok lon) as [xi|e]; [|right; exists e; split; reflexivity]. cbn [bind].
  destruct (extend_if glob h) as [b|e]; [|right; exists e; split; reflexivity]. cbn [bind]. destruct (mapM (outside_axes xi lat) pts) as [inv|e]; [|right; exists e; split; reflexivity]. cbn [bind].
  destruct (mapM (bed_by w xi lat b) pts) as [ds|e]; [|right; exists e; split; reflexivity]. cbn [bind].
  set (F := fun ex f => do r <- read_netcdf_file t f ;; do c <- fields (fst r) ;; do e <- extend_if glob c ;; do hc <- remask b e ;; do cs <- reef_constituent w t sc ex xi lat hc (combine pts (combine inv ds)) ;; Ok (cs, snd r)).
  assert (One : forall f, (exists x y, F (Some co) f = Ok x /\ F None f = Ok y /\ snd x = snd y) \/ exists e, F (Some co) f = Err e /\ F None f = Err e).
  { intros f. unfold F. destruct (read_netcdf_file t f) as [r|e]; [|right; exists e; split; reflexivity]. cbn [bind]. destruct (fields (fst r)) as [c|e]; [|right; exists e; split; reflexivity]. cbn [bind].
    destruct (extend_if glob c) as [e0|e]; [|right; exists e; split; reflexivity]. cbn [bind]. destruct (remask b e0) as [hc|e]; [|right; exists e; split; reflexivity]. cbn [bind].
    pose proof (reef_constituent_err w t sc (Some co) xi lat hc (combine pts (combine inv ds))) as K.
    destruct (reef_constituent w t sc (Some co) xi lat hc (combine pts (combine inv ds))) as [a|e] eqn:E.
    - destruct (reef_constituent w t sc None xi lat hc (combine pts (combine inv ds))) as [a0|e]; [|pose proof (proj2 (K e) eq_refl); discriminate]. left. do 2 eexists. split; [reflexivity|]. split; reflexivity.
    - rewrite (proj1 (K e) eq_refl). right. exists e. split; reflexivity. }
  assert (All : (exists o o0, mapM (F (Some co)) files = Ok o /\ mapM (F None) files = Ok o0 /\ map snd o = map snd o0) \/ exists e, mapM (F (Some co)) files = Err e /\ mapM (F None) files = Err e).
  { induction files as [|f l IH]; [left; exists [], []; auto|]. cbn [mapM]. destruct (One f) as [(x & y & -> & -> & S)|(e & -> & ->)]; [|right; exists e; split; reflexivity]. cbn [bind].
    destruct IH as [(o & o0 & -> & -> & So)|(e & -> & ->)]; [|right; exists e; split; reflexivity]. left. do 2 eexists. split; [reflexivity|]. split; [reflexivity|]. cbn [map]. now rewrite S, So. }
  unfold F in All.
  destruct All as [(o & o0 & E1 & E2 & So)|(e & E1 & E2)].
  - left. rewrite E1, E2. cbn [bind]. do 2 eexists. split; [reflexivity|]. split; [reflexivity|]. split; cbn; auto.
  - right. exists e. rewrite E1, E2. split; reflexivity.
Qed.
Lemma reef_both w t sc co crop bounds buffer g files pts :
  (exists out out0, extract_reef w t sc (Some co) crop bounds buffer g files pts = Ok out /\ extract_reef w t sc None crop bounds buffer g files pts = Ok out0 /\ same_rest out out0) \/
  (exists e, extract_reef w t sc (Some co) crop bounds buffer g files pts = Err e /\ extract_reef w t sc None crop bounds buffer g files pts = Err e).
Proof.
  unfold extract_reef. destruct (read_netcdf_grid t g) as [[[lon lat] h]|e]; [|right; exists e; split; reflexivity]. cbn [bind].
  destruct (amin (map fst pts)) as [xl|e]; [|right; exists e; split; reflexivity]. cbn [bind]. destruct (amax (map fst pts)) as [xh|e]; [|right; exists e; split; reflexivity]. cbn [bind].
  destruct (amin (map snd pts)) as [yl|e]; [|right; exists e; split; reflexivity]. cbn [bind]. destruct (amax (map snd pts)) as [yh|e]; [|right; exists e; split; reflexivity]. cbn [bind].
  destruct (spacing lon) as [d|e]; [|right; exists e; split; reflexivity]. cbn [bind]. set (b := match bounds with Some b => b | None => _ end).
  destruct (crop && any_limit b).
  - destruct (crop_matrix true b (buffer_of buffer d) h lon lat) as [c|e]; [|right; exists e; split; reflexivity]. cbn [bind]. apply from_both.
  - destruct (adjust lon pts) as [pts'|e]; [|right; exists e; split; reflexivity]. cbn [bind]. apply from_both.
Qed.
Theorem C87_errors : forall w t sc cutoff crop bounds buffer g files pts x,
  extract_reef w t sc (Some cutoff) crop bounds buffer g files pts = Err x <-> extract_reef w t sc None crop bounds buffer g files pts = Err x.
Proof.
  intros. destruct (reef_both w t sc cutoff crop bounds buffer g files pts) as [(o & o0 & -> & -> & _)|(e & -> & ->)]; [split; discriminate | reflexivity].
Qed.
Print Assumptions C87_errors.
Theorem C87_kept : forall w t sc cutoff crop bounds buffer g files pts out,
  extract_reef w t sc (Some cutoff) crop bounds buffer g files pts = Ok out ->
  exists out0, extract_reef w t sc None crop bounds buffer g files pts = Ok out0 /\ adepth out = adepth out0 /\ anames out = anames out0.
Proof.
  intros w t sc cutoff crop bounds buffer g files pts out H. destruct (reef_both w t sc cutoff crop bounds buffer g files pts) as [(o & o0 & E & E0 & S1 & S2)|(e & E & _)]; [|congruence].
  rewrite H in E. apply Ok_inj in E as <-. eauto.
Qed.
Print Assumptions C87_kept.

(** ** Depths and constants between the same nodes *)
Definition twins {V W} (m : list (list (gcell V))) (m' : list (list (gcell W))) : Prop :=
  forall iy ix c, gget2 m iy ix = Ok c -> exists c', gget2 m' iy ix = Ok c' /\ snd c = snd c' /\ fst c <> None /\ fst c' <> None.
Lemma gget2_entry {V} (m : list (list (gcell V))) ny nx iy ix c : rect ny nx m -> gget2 m iy ix = Ok c -> (iy < ny)%nat /\ (ix < nx)%nat /\ entry (None, true) m iy ix = c.
Proof.
  intros [L Rr] H. unfold gget2, get1 in H. destruct (nth_error m iy) as [r|] eqn:E1; [|discriminate]. cbn [bind] in H. destruct (nth_error r ix) as [c'|] eqn:E2; [|discriminate]. apply Ok_inj in H as <-.
  assert (Hy : (iy < length m)%nat) by (apply nth_error_Some; congruence). assert (Hx : (ix < length r)%nat) by (apply nth_error_Some; congruence). rewrite (Rr r) in Hx by (eapply nth_error_In; eauto).
  split; [lia|]. split; [lia|]. exact (eq_trans (f_equal (fun r => nth ix r (None, true)) (nth_error_nth m iy [] E1)) (nth_error_nth r ix (None, true) E2)).
Qed.
Lemma gget2_at {V} (m : list (list (gcell V))) ny nx iy ix : rect ny nx m -> (iy < ny)%nat -> (ix < nx)%nat -> gget2 m iy ix = Ok (entry (None, true) m iy ix).
Proof.
  intros [L Rr] Hy Hx. unfold gget2, get1, entry. rewrite (nth_error_nth' m [] (n := iy)) by exact (eq_ind_r (fun k => (iy < k)%nat) Hy L). cbn [bind].
  assert (Lr : length (nth iy m []) = nx) by (apply Rr, nth_In; exact (eq_ind_r (fun k => (iy < k)%nat) Hy L)). now rewrite (nth_error_nth' (nth iy m []) (None, true) (n := ix)) by exact (eq_ind_r (fun k => (ix < k)%nat) Hx Lr).
Qed.
Lemma twins_of {V W} ny nx (m : list (list (gcell V))) (m' : list (list (gcell W))) : rect ny nx m -> rect ny nx m' ->
  (forall j i, (j < ny)%nat -> (i < nx)%nat -> snd (entry (None, true) m j i) = snd (entry (None, true) m' j i) /\ fst (entry (None, true) m j i) <> None /\ fst (entry (None, true) m' j i) <> None) -> twins m m'.
Proof.
  intros R1 R2 H iy ix c E. destruct (gget2_entry m ny nx iy ix c R1 E) as (Hy & Hx & <-). exists (entry (None, true) m' iy ix). split; [now apply (gget2_at m' ny nx)|]. now apply H.
Qed.
Lemma twin_bilinear {V W} (zv : V) av sv (zw : W) aw sw xi yi m m' q k k' : twins m m' -> gbilinear_point zv av sv xi yi m q = Ok k -> gbilinear_point zw aw sw xi yi m' q = Ok k' ->
  snd k = snd k' /\ (fst k = None <-> fst k' = None).
Proof.
  intros T H H'. unfold gbilinear_point in H, H'. destruct q as [x y]. destruct (amin xi) as [lo|]; [|discriminate]. destruct (amax xi) as [hi|]; [|discriminate]. destruct (amin yi) as [la|]; [|discriminate]. destruct (amax yi) as [ha|]; [|discriminate]. cbn [bind] in H, H'.
  destruct (rle lo x && rle x hi && (rlt la y && rlt y ha)); [|apply Ok_inj in H as <-; apply Ok_inj in H' as <-; split; [reflexivity | split; auto]].
  unfold gbilinear_inside in H, H'. destruct (single (brackets 0 xi x)) as [ix|]; [|discriminate]. cbn [bind] in H, H'. destruct (single (brackets 0 yi y)) as [iy|]; [|discriminate]. cbn [bind] in H, H'.
  destruct (get1 xi ix) as [x0|]; [|discriminate]. destruct (get1 xi (S ix)) as [x1|]; [|discriminate]. destruct (get1 yi iy) as [y0|]; [|discriminate]. destruct (get1 yi (S iy)) as [y1|]; [|discriminate]. cbn [bind] in H, H'.
  match type of H with bind (gget2 ?a ?b ?c) _ = _ => destruct (gget2 a b c) as [c00|] eqn:E0; [|discriminate] end. cbn [bind] in H. destruct (T _ _ _ E0) as (d00 & F0 & A0 & B0 & C0). rewrite F0 in H'. cbn [bind] in H'.
  match type of H with bind (gget2 ?a ?b ?c) _ = _ => destruct (gget2 a b c) as [c01|] eqn:E1; [|discriminate] end. cbn [bind] in H. destruct (T _ _ _ E1) as (d01 & F1 & A1 & B1 & C1). rewrite F1 in H'. cbn [bind] in H'.
  match type of H with bind (gget2 ?a ?b ?c) _ = _ => destruct (gget2 a b c) as [c10|] eqn:E2; [|discriminate] end. cbn [bind] in H. destruct (T _ _ _ E2) as (d10 & F2 & A2 & B2 & C2). rewrite F2 in H'. cbn [bind] in H'.
  match type of H with bind (gget2 ?a ?b ?c) _ = _ => destruct (gget2 a b c) as [c11|] eqn:E3; [|discriminate] end. cbn [bind] in H. destruct (T _ _ _ E3) as (d11 & F3 & A3 & B3 & C3). rewrite F3 in H'. cbn [bind] in H'.
  clear E0 E1 E2 E3 F0 F1 F2 F3 T.
  destruct c00 as [[v00|] n00]; [|now contradiction B0]. destruct c01 as [[v01|] n01]; [|now contradiction B1]. destruct c10 as [[v10|] n10]; [|now contradiction B2]. destruct c11 as [[v11|] n11]; [|now contradiction B3].
  destruct d00 as [[w00|] o00]; [|now contradiction C0]. destruct d01 as [[w01|] o01]; [|now contradiction C1]. destruct d10 as [[w10|] o10]; [|now contradiction C2]. destruct d11 as [[w11|] o11]; [|now contradiction C3].
  cbn [snd] in A0, A1, A2, A3. subst o00 o01 o10 o11. clear B0 B1 B2 B3 C0 C1 C2 C3.
  destruct (isclose y y0 && isclose x x0); [apply Ok_inj in H as <-; apply Ok_inj in H' as <-; cbn; split; [reflexivity | split; discriminate]|].
  destruct (isclose y y1 && isclose x x0); [apply Ok_inj in H as <-; apply Ok_inj in H' as <-; cbn; split; [reflexivity | split; discriminate]|].
  destruct (isclose y y0 && isclose x x1); [apply Ok_inj in H as <-; apply Ok_inj in H' as <-; cbn; split; [reflexivity | split; discriminate]|].
  destruct (isclose y y1 && isclose x x1); [apply Ok_inj in H as <-; apply Ok_inj in H' as <-; cbn; split; [reflexivity | split; discriminate]|].
  revert H H'. unfold gweighted.
  destruct n00, n01, n10, n11; cbn [existsb gusable fst snd negb orb filter map fold_right]; intros H H'; apply Ok_inj in H as <-; apply Ok_inj in H' as <-; cbn [fst snd]; (split; [reflexivity|]);
    try (split; auto; fail); match goal with |- context [req ?a 0] => destruct (req a 0) end; split; intros K; auto; discriminate.
Qed.

(** a bed that is not masked is a number; so is a constant that is not masked *)
Lemma bed_number w xi yi b q D : all_of b -> bed_by w xi yi b q = Ok D -> outside_axes xi yi q = Ok false -> snd D = false \/ w <> Quick Bilinear -> fst D <> None.
Proof.
  intros N H O V. destruct w as [[|]|me]; cbn [bed_by sounding] in H.
  - destruct V as [V|V]; [|congruence]. destruct (rbilinear _ _ _ q) as [d|]; [|discriminate]. cbn [bind] in H. apply Ok_inj in H as <-. cbn [fst snd] in *. apply orb_false_iff in V as [_ V]. unfold is_nan in V. destruct (fst d); congruence.
  - exact (gspline_of _ _ _ _ _ _ _ _ N H).
  - destruct (gregular_of _ _ _ _ _ _ _ _ _ N H) as [G|[_ O']]; auto. congruence.
Qed.
Lemma number_number w xi yi b hc q D k : all_of hc -> twins hc b -> bed_by w xi yi b q = Ok D -> number_by w xi yi hc q = Ok k -> outside_axes xi yi q = Ok false -> concealed D k = false -> fst k <> None.
Proof.
  intros N T HD H O V. destruct w as [[|]|me]; cbn [bed_by number_by sounding] in *.
  - destruct (rbilinear _ _ _ q) as [d|] eqn:E; [|discriminate]. cbn [bind] in HD. apply Ok_inj in HD as <-. unfold concealed in V. cbn [fst snd] in V. apply orb_false_iff in V as [_ V]. apply orb_false_iff in V as [_ V].
    destruct (twin_bilinear _ _ _ _ _ _ _ _ _ _ _ _ _ T H E) as [_ F]. intros K. apply F in K. unfold is_nan in V. rewrite K in V. discriminate.
  - exact (gspline_of _ _ _ _ _ _ _ _ N H).
  - destruct (gregular_of _ _ _ _ _ _ _ _ _ N H) as [G|[_ O']]; auto. congruence.
Qed.
Lemma concealed_bed xi yi b hc q D k : twins hc b -> bed_by (Quick Bilinear) xi yi b q = Ok D -> number_by (Quick Bilinear) xi yi hc q = Ok k -> concealed D k = true -> snd D = true.
Proof.
  intros T HD H V. cbn [bed_by number_by sounding] in *. destruct (rbilinear _ _ _ q) as [d|] eqn:E; [|discriminate]. cbn [bind] in HD. apply Ok_inj in HD as <-. cbn [fst snd].
  destruct (twin_bilinear _ _ _ _ _ _ _ _ _ _ _ _ _ T H E) as [M _]. unfold concealed in V. cbn [snd] in V. rewrite M in V. destruct (snd d); [reflexivity | exact V].
Qed.
Lemma beyond_outside around x0 dx nx y0 dy ny xi yi q inv : evenly (x0 - INR (bef around) * dx) dx (bef around + nx + aft FES around) xi -> evenly y0 dy ny yi -> (2 <= nx)%nat -> (2 <= ny)%nat ->
  outside_axes xi yi q = Ok inv -> (inv = true <-> beyond FES around x0 dx nx y0 dy ny (fst q) (snd q)).
Proof.
  intros Hx Hy Nx Ny H. destruct q as [x y]. destruct (outside_beyond FES around x0 dx nx y0 dy ny xi yi x y inv Hx Hy Nx Ny H) as (_ & B2 & B3). cbn [fst snd]. split; [|auto].
  intros E. destruct (Rlt_dec x (node_x Heights x0 dx (first_of around))); [now left|]. destruct (Rlt_dec (node_x Heights x0 dx (last_of (behind FES) around nx)) x); [now right; left|].
  destruct (Rlt_dec y (node_y Heights y0 dy 0)); [now right; right; left|]. destruct (Rlt_dec (node_y Heights y0 dy (ny - 1)) y); [now right; right; right|].
  exfalso. rewrite B3 in E; [discriminate|]. intros [F|[F|[F|F]]]; contradiction.
Qed.
Section Fill.
  Variables (w : way) (t : variable) (sc : R) (x0 dx y0 dy : R) (nx ny : nat) (lon lat : list R) (h : list (list (gcell R))) (fields : field -> res field).
  Variables (dep : nat -> nat -> R) (num : nat -> nat -> option (R * R)) (around : bool).
  Hypothesis Hx : evenly x0 dx nx lon.
  Hypothesis Hy : evenly y0 dy ny lat.
  Hypothesis Nx : (2 <= nx)%nat.
  Hypothesis Ny : (2 <= ny)%nat.
  Hypothesis Hh : cells (None, true) ny nx (fun j i => depth_at (dep j i)) h.
  Hypothesis Ga : isclose (INR (nx - 1) * dx) (360 - dx) = around.
  Hypothesis Round : around = true -> INR nx * dx = 360.
  Hypothesis Hn : forall j i, (j < ny)%nat -> (i < nx)%nat -> num j i <> None.
  Let N := (bef around + nx + aft FES around)%nat.
  Lemma wide_cells {A} (d : A) F m : rect ny N m -> (forall j i, (j < ny)%nat -> within (bef around) (aft FES around) nx i -> entry d m j (ec (bef around) i) = F j (column nx i)) ->
    cells d ny N (fun j e => F j (column nx (Z.of_nat e - Z.of_nat (bef around)))) m.
  Proof.
    intros R1 E. split; auto. intros j e Hj He. unfold N in He. rewrite <- E by (auto; unfold within; lia). f_equal. unfold ec. lia.
  Qed.
  Lemma wide_lt e : (e < N)%nat -> (column nx (Z.of_nat e - Z.of_nat (bef around)) < nx)%nat.
  Proof. intros _. now apply column_lt. Qed.
  Lemma cells_all {V} ny' nx' (F : nat -> nat -> gcell V) m : cells (None, true) ny' nx' F m -> (forall j i, (j < ny')%nat -> (i < nx')%nat -> fst (F j i) <> None) -> all_of m.
  Proof.
    intros [[Rl Rr] E] K r c Hr Hc F0. apply (In_nth _ _ []) in Hr as (j & Hj & Er). assert (Lr : length r = nx') by (apply Rr; rewrite <- Er; now apply nth_In).
    apply (In_nth _ _ (None, true)) in Hc as (e & He & Ee).
    assert (Hj' : (j < ny')%nat) by exact (eq_ind _ (fun n => (j < n)%nat) Hj _ Rl). assert (He' : (e < nx')%nat) by exact (eq_ind _ (fun n => (e < n)%nat) He _ Lr).
    assert (Ec : entry (None, true) m j e = c) by exact (eq_trans (f_equal (fun r => nth e r (None, true)) Er) Ee). apply (K j e Hj' He'). rewrite <- (E j e Hj' He'), Ec. exact F0.
  Qed.
  Lemma from_filled cutoff files pts out out0 c f n q r : match cutoff with Some d => 0 <= d | None => True end ->
    reef_from w t sc (Some cutoff) dx lon lat h fields files pts = Ok out -> reef_from w t sc None dx lon lat h fields files pts = Ok out0 ->
    nth_error files c = Some f -> nth_error pts n = Some q -> read_netcdf_file t f = Ok (r, read_name f) ->
    (exists u, fields r = Ok u /\ cells (None, true) ny nx (fun j i => (num j i, false)) u) ->
    let z := from_constant dep num in
    exists cs0 cs D r0 r, nth_error (adepth out) n = Some D /\ length (adepth out) = length pts /\ nth_error (anames out) c = Some (read_name f) /\
      nth_error (aconst out0) c = Some cs0 /\ nth_error cs0 n = Some r0 /\ length (aconst out) = length files /\ nth_error (aconst out) c = Some cs /\ length cs = length pts /\ nth_error cs n = Some r /\
      (r0 <> None -> r = r0) /\ (beyond FES around x0 dx nx y0 dy ny (fst q) (snd q) -> r = None) /\
      (~ beyond FES around x0 dx nx y0 dy ny (fst q) (snd q) -> r0 = None ->
        (exists j i, nearest_valid cutoff x0 dx nx y0 dy ny z q j i /\ exists d, divisor w D d /\ lent (velocity t) sc d (z j i) r) \/
        (~ exists j i, nearby cutoff x0 dx nx y0 dy ny z q j i) /\ r = None).
  Proof.
    intros Hcut H H0 Hc Hq Hr Hu z.
    destruct (from_inv w t sc (Some cutoff) x0 dx nx ny lon lat h fields dep num Hx Nx Ny Hh files pts out c f n q r H Hc Hq Hr Hu) as
      (xi & b & hc & inv & D & k & cs & v & Hxi & Rb & Rc & Nb & Nc & O1 & O2 & O3 & O4 & O5 & O6 & O7 & O8 & O9 & O10 & _ & V).
    destruct (from_inv w t sc None x0 dx nx ny lon lat h fields dep num Hx Nx Ny Hh files pts out0 c f n q r H0 Hc Hq Hr Hu) as
      (xi' & b' & hc' & inv' & D' & k' & cs0 & r0 & Hxi' & Rb' & Rc' & Nb' & Nc' & P1 & P2 & P3 & P4 & P5 & P6 & P7 & P8 & P9 & P10 & V0 & _).
    rewrite Ga in *. specialize (V0 eq_refl). destruct (V cutoff eq_refl) as (near & queries & En & Iq & Ev). clear V.
    assert (xi' = xi) as -> by (eapply evenly_unique; eauto).
    pose proof (wide_cells (None, true) (fun j i => depth_at (dep j i)) b Rb Nb) as Cb. pose proof (wide_cells (None, true) (fun j i => depth_at (dep j i)) b' Rb' Nb') as Cb'.
    pose proof (wide_cells (None, true) (fun j i => (num j i, snd (depth_at (dep j i)))) hc Rc Nc) as Cc. pose proof (wide_cells (None, true) (fun j i => (num j i, snd (depth_at (dep j i)))) hc' Rc' Nc') as Cc'.
    assert (b' = b) as -> by exact (cells_ext _ _ _ _ _ _ Cb' Cb). assert (hc' = hc) as -> by exact (cells_ext _ _ _ _ _ _ Cc' Cc).
    rewrite O1 in P1. apply Ok_inj in P1 as <-. rewrite O2 in P2. apply Ok_inj in P2 as <-. rewrite O3 in P3. apply Ok_inj in P3 as <-.
    assert (Ab : all_of b) by (apply (cells_all _ _ _ _ Cb); intros j i _ _; unfold depth_at; discriminate).
    assert (Ac : all_of hc) by (apply (cells_all _ _ _ _ Cc); intros j i Hj Hi; cbn [fst]; apply Hn; auto; now apply wide_lt).
    assert (T : twins hc b). { apply (twins_of ny N); auto. intros j i Hj Hi. rewrite (proj2 Cb j i Hj Hi), (proj2 Cc j i Hj Hi). cbn [fst snd]. split; [reflexivity|]. split; [apply Hn; auto; now apply wide_lt | unfold depth_at; discriminate]. }
    pose proof (beyond_outside around x0 dx nx y0 dy ny xi lat q inv Hxi Hy Nx Ny O1) as B.
    exists cs0, cs, D, r0, v. repeat (split; [assumption|]).
    split. { intros K. rewrite Ev, V0 in *. destruct (concealed D k); [|reflexivity]. contradiction K. reflexivity. }
    split. { intros K. apply B in K. subst inv. rewrite Ev. unfold reef_value. now rewrite orb_true_r. }
    intros K F. assert (Ei : inv = false) by (destruct inv; auto; exfalso; apply K; now apply B). subst inv.
    destruct (concealed D k) eqn:Ek.
    2:{ exfalso. rewrite V0 in F. unfold reef_value in F. cbn [fst snd orb] in F. pose proof (number_number w xi lat b hc q D k Ac T O2 O3 O1 Ek) as Nk. destruct (fst k) as [zk|]; [|congruence].
        assert (Sd : snd D = false) by (unfold concealed in Ek; destruct (snd k), (snd D); auto; discriminate). pose proof (bed_number w xi lat b q D Ab O2 O1 (or_introl Sd)) as Nd.
        unfold bed_data in F. rewrite Sd in F. destruct (fst D) as [dd|]; [|congruence]. destruct t; try discriminate F; destruct w as [[|]|]; discriminate F. }
    set (s := Sheet lon lat (built ny nx (fun j i => wiped (num j i, snd (depth_at (dep j i)))))).
    assert (Gr : grown FES around x0 dx nx y0 dy ny s (Sheet xi lat (map (map wiped) hc))).
    { split; [exact Hxi|]. split; [exact Hy|]. split; [exact Nx|]. split; [exact Ny|]. split; [now apply map_rect|]. intros j i Hj Hi.
      etransitivity; [apply (map_entry wiped ny N hc (None, true) (None, true)); auto; now apply ec_lt|]. etransitivity; [exact (f_equal wiped (Nc j i Hj Hi))|].
      symmetry. apply (proj2 (built_cells (None, true) ny nx (fun j i => wiped (num j i, snd (depth_at (dep j i)))))); auto. now apply column_lt. }
    assert (Ez : forall j i, (j < ny)%nat -> (i < nx)%nat -> valid (entry (None, true) (shc s) j i) = z j i).
    { intros j i Hj Hi. refine (eq_trans (f_equal valid (proj2 (built_cells (None, true) ny nx (fun j i => wiped (num j i, snd (depth_at (dep j i))))) j i Hj Hi)) _). unfold z, from_constant, from_depth, wiped, depth_at, valid, req. cbn [fst snd].
      destruct (Req_EM_T (dep j i) 0); reflexivity. }
    assert (En' : forall j i, nearby cutoff x0 dx nx y0 dy ny (fun j i => valid (entry (None, true) (shc s) j i)) q j i <-> nearby cutoff x0 dx nx y0 dy ny z q j i).
    { intros j i. unfold nearby. split; intros (A1 & A2 & A3 & A4); (split; [exact A1|]); (split; [exact A2|]); (split; [|exact A4]); [rewrite <- Ez by auto | rewrite Ez by auto]; exact A3. }
    destruct (answer_spec FES around x0 dx y0 dy nx ny s _ Gr Round cutoff q queries near Hcut (Iq eq_refl) En) as [(j & i & [Cl Mn] & Ea)|[No Ea]]; rewrite Ea in Ev.
    - left. exists j, i. pose proof Cl as (Hj & Hi & Zn & _). split. { split; [now apply En'|]. intros j' i' Cl'. apply Mn. now apply En'. }
      rewrite Ez in Ev, Zn by auto. destruct (z j i) as [zz|] eqn:Ezz; [|congruence].
      assert (exists d, divisor w D d /\ bed_data w D = Some d) as (d & D1 & D2).
      { unfold bed_data, divisor. destruct w as [[|]|me] eqn:Ew; [|pose proof (bed_number w xi lat b q D Ab ltac:(rewrite Ew; exact O2) O1 ltac:(right; rewrite Ew; discriminate)) as Nd; destruct (fst D) as [dd|]; [eauto | congruence] ..].
        rewrite (concealed_bed xi lat b hc q D k T O2 O3 Ek). exists (10 ^ 20). split; reflexivity. }
      exists d. split; [exact D1|]. exists zz, (cabs zz), (phase_of zz). split; [reflexivity|]. split; [destruct zz; apply phase_of_spec|]. rewrite Ev. unfold reef_value. cbn [fst snd orb]. rewrite D2. unfold velocity. now destruct t.
    - right. split; [|rewrite Ev; reflexivity]. intros (j & i & Cl). apply No. exists j, i. now apply En'.
  Qed.
End Fill.
