(** C88: extrapolation from cropped ATLAS models, and when nothing is returned. *)
From Coq Require Import Reals List Bool Arith ZArith Lra Lia.
From Verif Require Import PyBase RBase MathModel GeoModel ConvertProps GridModel InterpModel InterpProps ExtrapProps ExtractModel ExtractSpec NodeProps ExtractProofs ExtractProps SplineProps ReturnProps MergeSpec MergeProps SeriesModel SeriesSpec SeriesProofs SeriesProps SeriesProps2 SeriesProps3 StretchProofs AtlasNcModel AtlasNcSpec AtlasNcProps AtlasNcProps2 AtlasNcProps3 RegularModel RegularSpec RegularProofs RegularProps RegularProps2 RegularProps3 CropModel CropSpec CropProofs CropProps ShoreModel ShoreSpec ShoreProofs ShoreProps ShoreProps2 NarrowModel NarrowSpec NarrowProofs NarrowProps NarrowProps4 ReefModel ReefSpec ReefProofs ReefProps ReefProps2 ReefProps3 ReefProps4.
Import ListNotations.
Open Scope R_scope.

(** ** The nodes from which constants are taken are within the bounds *)
Theorem C88_filled : forall w t sc cutoff around x0 dx nx y0 dy ny bounds buffer b m f g nd files pts out i j k fl pa n p,
  match cutoff with Some d => 0 <= d | None => True end ->
  cropping t around x0 dx nx y0 dy ny bounds buffer b m f g nd files pts -> cell_within x0 dx nx y0 dy ny b m f i j ->
  extract_reef w t sc (Some cutoff) true bounds buffer g files pts = Ok out ->
  nth_error files k = Some fl -> parts_for fl t (Some pa) -> file_grid nx ny fl pa ->
  (forall j i, (j < ny)%nat -> (i < nx)%nat -> number_of pa j i <> None) -> nth_error pts n = Some p ->
  let z := fun j i => constant_of nd pa j (column nx i) in
  let kept := kept_node b m x0 dx nx y0 dy ny f in
  let outside := beyond_kept b m FES around x0 dx nx y0 dy ny f (fst p) (snd p) in
  exists out0 cs0 cs D r0 r,
    extract_reef w t sc None true bounds buffer g files pts = Ok out0 /\
    nth_error (adepth out) n = Some D /\ length (adepth out) = length pts /\ nth_error (anames out) k = Some (read_name fl) /\
    nth_error (aconst out0) k = Some cs0 /\ nth_error cs0 n = Some r0 /\
    length (aconst out) = length files /\ nth_error (aconst out) k = Some cs /\ length cs = length pts /\ nth_error cs n = Some r /\
    (r0 <> None -> r = r0) /\ (outside -> r = None) /\
    (~ outside -> r0 = None ->
       (exists j i, nearest_kept kept cutoff x0 dx y0 dy z p j i /\ exists d, divisor w D d /\ lent (velocity t) sc d (z j i) r) \/
       (~ exists j i, nearby_kept kept cutoff x0 dx y0 dy z p j i) /\ r = None).
Proof.
  intros w t sc cutoff around x0 dx nx y0 dy ny bounds buffer b m f g nd files pts out i j k fl pa n p Hcut Cr Ce H Hk Hpa Hg Hnum Hp z kept outside.
  destruct (reef_both w t sc cutoff true bounds buffer g files pts) as [(o & out0 & E & E0 & _)|(e & E & _)]; [|congruence]. rewrite H in E. apply Ok_inj in E as <-. exists out0.
  destruct (reef_cell_from w t sc _ _ _ _ _ _ _ _ _ _ _ _ _ _ _ _ _ _ Cr Ce) as (around' & a & na & c & nr & g' & nd' & h' & files' & M & A1 & A2 & C1 & C2 & N1 & N2 & E1 & E2 & E3 & Eq).
  rewrite Eq in H. pose proof E0 as E00. rewrite Eq in E0.
  destruct M as (Kc & Kr & Ha & Hn' & Hny' & G' & Bn & Lf & Fl). destruct (Fl k fl pa Hk Hpa Hg) as (fl' & pa' & Hk' & Hpa' & Hg' & Er & Bp).
  assert (Hx : (2 <= nx)%nat) by (destruct Cr as (_ & _ & (_ & _ & Q & _) & _); exact Q).
  pose proof Kc as (K1 & K2 & Cols). pose proof Kr as (K3 & Rows).
  assert (Round : around' = true -> INR na * dx = 360).
  { intros K. destruct G' as (_ & _ & _ & _ & _ & [[_ Q]|[Q _]]); [exact Q | congruence]. }
  destruct (read_file t fl' pa' na nr Hpa' Hg') as (rd & Erd & Crd). pose proof G' as (Gx' & Gy' & _). assert (Dx : 0 < dx) by apply Gx'. assert (Dy : 0 < dy) by apply Gy'.
  assert (Hnum' : forall j i, (j < nr)%nat -> (i < na)%nat -> number_of pa' j i <> None) by (intros j' i' Hj' Hi'; rewrite Bp by auto; apply Hnum; [lia | now apply column_lt]).
  destruct (from_filled w t sc (node_x Heights x0 dx a) dx (node_y Heights y0 dy c) dy na nr (nlon nd') (nlat nd') h' (fun hc => Ok hc) (fun j i => entry 0 (ndepth nd') i j) (number_of pa') around' Gx' Gy' N1 N2 E2
    (around_spans _ _ _ _ _ _ _ _ G') Round Hnum' cutoff files' pts out out0 k fl' n p rd Hcut H E0 Hk' Hp Erd (ex_intro _ rd (conj eq_refl Crd))) as (cs0 & cs & D & r0 & r & V1 & V2 & V3 & V4 & V5 & V6 & V7 & V8 & V9 & V10 & V11 & V12).
  rewrite Er in V3. rewrite Lf in V6.
  exists cs0, cs, D, r0, r. split; [exact E00|]. repeat (split; [assumption|]).
  assert (Whole : around' = true -> around = true /\ na = nx /\ a = f) by (intros K; apply Ha in K as [Q1 Q2]; split; [exact Q1|]; split; [exact Q2 | lia]).
  assert (Av1 : column_available b m FES around x0 dx nx f (a + first_of around')).
  { destruct around'.
    - destruct (Whole eq_refl) as (Ka & -> & ->). right. split; auto. unfold first_of. split; [apply Cols; lia|]. split; [apply Cols; lia|]. unfold behind; lia.
    - left. unfold first_of. split; [lia|]. apply Cols; lia. }
  assert (Av2 : column_available b m FES around x0 dx nx f (a + last_of 1 around' na)).
  { destruct around'.
    - destruct (Whole eq_refl) as (Ka & -> & ->). right. split; auto. unfold last_of. split; [apply Cols; lia|]. split; [apply Cols; lia|]. unfold behind; lia.
    - left. unfold last_of. split; [lia|]. apply Cols; lia. }
  assert (M1 : node_x Heights (node_x Heights x0 dx a) dx (first_of around') = node_x Heights x0 dx (a + first_of around')) by (unfold node_x; rewrite plus_IZR; ring).
  assert (M2 : node_x Heights (node_x Heights x0 dx a) dx (last_of 1 around' na) = node_x Heights x0 dx (a + last_of 1 around' na)) by (unfold node_x; rewrite plus_IZR; ring).
  assert (M3 : node_y Heights (node_y Heights y0 dy c) dy 0 = node_y Heights y0 dy c) by (unfold node_y; change (INR 0) with 0; ring).
  assert (M4 : node_y Heights (node_y Heights y0 dy c) dy (nr - 1) = node_y Heights y0 dy (c + (nr - 1))) by (unfold node_y; rewrite plus_INR; ring).
  unfold beyond in V11, V12. cbn [behind] in V11, V12. rewrite M1, M2, M3, M4 in V11, V12.
  assert (S0 : row_stays b m y0 dy c) by (apply Rows; lia). assert (Sk : row_stays b m y0 dy (c + (nr - 1))) by (apply Rows; lia).
  assert (Left : forall i', column_available b m FES around x0 dx nx f i' -> node_x Heights x0 dx (a + first_of around') <= node_x Heights x0 dx i' <= node_x Heights x0 dx (a + last_of 1 around' na)).
  { intros i' Ai'. assert (Q : (a + first_of around' <= i' <= a + last_of 1 around' na)%Z).
    { destruct Ai' as [[Q1 Q2]|(Q0 & Q1 & Q2 & Q3)].
      - apply Cols in Q2; [|lia]. unfold first_of, last_of. destruct around'; lia.
      - apply Cols in Q1; [|lia]. apply Cols in Q2; [|lia]. assert (Ea : around' = true) by (apply Ha; split; [exact Q0 | lia]). rewrite Ea. unfold first_of, last_of, behind in *. lia. }
    unfold node_x. destruct Q as [Q1 Q2]. apply IZR_le in Q1, Q2. split; nra. }
  assert (Low : forall j', (j' < ny)%nat -> row_stays b m y0 dy j' -> node_y Heights y0 dy c <= node_y Heights y0 dy j' <= node_y Heights y0 dy (c + (nr - 1))).
  { intros j' Hj' Sj'. apply Rows in Sj'; auto. assert (Q1 : (c <= j')%nat) by lia. assert (Q2 : (j' <= c + (nr - 1))%nat) by lia. apply le_INR in Q1, Q2. unfold node_y. split; nra. }
  split.
  - intros B. apply V11. destruct B as [B|[B|[B|B]]].
    + left. exact (B _ Av1).
    + right. left. exact (B _ Av2).
    + right. right. left. apply B; auto. lia.
    + right. right. right. apply B; auto. lia.
  - intros B F. specialize (V12 ltac:(intros K; apply B; destruct K as [K|[K|[K|K]]];
      [left; intros i' Ai'; destruct (Left i' Ai'); lra | right; left; intros i' Ai'; destruct (Left i' Ai'); lra | right; right; left; intros j' Hj' Sj'; destruct (Low j' Hj' Sj'); lra | right; right; right; intros j' Hj' Sj'; destruct (Low j' Hj' Sj'); lra]) F).
    assert (Pos : forall j' i', node_at (node_x Heights x0 dx a) dx (node_y Heights y0 dy c) dy j' i' = (x0 + IZR (a + Z.of_nat i') * dx, y0 + INR (c + j') * dy)).
    { intros j' i'. unfold node_at, node_x, node_y. rewrite plus_IZR, plus_INR, <- INR_IZR_INZ. f_equal; ring. }
    assert (Val : forall j' i', (j' < nr)%nat -> (i' < na)%nat -> kept (c + j')%nat (a + Z.of_nat i')%Z /\ z (c + j')%nat (a + Z.of_nat i')%Z = from_constant (fun j i => entry 0 (ndepth nd') i j) (number_of pa') j' i').
    { intros j' i' Hj' Hi'. assert (Sx : stays (x_min b) (x_max b) m (node_x Heights x0 dx (a + Z.of_nat i'))) by (apply Cols; lia). split.
      - split; [lia|]. split; [apply Rows; lia|]. split; [lia | exact Sx].
      - unfold z, constant_of. rewrite <- Bn, <- Bp by auto. reflexivity. }
    assert (Back : forall j' i', nearby_kept kept cutoff x0 dx y0 dy z p j' i' -> exists j1 i1, j' = (c + j1)%nat /\ i' = (a + Z.of_nat i1)%Z /\
      nearby cutoff (node_x Heights x0 dx a) dx na (node_y Heights y0 dy c) dy nr (from_constant (fun j i => entry 0 (ndepth nd') i j) (number_of pa')) p j1 i1).
    { intros j' i' ((Q1 & Q2 & Q3 & Q4) & Q5 & Q6). apply Rows in Q2; auto. apply Cols in Q4; auto. exists (j' - c)%nat, (Z.to_nat (i' - a)).
      assert (P1 : j' = (c + (j' - c))%nat) by lia. assert (P2 : i' = (a + Z.of_nat (Z.to_nat (i' - a)))%Z) by lia. split; [exact P1|]. split; [exact P2|].
      split; [lia|]. split; [lia|]. destruct (Val (j' - c)%nat (Z.to_nat (i' - a)) ltac:(lia) ltac:(lia)) as [_ Ev]. rewrite <- P1, <- P2 in Ev. rewrite Pos, <- P1, <- P2. split; [|exact Q6].
      intros Kn. apply Q5. rewrite Ev. exact Kn. }
    assert (Forth : forall j1 i1, nearby cutoff (node_x Heights x0 dx a) dx na (node_y Heights y0 dy c) dy nr (from_constant (fun j i => entry 0 (ndepth nd') i j) (number_of pa')) p j1 i1 ->
      nearby_kept kept cutoff x0 dx y0 dy z p (c + j1) (a + Z.of_nat i1)).
    { intros j1 i1 (Q1 & Q2 & Q3 & Q4). destruct (Val j1 i1 Q1 Q2) as [Kk Kv]. split; [exact Kk|]. split; [rewrite Kv; exact Q3|]. rewrite <- Pos. exact Q4. }
    destruct V12 as [(j1 & i1 & [B1 B2] & B3)|[B1 B2]].
    + left. exists (c + j1)%nat, (a + Z.of_nat i1)%Z. destruct B1 as (Q1 & Q2 & Q3 & Q4). destruct (Val j1 i1 Q1 Q2) as [_ Kv]. split; [split|].
      * apply Forth. split; auto.
      * intros j' i' Kn. destruct (Back j' i' Kn) as (j2 & i2 & -> & -> & Kb). rewrite <- !Pos. apply B2. exact Kb.
      * rewrite Kv. exact B3.
    + right. split; [|exact B2]. intros (j' & i' & Kn). apply B1. destruct (Back j' i' Kn) as (j2 & i2 & _ & _ & Kb). eauto.
Qed.
Print Assumptions C88_filled.

(** ** Constants are returned for all points, but with bilinear interpolation not for those
    at the last column there is (compare C71_last_column_refuted) *)
Definition last_available (b : limits) (m : R) (around : bool) (x0 dx : R) (nx : nat) (f i : Z) : Prop :=
  column_available b m FES around x0 dx nx f i /\ forall k, column_available b m FES around x0 dx nx f k -> (k <= i)%Z.
Theorem C88_returns : forall w t sc ex around x0 dx nx y0 dy ny bounds buffer b m f g nd files pts i j,
  cropping t around x0 dx nx y0 dy ny bounds buffer b m f g nd files pts -> cell_within x0 dx nx y0 dy ny b m f i j -> w <> Regular Unknown ->
  (w = Quick Bilinear -> forall p l, In p pts -> last_available b m around x0 dx nx f l -> fst p <> node_x Heights x0 dx l) ->
  exists out, extract_reef w t sc ex true bounds buffer g files pts = Ok out.
Proof.
  intros w t sc ex around x0 dx nx y0 dy ny bounds buffer b m f g nd files pts i j Cr Ce Hw Hl.
  destruct (reef_cell_from w t sc _ _ _ _ _ _ _ _ _ _ _ _ _ _ _ _ _ _ Cr Ce) as (around' & a & na & c & nr & g' & nd' & h' & files' & M & A1 & A2 & C1 & C2 & N1 & N2 & E1 & E2 & E3 & Eq).
  rewrite Eq. destruct M as (Kc & Kr & Ha & Hn' & Hny' & G' & Bn & Lf & Fl). pose proof Kc as (K1 & K2 & Cols).
  apply (inner_returns t sc around' _ dx na _ dy nr g' nd' h' files' pts Hn' Hny' G' E2); auto. intros Ew p Hp.
  replace (node_x Heights (node_x Heights x0 dx a) dx (last_of 1 around' na)) with (node_x Heights x0 dx (a + last_of 1 around' na)) by (unfold node_x; rewrite plus_IZR; ring).
  apply (Hl Ew p _ Hp). split.
  - destruct around'.
    + destruct (proj1 Ha eq_refl) as [Q1 Q2]. right. unfold last_of, behind. split; [exact Q1|]. split; [apply Cols; lia|]. split; [apply Cols; lia | lia].
    + left. unfold last_of. split; [lia|]. apply Cols; lia.
  - intros k [[Q1 Q2]|(Q0 & Q1 & Q2 & Q3)].
    + apply Cols in Q2; [|lia]. unfold last_of. destruct around'; lia.
    + apply Cols in Q1; [|lia]. apply Cols in Q2; [|lia]. assert (Ea : around' = true) by (apply Ha; split; [exact Q0 | lia]). rewrite Ea. unfold last_of, behind in *. lia.
Qed.
Print Assumptions C88_returns.
(** nothing within the bounds *)
Theorem C88_empty : forall w t sc ex around x0 dx nx y0 dy ny bounds buffer b m f g nd files pts,
  cropping t around x0 dx nx y0 dy ny bounds buffer b m f g nd files pts ->
  (forall i, (f <= i < f + Z.of_nat nx)%Z -> ~ stays (x_min b) (x_max b) m (node_x Heights x0 dx i)) \/
  (forall j, (j < ny)%nat -> ~ stays (y_min b) (y_max b) m (node_y Heights y0 dy j)) ->
  extract_reef w t sc ex true bounds buffer g files pts = Err IndexError.
Proof.
  intros w t sc ex around x0 dx nx y0 dy ny bounds buffer b m f g nd files pts (Hn & Hny & G & Gf & Hd & Hw & Ne & Hb & Sb & Hm & W & Hf) He.
  pose proof G as (Ex & Ey & Hx & Hy & Rd & Ga). destruct (read_grid t g nd around x0 dx nx y0 dy ny Hn Hny G) as (h & Eh & Ch).
  rewrite (reef_start w t sc ex bounds buffer b m g nd files pts around x0 dx nx y0 dy ny h) by auto.
  assert (Hf' : f = 0%Z \/ INR nx * dx = 360 /\ 1 / 10000 < dx). { destruct Hf as [Hf|Hf]; [now left|]. right. destruct Ga as [[_ E]|[E _]]; [|congruence]. split; [exact E | lra]. }
  destruct (NarrowProofs.framed true b x0 dx nx (nlon nd) f Ex Hx ltac:(right; auto) Hf') as (tr & xs' & T1 & _ & T3 & _ & T5). destruct (T5 (gcell R) (None, true) ny h (proj1 Ch)) as (t' & E1 & E2 & _).
  assert (Ec : crop_matrix true b m h (nlon nd) (nlat nd) = Err IndexError).
  { unfold crop_matrix. rewrite T1. cbn [bind]. match goal with |- bind ?x _ = _ => assert (E1' : x = Ok (t', xs')) by exact E1; rewrite E1' end. cbn [bind fst snd]. unfold cut_matrix. destruct He as [He|He].
    - rewrite (kept_none (x_min b) (x_max b) m xs'). 2:{ destruct T3 as (_ & L & N). rewrite L. intros i Hi. rewrite N by auto. replace (node_x Heights x0 dx f + INR i * dx) with (node_x Heights x0 dx (f + Z.of_nat i)) by (unfold node_x; rewrite plus_IZR, <- INR_IZR_INZ; ring). apply He. lia. }
      destruct (ind_slice _ t') as [rows|e] eqn:Er; cbn [bind ind_slice]; [reflexivity|]. destruct (kept _ _ _ (nlat nd)); [|discriminate]. now injection Er as <-.
    - rewrite (kept_none (y_min b) (y_max b) m (nlat nd)); [reflexivity|]. destruct Ey as (_ & L & N). rewrite L. intros j Hj. rewrite N by auto. now apply He. }
  now rewrite Ec.
Qed.
Print Assumptions C88_empty.
