(** C83: constants extracted from cropped models (FES and GOT). *)
From Coq Require Import Reals List Bool Arith ZArith Lra Lia.
From Verif Require Import PyBase RBase MathModel GeoModel ConvertProps GridModel GridProofs InterpModel InterpProps ExtractModel ExtractSpec NodeProps ExtractProofs ExtractProps SplineProps ReturnProps MergeSpec MergeProps SeriesModel SeriesSpec SeriesProofs SeriesProps SeriesProps2 SeriesProps3 RegularModel RegularSpec RegularProofs RegularProps CropModel CropSpec CropProofs CropProofs2.
Import ListNotations.
Open Scope R_scope.

(** the bounds: those given, or those of the points *)
Definition for_points (bounds : option limits) (pts : list (R * R)) (b : limits) : Prop :=
  match bounds with
  | Some b' => b = b'
  | None => extremes (map fst pts) (x_min b) (x_max b) /\ extremes (map snd pts) (y_min b) (y_max b)
  end.
(** the bounds are not all zero *)
Definition some_limit (b : limits) : Prop := ~ (x_min b = 0 /\ x_max b = 0 /\ y_min b = 0 /\ y_max b = 0).
(** the columns there are for the bounds b with margin m *)
Definition column_available (b : limits) (m : R) (src : series) (around : bool) (x0 dx : R) (nx : nat) (f i : Z) : Prop :=
  available (x_min b) (x_max b) m (behind src) around x0 dx nx f i.
Definition row_stays (b : limits) (m y0 dy : R) (j : nat) : Prop := stays (y_min b) (y_max b) m (node_y Heights y0 dy j).

(** ** What extraction does with each file *)
Lemma any_limit_t b : some_limit b -> any_limit b = true.
Proof.
  intros H. unfold any_limit. apply negb_true_iff. apply not_true_is_false. intros K. apply H.
  apply andb_prop in K as [K K4]. apply andb_prop in K as [K K3]. apply andb_prop in K as [K1 K2]. unfold req in *.
  destruct (Req_EM_T (x_min b) 0); [|discriminate]. destruct (Req_EM_T (x_max b) 0); [|discriminate]. destruct (Req_EM_T (y_min b) 0); [|discriminate]. destruct (Req_EM_T (y_max b) 0); [auto|discriminate].
Qed.
Lemma extremes_min xs lo hi : extremes xs lo hi -> amin xs = Ok lo /\ amax xs = Ok hi.
Proof.
  intros (H1 & H2 & H3). destruct xs as [|a t]; [destruct H1|]. destruct (amin (a :: t)) as [m|] eqn:E1; [|discriminate]. destruct (amax (a :: t)) as [M'|] eqn:E2; [|discriminate].
  apply amin_least in E1 as [M1 M2]. apply amax_most in E2 as [N1 N2]. split; f_equal.
  - apply Rle_antisym; [now apply M2|now apply H3].
  - apply Rle_antisym; [now apply H3|now apply N2].
Qed.
Lemma buffer_is buffer dx m : margin buffer dx m -> buffer_of buffer dx = m.
Proof. unfold margin, buffer_of. destruct buffer as [r|]; auto. intros [[H ->]|[H ->]]; [now rewrite req_f|now rewrite req_t]. Qed.
Lemma crop_files_nth src w sc b buffer pts : some_limit b -> forall files out, crop_files src w sc b buffer files pts = Ok out ->
  length out = length files /\
  forall c s, nth_error files c = Some s -> exists d t e cs, spacing (slon s) = Ok d /\
    crop_sheet b (buffer_of buffer (match src with FES => d | GOT => Rabs d end)) s = Ok t /\ extend_cut src (match src with FES => d | GOT => Rabs d end) t = Ok e /\
    mapM (sheet_value src w sc e) pts = Ok cs /\ nth_error out c = Some cs.
Proof.
  intros Hb. induction files as [|s files IH]; intros out H.
  - apply Ok_inj in H as <-. split; auto. intros [|c] s Hc; discriminate.
  - cbn [crop_files] in H. rewrite any_limit_t in H by auto. destruct (spacing (slon s)) as [d|] eqn:Ed; [|discriminate]. cbn [bind] in H.
    match type of H with bind ?x _ = _ => destruct x as [t|] eqn:Et; [|discriminate] end. cbn [bind] in H.
    match type of H with bind ?x _ = _ => destruct x as [e|] eqn:Ee; [|discriminate] end. cbn [bind] in H.
    destruct (mapM (sheet_value src w sc e) pts) as [cs|] eqn:Ec; [|discriminate]. cbn [bind] in H.
    destruct (crop_files src w sc b buffer files pts) as [out'|] eqn:Eo; [|discriminate]. cbn [bind] in H. apply Ok_inj in H as <-.
    destruct (IH out' eq_refl) as [L V]. split; [cbn; lia|]. intros [|c] s' Hc; cbn [nth_error] in *; [|now apply V].
    injection Hc as <-. exists d, t, e, cs. auto.
Qed.
Lemma crop_nth src w sc bounds buffer b files pts out c s : for_points bounds pts b -> some_limit b -> extract_cropped src w sc bounds buffer files pts = Ok out ->
  nth_error files c = Some s -> exists d t e cs, spacing (slon s) = Ok d /\
    crop_sheet b (buffer_of buffer (match src with FES => d | GOT => Rabs d end)) s = Ok t /\ extend_cut src (match src with FES => d | GOT => Rabs d end) t = Ok e /\
    mapM (sheet_value src w sc e) pts = Ok cs /\ nth_error out c = Some cs.
Proof.
  intros Hb Sb H Hc. unfold extract_cropped in H.
  destruct (amin (map fst pts)) as [xl|] eqn:E1; [|discriminate]. cbn [bind] in H. destruct (amax (map fst pts)) as [xh|] eqn:E2; [|discriminate]. cbn [bind] in H.
  destruct (amin (map snd pts)) as [yl|] eqn:E3; [|discriminate]. cbn [bind] in H. destruct (amax (map snd pts)) as [yh|] eqn:E4; [|discriminate]. cbn [bind] in H.
  replace (match bounds with Some b => b | None => Limits xl xh yl yh end) with b in H.
  - now apply (crop_files_nth src w sc b buffer pts Sb files out H).
  - unfold for_points in Hb. destruct bounds; auto. destruct Hb as [B1 B2]. apply extremes_min in B1 as [B1 B1']. apply extremes_min in B2 as [B2 B2'].
    rewrite B1 in E1. rewrite B1' in E2. rewrite B2 in E3. rewrite B2' in E4. apply Ok_inj in E1, E2, E3, E4. destruct b; cbn in *. now subst.
Qed.

Lemma node_move x0 dx a i : node_x Heights (node_x Heights x0 dx a) dx (i - a) = node_x Heights x0 dx i.
Proof. unfold node_x. rewrite minus_IZR. ring. Qed.
Lemma row_move y0 dy c j : (c <= j)%nat -> node_y Heights (node_y Heights y0 dy c) dy (j - c) = node_y Heights y0 dy j.
Proof. intros H. unfold node_y. rewrite minus_INR by auto. ring. Qed.

(** the cropped grid u and the grid e with the columns repeated on either side *)
Definition cropped_to (src : series) (b : limits) (m : R) (s : sheet) (around : bool) (x0 dx : R) (nx : nat) (y0 dy : R) (ny : nat) (f : Z)
    (glob : bool) (a : Z) (na j0 k : nat) (u e : sheet) : Prop :=
  grown src glob (node_x Heights x0 dx a) dx na (node_y Heights y0 dy j0) dy k u e /\
  (forall i, column_available b m src around x0 dx nx f i -> reached (behind src) glob na (i - a) /\
     forall j, (j0 <= j < j0 + k)%nat -> entry (None, true) (shc u) (j - j0) (column na (i - a)) = entry (None, true) (shc s) j (column nx i)) /\
  (forall j, (j < ny)%nat -> (j0 <= j < j0 + k)%nat <-> row_stays b m y0 dy j) /\ (j0 + k <= ny)%nat /\
  (numbers ny nx s -> numbers k na u) /\
  (f <= a)%Z /\ (a + Z.of_nat na <= f + Z.of_nat nx)%Z /\
  (forall i, (f <= i < f + Z.of_nat nx)%Z -> (a <= i < a + Z.of_nat na)%Z <-> stays (x_min b) (x_max b) m (node_x Heights x0 dx i)) /\
  glob = isclose (INR (na - 1) * dx) (360 - dx).
Lemma crop_exists src b m s around x0 dx nx y0 dy ny f i j :
  sheet_grid around x0 dx nx y0 dy ny s -> window x0 dx nx (x_min b) (x_max b) f -> f = 0%Z \/ around = true /\ 1 / 10000 < dx ->
  column_available b m src around x0 dx nx f i -> column_available b m src around x0 dx nx f (i + 1) -> (S j < ny)%nat -> row_stays b m y0 dy j -> row_stays b m y0 dy (S j) ->
  exists glob a na j0 k u e, crop_sheet b m s = Ok u /\ extend_cut src dx u = Ok e /\ cropped_to src b m s around x0 dx nx y0 dy ny f glob a na j0 k u e.
Proof.
  intros G W Hf Ai Ai1 Hj Rj Rj1.
  pose proof G as (Ex & Ey & Hx & Hy & Rs & Ga). assert (Hd : 0 < dx) by apply Ex.
  destruct (reframe_grid _ _ _ _ _ _ _ _ _ _ G W Hf) as (t & T1 & T2 & T3). unfold crop_sheet. rewrite T1. cbn [bind].
  pose proof T2 as (Tx & Ty & _ & _ & Rt & _).
  assert (Nf : forall k, node_x Heights x0 dx f + INR k * dx = node_x Heights x0 dx (f + Z.of_nat k)) by (intros k; unfold node_x; rewrite plus_IZR, <- INR_IZR_INZ; ring).
  assert (Hk : exists k, (k < nx)%nat /\ stays (x_min b) (x_max b) m (node_x Heights x0 dx f + INR k * dx)).
  { destruct Ai as [[A1 A2]|(A1 & A2 & A3 & A4)].
    - exists (Z.to_nat (i - f)). split; [lia|]. rewrite Nf. replace (f + Z.of_nat (Z.to_nat (i - f)))%Z with i by lia. exact A2.
    - exists 0%nat. split; [lia|]. rewrite Nf. cbn [Z.of_nat]. now rewrite Z.add_0_r. }
  destruct Hk as (k0 & K1 & K2).
  destruct (cut_grid b m _ _ _ _ _ _ t k0 j Tx Ty Rt K1 K2 ltac:(lia) Rj) as (a' & na & j0 & k & u' & U1 & U2 & U3 & U4 & U5 & U6 & U7 & U8 & U9 & U10 & U11).
  set (a := (f + Z.of_nat a')%Z).
  assert (Sa : forall i, (f <= i < f + Z.of_nat nx)%Z -> (a <= i < a + Z.of_nat na)%Z <-> stays (x_min b) (x_max b) m (node_x Heights x0 dx i)).
  { intros i0 Hi0. specialize (U6 (Z.to_nat (i0 - f)) ltac:(lia)). rewrite Nf in U6. replace (f + Z.of_nat (Z.to_nat (i0 - f)))%Z with i0 in U6 by lia. rewrite <- U6. unfold a. lia. }
  assert (Whole : stays (x_min b) (x_max b) m (node_x Heights x0 dx f) -> stays (x_min b) (x_max b) m (node_x Heights x0 dx (f + Z.of_nat nx - 1)) -> a' = 0%nat /\ na = nx).
  { intros S1 S2. apply Sa in S1; [|lia]. apply Sa in S2; [|lia]. unfold a in *. lia. }
  assert (Na : (2 <= na)%nat).
  { destruct Ai as [[A1 A2]|(A1 & A2 & A3 & A4)]; [|destruct (Whole A2 A3); lia]. destruct Ai1 as [[B1 B2]|(B1 & B2 & B3 & B4)]; [|destruct (Whole B2 B3); lia].
    apply Sa in A2; [|auto]. apply Sa in B2; [|auto]. lia. }
  assert (Rows : forall j, (j < ny)%nat -> (j0 <= j < j0 + k)%nat <-> row_stays b m y0 dy j) by (intros j' Hj'; rewrite (U7 j' Hj'); reflexivity).
  assert (Nk : (2 <= k)%nat) by (apply Rows in Rj; [|lia]; apply Rows in Rj1; [|lia]; lia).
  rewrite Nf in U8. fold a in U8. change (y0 + INR j0 * dy) with (node_y Heights y0 dy j0) in U9.
  destruct (extend_cut_grown src _ _ _ _ _ _ _ U8 U9 Na Nk U10) as (e' & E1 & E2).
  exists (isclose (INR (na - 1) * dx) (360 - dx)), a, na, j0, k, u', e'. split; [exact U1|]. split; [exact E1|]. split; [exact E2|]. split; [|split; [exact Rows|split; [exact U5|split; [|split; [unfold a; lia|split; [unfold a; lia|split; [exact Sa|reflexivity]]]]]]].
  - intros i' Av. destruct Av as [[A1 A2]|(A1 & A2 & A3 & A4)].
    + apply Sa in A2; auto. assert (Q : (0 <= i' - a < Z.of_nat na)%Z) by lia. split; [unfold reached; destruct (isclose _ _), src; unfold behind; lia|].
      intros j' Hj'. unfold column at 1. rewrite Z.mod_small by auto. rewrite U11 by lia. rewrite T3 by (unfold a in *; lia). f_equal; [lia|]. f_equal. unfold a in *. lia.
    + destruct (Whole A2 A3) as [-> ->]. destruct Ga as [[_ Ga]|[Ga _]]; [|congruence].
      assert (Ic : isclose (INR (nx - 1) * dx) (360 - dx) = true).
      { apply close_isclose. rewrite minus_INR by lia. cbn [INR]. replace ((INR nx - 1) * dx) with (360 - dx) by lra.
        unfold ExtractSpec.close. replace (360 - dx - (360 - dx)) with 0 by ring. rewrite Rabs_R0. pose proof (Rabs_pos (360 - dx)). lra. }
      rewrite Ic. unfold a. cbn [Z.of_nat]. rewrite Z.add_0_r. split; [unfold reached; lia|]. intros j' Hj'. pose proof (column_lt nx (i' - f) Hx). rewrite U11 by lia. rewrite T3 by lia. f_equal; [lia|].
      unfold column. f_equal. rewrite Nat.add_0_l, Z2Nat.id by (apply Z.mod_pos_bound; lia). rewrite Zplus_mod_idemp_r. f_equal. lia.
  - intros Hv j' i' Hj' Hi'. rewrite U11 by auto. rewrite T3 by lia. apply Hv; [lia|]. now apply column_lt.
Qed.
(** what extraction does at a point *)
Lemma crop_inv src w sc bounds buffer b m files pts out c s n p around x0 dx nx y0 dy ny f i j :
  for_points bounds pts b -> some_limit b -> margin buffer dx m -> extract_cropped src w sc bounds buffer files pts = Ok out ->
  nth_error files c = Some s -> sheet_grid around x0 dx nx y0 dy ny s ->
  window x0 dx nx (x_min b) (x_max b) f -> f = 0%Z \/ around = true /\ 1 / 10000 < dx ->
  nth_error pts n = Some p ->
  column_available b m src around x0 dx nx f i -> column_available b m src around x0 dx nx f (i + 1) -> (S j < ny)%nat -> row_stays b m y0 dy j -> row_stays b m y0 dy (S j) ->
  exists glob a na j0 k u e cs r, grown src glob (node_x Heights x0 dx a) dx na (node_y Heights y0 dy j0) dy k u e /\
    (forall i, column_available b m src around x0 dx nx f i -> reached (behind src) glob na (i - a) /\
       forall j, (j0 <= j < j0 + k)%nat -> entry (None, true) (shc u) (j - j0) (column na (i - a)) = entry (None, true) (shc s) j (column nx i)) /\
    (forall j, (j < ny)%nat -> (j0 <= j < j0 + k)%nat <-> row_stays b m y0 dy j) /\ (j0 + k <= ny)%nat /\
    (numbers ny nx s -> numbers k na u) /\
    (f <= a)%Z /\ (a + Z.of_nat na <= f + Z.of_nat nx)%Z /\
    (forall i, (f <= i < f + Z.of_nat nx)%Z -> (a <= i < a + Z.of_nat na)%Z <-> stays (x_min b) (x_max b) m (node_x Heights x0 dx i)) /\
    glob = isclose (INR (na - 1) * dx) (360 - dx) /\
    nth_error out c = Some cs /\ length cs = length pts /\ nth_error cs n = Some r /\ sheet_value src w sc e p = Ok r.
Proof.
  intros Hb Sb Hm H Hc G W Hf Hn Ai Ai1 Hj Rj Rj1.
  destruct (crop_nth _ _ _ _ _ _ _ _ _ _ _ Hb Sb H Hc) as (d & u & e & cs & D1 & D2 & D3 & D4 & D5).
  destruct (crop_exists _ _ _ _ _ _ _ _ _ _ _ _ _ _ G W Hf Ai Ai1 Hj Rj Rj1) as (glob & a & na & j0 & k & u' & e' & X1 & X2 & X3 & X4 & X5 & X6 & X7 & X8 & X9 & X10 & X11).
  pose proof G as (Ex & Ey & Hx & _). rewrite (evenly_spacing x0 dx nx) in D1 by auto. apply Ok_inj in D1 as <-.
  assert (Hd : 0 < dx) by apply Ex.
  replace (match src with FES => dx | GOT => Rabs dx end) with dx in * by (destruct src; auto; now rewrite Rabs_pos_eq by lra).
  rewrite (buffer_is _ _ _ Hm), X1 in D2. apply Ok_inj in D2 as <-. rewrite X2 in D3. apply Ok_inj in D3 as <-.
  destruct (mapM_nth _ _ _ n p D4 Hn) as (r & R1 & R2).
  exists glob, a, na, j0, k, u', e', cs, r. repeat (split; [assumption|]). split; [now rewrite (mapM_len _ _ _ D4)|]. auto.
Qed.

Lemma corners_moved {V} x0 dx y0 dy nx na a j0 x y i j (F F' : nat -> nat -> option V) : (j0 <= j)%nat ->
  F' (j - j0)%nat (column na (i - a)) = F j (column nx i) -> F' (j - j0)%nat (column na (i + 1 - a)) = F j (column nx (i + 1)) ->
  F' (S j - j0)%nat (column na (i - a)) = F (S j) (column nx i) -> F' (S j - j0)%nat (column na (i + 1 - a)) = F (S j) (column nx (i + 1)) ->
  corners Heights (node_x Heights x0 dx a) dx (node_y Heights y0 dy j0) dy na x y (i - a) (j - j0) F' = corners Heights x0 dx y0 dy nx x y i j F.
Proof.
  intros Hj E1 E2 E3 E4. unfold corners. replace (i - a + 1)%Z with (i + 1 - a)%Z by ring. replace (S (j - j0)) with (S j - j0)%nat by lia.
  rewrite !node_move, !row_move by lia. now rewrite E1, E2, E3, E4.
Qed.

(** ** C83: with splines the constants from a cropped model are the bilinear interpolants
    of the four nodes of the model around the point, if they are there after the cropping *)
Theorem C83_spline : forall src sc bounds buffer b m files pts out c s n x y around x0 dx nx y0 dy ny f i j,
  extract_cropped src (Quick Spline) sc bounds buffer files pts = Ok out ->
  for_points bounds pts b -> some_limit b -> margin buffer dx m ->
  nth_error files c = Some s -> sheet_grid around x0 dx nx y0 dy ny s -> numbers ny nx s ->
  window x0 dx nx (x_min b) (x_max b) f -> f = 0%Z \/ around = true /\ 1 / 10000 < dx ->
  nth_error pts n = Some (x, y) ->
  column_available b m src around x0 dx nx f i -> column_available b m src around x0 dx nx f (i + 1) ->
  (S j < ny)%nat -> row_stays b m y0 dy j -> row_stays b m y0 dy (S j) ->
  node_x Heights x0 dx i <= x < node_x Heights x0 dx (i + 1) ->
  bracket (S (S j) = ny) (node_y Heights y0 dy j) (node_y Heights y0 dy (S j)) y ->
  let z := corners Heights x0 dx y0 dy nx x y i j (fun j i => valid (entry (None, true) (shc s) j i)) in
  exists cs r, nth_error out c = Some cs /\ length cs = length pts /\ nth_error cs n = Some r /\
    (complete z -> both (mean (part fst z)) (mean (part snd z)) <> None /\ scaled sc (both (mean (part fst z)) (mean (part snd z))) r) /\ (~ complete z -> r = None).
Proof.
  intros src sc bounds buffer b m files pts out c s n x y around x0 dx nx y0 dy ny f i j H Hb Sb Hm Hc G Hv W Hf Hn Ai Ai1 Hj Rj Rj1 Bx By z.
  destruct (crop_inv _ _ _ _ _ _ _ _ _ _ _ _ _ _ _ _ _ _ _ _ _ _ _ _ Hb Sb Hm H Hc G W Hf Hn Ai Ai1 Hj Rj Rj1) as (glob & a & na & j0 & k & u & e & cs & r & Ge & V & Rows & Hk & Hnum & _ & _ & _ & _ & O1 & O2 & O3 & O4).
  exists cs, r. repeat (split; [assumption|]). apply Rows in Rj; [|lia]. apply Rows in Rj1; [|lia].
  destruct (V i Ai) as [Ri Ei]. destruct (V (i + 1)%Z Ai1) as [Ri1 Ei1].
  pose proof (corners_moved x0 dx y0 dy nx na a j0 x y i j (fun j i => valid (entry (None, true) (shc s) j i)) (fun j i => valid (entry (None, true) (shc u) j i))) as Ec.
  cbv beta in Ec. rewrite !Ei, !Ei1 in Ec by lia. specialize (Ec ltac:(lia) eq_refl eq_refl eq_refl eq_refl). fold z in Ec. rewrite <- Ec.
  apply (sheet_spline src sc glob (node_x Heights x0 dx a) dx na (node_y Heights y0 dy j0) dy k u e Ge (Hnum Hv) x y (i - a) (j - j0) r O4); auto; try lia.
  - now replace (i - a + 1)%Z with (i + 1 - a)%Z by ring.
  - replace (i - a + 1)%Z with (i + 1 - a)%Z by ring. now rewrite !node_move.
  - replace (S (j - j0)) with (S j - j0)%nat by lia. rewrite !row_move by lia. destruct By as [By|[K By]]; [now left|right]. split; auto. lia.
Qed.
Print Assumptions C83_spline.

(** ** C83: the same with the method linear *)
Theorem C83_linear : forall src sc bounds buffer b m files pts out c s n x y around x0 dx nx y0 dy ny f i j,
  extract_cropped src (Regular Linear) sc bounds buffer files pts = Ok out ->
  for_points bounds pts b -> some_limit b -> margin buffer dx m ->
  nth_error files c = Some s -> sheet_grid around x0 dx nx y0 dy ny s -> numbers ny nx s ->
  window x0 dx nx (x_min b) (x_max b) f -> f = 0%Z \/ around = true /\ 1 / 10000 < dx ->
  nth_error pts n = Some (x, y) ->
  column_available b m src around x0 dx nx f i -> column_available b m src around x0 dx nx f (i + 1) ->
  (S j < ny)%nat -> row_stays b m y0 dy j -> row_stays b m y0 dy (S j) ->
  node_x Heights x0 dx i <= x < node_x Heights x0 dx (i + 1) ->
  bracket (S (S j) = ny) (node_y Heights y0 dy j) (node_y Heights y0 dy (S j)) y ->
  let z := corners Heights x0 dx y0 dy nx x y i j (fun j i => valid (entry (None, true) (shc s) j i)) in
  unfilled (both (mean (part fst z)) (mean (part snd z))) ->
  exists cs r, nth_error out c = Some cs /\ length cs = length pts /\ nth_error cs n = Some r /\
    (complete z -> both (mean (part fst z)) (mean (part snd z)) <> None /\ scaled sc (both (mean (part fst z)) (mean (part snd z))) r) /\ (~ complete z -> r = None).
Proof.
  intros src sc bounds buffer b m files pts out c s n x y around x0 dx nx y0 dy ny f i j H Hb Sb Hm Hc G Hv W Hf Hn Ai Ai1 Hj Rj Rj1 Bx By z Hu.
  destruct (crop_inv _ _ _ _ _ _ _ _ _ _ _ _ _ _ _ _ _ _ _ _ _ _ _ _ Hb Sb Hm H Hc G W Hf Hn Ai Ai1 Hj Rj Rj1) as (glob & a & na & j0 & k & u & e & cs & r & Ge & V & Rows & Hk & Hnum & _ & _ & _ & _ & O1 & O2 & O3 & O4).
  exists cs, r. repeat (split; [assumption|]). apply Rows in Rj; [|lia]. apply Rows in Rj1; [|lia].
  destruct (V i Ai) as [Ri Ei]. destruct (V (i + 1)%Z Ai1) as [Ri1 Ei1].
  pose proof (corners_moved x0 dx y0 dy nx na a j0 x y i j (fun j i => valid (entry (None, true) (shc s) j i)) (fun j i => valid (entry (None, true) (shc u) j i))) as Ec.
  cbv beta in Ec. rewrite !Ei, !Ei1 in Ec by lia. specialize (Ec ltac:(lia) eq_refl eq_refl eq_refl eq_refl). fold z in Ec. rewrite <- Ec in Hu |- *.
  apply (sheet_linear src sc glob (node_x Heights x0 dx a) dx na (node_y Heights y0 dy j0) dy k u e Ge (Hnum Hv) x y (i - a) (j - j0) r O4); auto; try lia.
  - now replace (i - a + 1)%Z with (i + 1 - a)%Z by ring.
  - replace (i - a + 1)%Z with (i + 1 - a)%Z by ring. now rewrite !node_move.
  - replace (S (j - j0)) with (S j - j0)%nat by lia. rewrite !row_move by lia. destruct By as [By|[K By]]; [now left|right]. split; auto. lia.
Qed.
Print Assumptions C83_linear.

Lemma between_moved x0 dx y0 dy a j0 x y i j : 0 < dy -> (j0 <= j)%nat -> node_y Heights y0 dy j < y \/ (j0 < j)%nat ->
  between_nodes Heights x0 dx y0 dy x y i j -> between_nodes Heights (node_x Heights x0 dx a) dx (node_y Heights y0 dy j0) dy x y (i - a) (j - j0).
Proof.
  intros Hd Hj Lo (B1 & B2 & _). unfold between_nodes. replace (i - a + 1)%Z with (i + 1 - a)%Z by ring. replace (S (j - j0)) with (S j - j0)%nat by lia.
  rewrite !node_move, !row_move by lia. repeat split; try lra. unfold node_y in *. change (INR 0) with 0. rewrite Rmult_0_l, Rplus_0_r.
  destruct Lo as [Lo|Lo].
  - assert (INR j0 <= INR j) by (apply le_INR; lia). nra.
  - assert (INR j0 < INR j) by (apply lt_INR; lia). nra.
Qed.
Lemma at_moved x0 dx y0 dy a j0 x y i j : (j0 <= j)%nat -> at_node Heights (node_x Heights x0 dx a) dx (node_y Heights y0 dy j0) dy x y (i - a) (j - j0) <-> at_node Heights x0 dx y0 dy x y i j.
Proof.
  intros Hj. unfold at_node. replace (i - a + 1)%Z with (i + 1 - a)%Z by ring. replace (S (j - j0)) with (S j - j0)%nat by lia. now rewrite !node_move, !row_move by lia.
Qed.

(** ** C83: with the bilinear method the constants from a cropped model are the weighted
    means of the valid nodes around the point; the row below is needed for points on a row *)
Theorem C83_cell : forall src sc bounds buffer b m files pts out c s n x y around x0 dx nx y0 dy ny f i j,
  extract_cropped src (Quick Bilinear) sc bounds buffer files pts = Ok out ->
  for_points bounds pts b -> some_limit b -> margin buffer dx m ->
  nth_error files c = Some s -> sheet_grid around x0 dx nx y0 dy ny s ->
  window x0 dx nx (x_min b) (x_max b) f -> f = 0%Z \/ around = true /\ 1 / 10000 < dx ->
  nth_error pts n = Some (x, y) ->
  column_available b m src around x0 dx nx f i -> column_available b m src around x0 dx nx f (i + 1) ->
  (S j < ny)%nat -> row_stays b m y0 dy j -> row_stays b m y0 dy (S j) ->
  node_y Heights y0 dy j < y \/ (exists j', j = S j' /\ row_stays b m y0 dy j') ->
  between_nodes Heights x0 dx y0 dy x y i j -> ~ at_node Heights x0 dx y0 dy x y i j ->
  let z := corners Heights x0 dx y0 dy nx x y i j (fun j i => valid (entry (None, true) (shc s) j i)) in
  exists cs r, nth_error out c = Some cs /\ length cs = length pts /\ nth_error cs n = Some r /\
    scaled sc (both (mean (part fst z)) (mean (part snd z))) r.
Proof.
  intros src sc bounds buffer b m files pts out c s n x y around x0 dx nx y0 dy ny f i j H Hb Sb Hm Hc G W Hf Hn Ai Ai1 Hj Rj Rj1 Lo B NA z.
  destruct (crop_inv _ _ _ _ _ _ _ _ _ _ _ _ _ _ _ _ _ _ _ _ _ _ _ _ Hb Sb Hm H Hc G W Hf Hn Ai Ai1 Hj Rj Rj1) as (glob & a & na & j0 & k & u & e & cs & r & Ge & V & Rows & Hk & _ & _ & _ & _ & _ & O1 & O2 & O3 & O4).
  exists cs, r. repeat (split; [assumption|]).
  assert (Lo' : node_y Heights y0 dy j < y \/ (j0 < j)%nat) by (destruct Lo as [Lo|(j' & -> & Rj')]; [now left|right; apply Rows in Rj'; lia]).
  apply Rows in Rj; [|lia]. apply Rows in Rj1; [|lia]. assert (Hd : 0 < dy) by apply G.
  destruct (V i Ai) as [Ri Ei]. destruct (V (i + 1)%Z Ai1) as [Ri1 Ei1].
  pose proof (corners_moved x0 dx y0 dy nx na a j0 x y i j (fun j i => valid (entry (None, true) (shc s) j i)) (fun j i => valid (entry (None, true) (shc u) j i))) as Ec.
  cbv beta in Ec. rewrite !Ei, !Ei1 in Ec by lia. specialize (Ec ltac:(lia) eq_refl eq_refl eq_refl eq_refl). fold z in Ec. rewrite <- Ec.
  apply (sheet_cell src sc glob (node_x Heights x0 dx a) dx na (node_y Heights y0 dy j0) dy k u e Ge x y (i - a) (j - j0) r O4); auto; try lia.
  - now replace (i - a + 1)%Z with (i + 1 - a)%Z by ring.
  - apply between_moved; auto. lia.
  - rewrite at_moved by lia. auto.
Qed.
Print Assumptions C83_cell.

(** ** C83: at a node, its constant *)
Theorem C83_node : forall src sc bounds buffer b m files pts out c s n x y around x0 dx nx y0 dy ny f i j,
  extract_cropped src (Quick Bilinear) sc bounds buffer files pts = Ok out ->
  for_points bounds pts b -> some_limit b -> margin buffer dx m ->
  nth_error files c = Some s -> sheet_grid around x0 dx nx y0 dy ny s ->
  window x0 dx nx (x_min b) (x_max b) f -> f = 0%Z \/ around = true /\ 1 / 10000 < dx ->
  nth_error pts n = Some (x, y) ->
  column_available b m src around x0 dx nx f i -> column_available b m src around x0 dx nx f (i + 1) ->
  (S j < ny)%nat -> row_stays b m y0 dy j -> row_stays b m y0 dy (S j) ->
  node_y Heights y0 dy j < y \/ (exists j', j = S j' /\ row_stays b m y0 dy j') ->
  between_nodes Heights x0 dx y0 dy x y i j -> at_node Heights x0 dx y0 dy x y i j ->
  exists a' b' cs r, (a' = i \/ a' = i + 1)%Z /\ (b' = j \/ b' = S j) /\
    ExtractSpec.close x (node_x Heights x0 dx a') /\ ExtractSpec.close y (node_y Heights y0 dy b') /\
    (x = node_x Heights x0 dx i -> y = node_y Heights y0 dy j -> a' = i /\ b' = j) /\
    nth_error out c = Some cs /\ length cs = length pts /\ nth_error cs n = Some r /\
    scaled sc (valid (entry (None, true) (shc s) b' (column nx a'))) r.
Proof.
  intros src sc bounds buffer b m files pts out c s n x y around x0 dx nx y0 dy ny f i j H Hb Sb Hm Hc G W Hf Hn Ai Ai1 Hj Rj Rj1 Lo B NA.
  destruct (crop_inv _ _ _ _ _ _ _ _ _ _ _ _ _ _ _ _ _ _ _ _ _ _ _ _ Hb Sb Hm H Hc G W Hf Hn Ai Ai1 Hj Rj Rj1) as (glob & a & na & j0 & k & u & e & cs & r & Ge & V & Rows & Hk & _ & _ & _ & _ & _ & O1 & O2 & O3 & O4).
  assert (Lo' : node_y Heights y0 dy j < y \/ (j0 < j)%nat) by (destruct Lo as [Lo|(j' & -> & Rj')]; [now left|right; apply Rows in Rj'; lia]).
  apply Rows in Rj; [|lia]. apply Rows in Rj1; [|lia]. assert (Hd : 0 < dy) by apply G.
  destruct (V i Ai) as [Ri Ei]. destruct (V (i + 1)%Z Ai1) as [Ri1 Ei1].
  destruct (sheet_node src sc glob (node_x Heights x0 dx a) dx na (node_y Heights y0 dy j0) dy k u e Ge x y (i - a) (j - j0) r O4) as (a1 & b1 & Ka & Kb & C1 & C2 & C3 & C4); auto; try lia.
  - now replace (i - a + 1)%Z with (i + 1 - a)%Z by ring.
  - apply between_moved; auto. lia.
  - now rewrite at_moved by lia.
  - rewrite !node_move, !row_move in C3 by lia.
    exists (a1 + a)%Z, (b1 + j0)%nat, cs, r. split; [lia|]. split; [lia|].
    replace a1 with (a1 + a - a)%Z in C1 by ring. replace b1 with (b1 + j0 - j0)%nat in C2 by lia. rewrite node_move in C1. rewrite row_move in C2 by lia.
    split; auto. split; auto. split; [intros E1 E2; destruct (C3 E1 E2); lia|]. repeat (split; [assumption|]).
    assert (Q : (b1 + j0 = j \/ b1 + j0 = S j)%nat) by lia. destruct Ka as [-> | ->].
    + replace (i - a + a)%Z with i by ring. rewrite <- Ei by lia. now replace (b1 + j0 - j0)%nat with b1 by lia.
    + replace (i - a + 1 + a)%Z with (i + 1)%Z by ring. replace (i - a + 1)%Z with (i + 1 - a)%Z in C4 by ring. rewrite <- Ei1 by lia. now replace (b1 + j0 - j0)%nat with b1 by lia.
Qed.
Print Assumptions C83_node.

(** ** C83: with the method nearest, the constant of the nearest node of the model *)
Theorem C83_nearest : forall src sc bounds buffer b m files pts out c s n x y around x0 dx nx y0 dy ny f i j a' b',
  extract_cropped src (Regular Nearest) sc bounds buffer files pts = Ok out ->
  for_points bounds pts b -> some_limit b -> margin buffer dx m ->
  nth_error files c = Some s -> sheet_grid around x0 dx nx y0 dy ny s ->
  window x0 dx nx (x_min b) (x_max b) f -> f = 0%Z \/ around = true /\ 1 / 10000 < dx ->
  nth_error pts n = Some (x, y) ->
  column_available b m src around x0 dx nx f i -> column_available b m src around x0 dx nx f (i + 1) ->
  (S j < ny)%nat -> row_stays b m y0 dy j -> row_stays b m y0 dy (S j) ->
  node_x Heights x0 dx i <= x <= node_x Heights x0 dx (i + 1) -> node_y Heights y0 dy j <= y <= node_y Heights y0 dy (S j) ->
  (a' = i \/ a' = i + 1)%Z -> b' = j \/ b' = S j -> nearest_node Heights x0 dx y0 dy x y a' b' ->
  unfilled (valid (entry (None, true) (shc s) b' (column nx a'))) ->
  exists cs r, nth_error out c = Some cs /\ length cs = length pts /\ nth_error cs n = Some r /\
    scaled sc (valid (entry (None, true) (shc s) b' (column nx a'))) r.
Proof.
  intros src sc bounds buffer b m files pts out c s n x y around x0 dx nx y0 dy ny f i j a' b' H Hb Sb Hm Hc G W Hf Hn Ai Ai1 Hj Rj Rj1 Bx By Ka Kb Nn Hu.
  destruct (crop_inv _ _ _ _ _ _ _ _ _ _ _ _ _ _ _ _ _ _ _ _ _ _ _ _ Hb Sb Hm H Hc G W Hf Hn Ai Ai1 Hj Rj Rj1) as (glob & a & na & j0 & k & u & e & cs & r & Ge & V & Rows & Hk & _ & _ & _ & _ & _ & O1 & O2 & O3 & O4).
  exists cs, r. repeat (split; [assumption|]). apply Rows in Rj; [|lia]. apply Rows in Rj1; [|lia]. assert (Hdx : 0 < dx) by apply G. assert (Hdy : 0 < dy) by apply G.
  destruct (V i Ai) as [Ri Ei]. destruct (V (i + 1)%Z Ai1) as [Ri1 Ei1].
  assert (Aa : column_available b m src around x0 dx nx f a') by (destruct Ka as [-> | ->]; auto). destruct (V a' Aa) as [Ra Ea].
  rewrite <- Ea in Hu |- * by lia.
  pose proof Ge as (Hx & _ & Nx & Ny & _).
  assert (In' : node_x Heights (node_x Heights x0 dx a) dx (first_of glob) <= x <= node_x Heights (node_x Heights x0 dx a) dx (last_of (behind src) glob na) /\
    node_y Heights y0 dy j0 <= y <= node_y Heights y0 dy j0 + INR (k - 1) * dy).
  { apply (cell_inside src glob (node_x Heights x0 dx a) dx na (node_y Heights y0 dy j0) dy k x y (i - a) (j - j0)); auto; try lia.
    - now replace (i - a + 1)%Z with (i + 1 - a)%Z by ring.
    - replace (i - a + 1)%Z with (i + 1 - a)%Z by ring. now rewrite !node_move.
    - replace (S (j - j0)) with (S j - j0)%nat by lia. now rewrite !row_move by lia. }
  apply (sheet_nearest src sc glob (node_x Heights x0 dx a) dx na (node_y Heights y0 dy j0) dy k u e x y (a' - a) (b' - j0) r Ge O4); auto; try lia; try apply In'.
  - unfold node_y at 1 3. change (INR 0) with 0. rewrite Rmult_0_l, Rplus_0_r. apply In'.
  - destruct Nn as [N1 N2]. split; [now rewrite node_move|]. now rewrite row_move by lia.
Qed.
Print Assumptions C83_nearest.
