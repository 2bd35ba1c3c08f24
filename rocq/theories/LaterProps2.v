(** C89: interpolating a model that was cropped when it was read. *)
From Coq Require Import Reals List Bool Arith ZArith Lra Lia.
From Verif Require Import PyBase RBase MathModel GeoModel ConvertProps GridModel GridProofs InterpModel InterpProps ExtrapProps ExtractModel ExtractSpec NodeProps ExtractProofs ExtractProps SplineProps ReturnProps MergeSpec MergeProps SeriesModel SeriesSpec SeriesProofs SeriesProps SeriesProps2 SeriesProps3 RegularModel RegularSpec RegularProofs RegularProps RegularProps2 CropModel CropSpec CropProofs CropProofs2 CropProps CropProps2 CropProps3 CropProps4 ShoreModel ShoreSpec ShoreProofs ShoreProps ShoreProps2 LaterModel LaterSpec LaterProofs LaterProps.
Import ListNotations.
Open Scope R_scope.

(** ** The cropped axes do not depend on the constants *)
Lemma shift_axes lon0 d s s' u u' : slon s = slon s' -> slat s = slat s' -> shift_sheet lon0 d s = Ok u -> shift_sheet lon0 d s' = Ok u' -> slon u = slon u' /\ slat u = slat u'.
Proof.
  intros E1 E2. unfold shift_sheet. rewrite <- E1, <- E2. destruct (repeated (slon s)) as [o|]; [|discriminate]. cbn [bind]. destruct (least _) as [i0|]; [|discriminate]. cbn [bind].
  destruct (rotate_list i0 o (slon s)) as [p|]; [|discriminate]. cbn [bind]. destruct (mapM _ (shc s)); [|discriminate]. destruct (mapM _ (shc s')); [|discriminate]. cbn [bind]. intros K K'. apply Ok_inj in K as <-. apply Ok_inj in K' as <-. auto.
Qed.
Lemma crop_axes b m s s' u u' : slon s = slon s' -> slat s = slat s' -> crop_sheet b m s = Ok u -> crop_sheet b m s' = Ok u' -> slon u = slon u' /\ slat u = slat u'.
Proof.
  intros E1 E2. unfold crop_sheet. destruct (reframe b s) as [t|] eqn:Et; [|discriminate]. destruct (reframe b s') as [t'|] eqn:Et'; [|discriminate]. cbn [bind].
  assert (T : slon t = slon t' /\ slat t = slat t').
  { unfold reframe in Et, Et'. rewrite <- E1 in Et'. destruct (amax (slon s)) as [hi|]; [|discriminate]. cbn [bind] in *. destruct (amin (slon s)) as [lo|]; [|discriminate]. cbn [bind] in *.
    destruct (_ && _); [now apply (shift_axes 180 West s s')|]. destruct (_ && _); [now apply (shift_axes 0 East s s')|]. apply Ok_inj in Et as <-. apply Ok_inj in Et' as <-. auto. }
  destruct T as [T1 T2]. unfold cut. rewrite <- T1, <- T2. destruct (ind_slice _ (shc t)) as [r|]; [|discriminate]. destruct (ind_slice _ (shc t')) as [r'|]; [|discriminate]. cbn [bind].
  destruct (ind_slice _ (slon t)) as [X|]; [|discriminate]. cbn [bind]. destruct (mapM _ r); [|discriminate]. destruct (mapM _ r'); [|discriminate]. cbn [bind].
  destruct (ind_slice _ (slat t)) as [Y|]; [|discriminate]. cbn [bind]. intros K K'. apply Ok_inj in K as <-. apply Ok_inj in K' as <-. auto.
Qed.
(** the columns that are kept have the step of the model *)
Lemma crop_spacing src b m s around x0 dx nx y0 dy ny f i j u :
  sheet_grid around x0 dx nx y0 dy ny s -> window x0 dx nx (x_min b) (x_max b) f -> f = 0%Z \/ around = true /\ 1 / 10000 < dx ->
  column_available b m src around x0 dx nx f i -> column_available b m src around x0 dx nx f (i + 1) -> (S j < ny)%nat -> row_stays b m y0 dy j ->
  crop_sheet b m s = Ok u -> spacing (slon u) = Ok dx.
Proof.
  intros G W Hf Ai Ai1 Hj Rj Cu. pose proof G as (Ex & Ey & Hx & Hy & Rs & Ga). assert (Hd : 0 < dx) by apply Ex.
  destruct (reframe_grid _ _ _ _ _ _ _ _ _ _ G W Hf) as (t & T1 & T2 & T3). unfold crop_sheet in Cu. rewrite T1 in Cu. cbn [bind] in Cu. pose proof T2 as (Tx & Ty & _ & _ & Rt & _).
  assert (Nf : forall k, node_x Heights x0 dx f + INR k * dx = node_x Heights x0 dx (f + Z.of_nat k)) by (intros k; unfold node_x; rewrite plus_IZR, <- INR_IZR_INZ; ring).
  assert (Hk : exists k, (k < nx)%nat /\ stays (x_min b) (x_max b) m (node_x Heights x0 dx f + INR k * dx)).
  { destruct Ai as [[A1 A2]|(A1 & A2 & A3 & A4)].
    - exists (Z.to_nat (i - f)). split; [lia|]. rewrite Nf. replace (f + Z.of_nat (Z.to_nat (i - f)))%Z with i by lia. exact A2.
    - exists 0%nat. split; [lia|]. rewrite Nf. cbn [Z.of_nat]. now rewrite Z.add_0_r. }
  destruct Hk as (k0 & K1 & K2).
  destruct (cut_grid b m _ _ _ _ _ _ t k0 j Tx Ty Rt K1 K2 ltac:(lia) Rj) as (a' & na & j0 & k & u' & U1 & U2 & U3 & U4 & U5 & U6 & U7 & U8 & _). rewrite Cu in U1. apply Ok_inj in U1 as <-.
  apply (evenly_spacing (node_x Heights x0 dx f + INR a' * dx) dx na); auto.
  assert (Sa : forall i, (f <= i < f + Z.of_nat nx)%Z -> (f + Z.of_nat a' <= i < f + Z.of_nat a' + Z.of_nat na)%Z <-> stays (x_min b) (x_max b) m (node_x Heights x0 dx i)).
  { intros i0 Hi0. specialize (U6 (Z.to_nat (i0 - f)) ltac:(lia)). rewrite Nf in U6. replace (f + Z.of_nat (Z.to_nat (i0 - f)))%Z with i0 in U6 by lia. rewrite <- U6. lia. }
  assert (Whole : stays (x_min b) (x_max b) m (node_x Heights x0 dx f) -> stays (x_min b) (x_max b) m (node_x Heights x0 dx (f + Z.of_nat nx - 1)) -> a' = 0%nat /\ na = nx).
  { intros S1 S2. apply Sa in S1; [|lia]. apply Sa in S2; [|lia]. lia. }
  destruct Ai as [[A1 A2]|(A1 & A2 & A3 & A4)]; [|destruct (Whole A2 A3); lia]. destruct Ai1 as [[B1 B2]|(B1 & B2 & B3 & B4)]; [|destruct (Whole B2 B3); lia].
  apply Sa in A2; [|auto]. apply Sa in B2; [|auto]. lia.
Qed.
(** margins that keep the same columns and rows *)
Definition same_kept (b : limits) (m m' x0 dx : R) (nx : nat) (y0 dy : R) (ny : nat) (f : Z) : Prop :=
  (forall i, (f <= i < f + Z.of_nat nx)%Z -> stays (x_min b) (x_max b) m (node_x Heights x0 dx i) <-> stays (x_min b) (x_max b) m' (node_x Heights x0 dx i)) /\
  (forall j, (j < ny)%nat -> row_stays b m y0 dy j <-> row_stays b m' y0 dy j).
Lemma same_kept_refl b m x0 dx nx y0 dy ny f : same_kept b m m x0 dx nx y0 dy ny f.
Proof. split; reflexivity. Qed.
Lemma flatnonzero_same {A} (g h : A -> bool) l : (forall a, In a l -> g a = h a) -> flatnonzero g l = flatnonzero h l.
Proof. unfold flatnonzero. generalize 0%nat. induction l as [|a l IH]; intros i H; [reflexivity|]. cbn [flatnonzero_from]. rewrite (H a) by now left. rewrite IH; [reflexivity|]. intros; apply H; now right. Qed.
Lemma kept_same lo hi m m' x0 d n l : evenly x0 d n l -> (forall i, (i < n)%nat -> stays lo hi m (x0 + INR i * d) <-> stays lo hi m' (x0 + INR i * d)) ->
  flatnonzero (within_limits (lo - m) (hi + m)) l = flatnonzero (within_limits (lo - m') (hi + m')) l.
Proof.
  intros (_ & L & E) H. apply flatnonzero_same. intros a Ha. destruct (In_nth _ _ 0 Ha) as (i & Hi & <-). rewrite E by lia. specialize (H i ltac:(lia)). apply eq_true_iff_eq. rewrite !within_limits_iff. exact H.
Qed.
Lemma crop_same b m m' s around x0 dx nx y0 dy ny f : sheet_grid around x0 dx nx y0 dy ny s -> window x0 dx nx (x_min b) (x_max b) f -> f = 0%Z \/ around = true /\ 1 / 10000 < dx ->
  same_kept b m m' x0 dx nx y0 dy ny f -> crop_sheet b m s = crop_sheet b m' s.
Proof.
  intros G W Hf [H1 H2]. destruct (reframe_grid _ _ _ _ _ _ _ _ _ _ G W Hf) as (t & T1 & (Tx & Ty & _) & _). unfold crop_sheet. rewrite T1. cbn [bind]. unfold cut.
  rewrite (kept_same (x_min b) (x_max b) m m' _ _ _ _ Tx), (kept_same (y_min b) (y_max b) m m' _ _ _ _ Ty); auto.
  intros i Hi. replace (node_x Heights x0 dx f + INR i * dx) with (node_x Heights x0 dx (f + Z.of_nat i)) by (unfold node_x; rewrite plus_IZR, <- INR_IZR_INZ; ring). apply H1. lia.
Qed.

(** ** The points *)
Lemma moved_adjust (C : R -> Prop) lon pts pts' : lon <> [] -> pts <> [] -> (forall a, In a lon <-> C a) -> moved C pts pts' -> adjust lon pts = Ok pts'.
Proof.
  intros Hl Hn HC Mv. destruct (adjust_ok lon pts) as (r & E); auto. rewrite E. f_equal.
  unfold adjust in E. destruct (amin (map fst pts)) as [mn|] eqn:E1; [|discriminate]. cbn [bind] in E. destruct (amax (map fst pts)) as [mx|] eqn:E2; [|discriminate]. cbn [bind] in E.
  destruct (amin lon) as [lo|] eqn:E3; [|discriminate]. cbn [bind] in E. destruct (amax lon) as [hi|] eqn:E4; [|discriminate]. cbn [bind] in E. apply Ok_inj in E as <-.
  apply amin_least in E1 as [M1 M2]. apply amax_most in E2 as [N1 N2]. apply amin_least in E3 as [A1 A2]. apply amax_most in E4 as [B1 B2]. apply HC in A1, B1.
  apply in_map_iff in M1 as (pm & Em & Hm). apply in_map_iff in N1 as (px & Ex & Hx).
  assert (F1 : (forall p, In p pts -> 0 <= fst p) \/ (forall a, C a -> a <= 180) -> rlt mn 0 && rlt 180 hi = false).
  { intros [K|K]; [rewrite (rlt_f mn 0) by (rewrite <- Em; auto); reflexivity|]. rewrite (rlt_f 180 hi) by auto. now rewrite andb_false_r. }
  inversion Mv as [(p & Hp & Lp) (a & Ha & La)|Kf (p & Hp & Lp) (a & Ha & La)|Kf Kg]; subst pts'.
  - assert (mn <= fst p) by (apply M2; now apply in_map). assert (a <= hi) by (apply B2; now apply HC). rewrite (rlt_t mn 0), (rlt_t 180 hi) by lra. cbn [andb]. apply map_ext. intros q. now rewrite east_eq.
  - rewrite (F1 Kf). assert (fst p <= mx) by (apply N2; now apply in_map). assert (lo <= a) by (apply A2; now apply HC). rewrite (rlt_t 180 mx), (rlt_t lo 0) by lra. cbn [andb]. apply map_ext. intros q. now rewrite west_eq.
  - rewrite (F1 Kf). replace (rlt 180 mx && rlt lo 0) with false; [reflexivity|]. symmetry. destruct Kg as [K|K]; [rewrite (rlt_f 180 mx) by (rewrite <- Ex; auto); reflexivity|]. rewrite (rlt_f lo 0) by auto. apply andb_false_r.
Qed.
Lemma moved_nonempty C pts pts' : moved C pts pts' -> pts <> [] -> pts' <> [].
Proof. intros Mv H. destruct pts as [|p pts]; [congruence|]. inversion Mv; discriminate. Qed.

(** ** C89: a model cropped when it is read gives what extraction with cropping gives *)
Definition kept_longitude (b : limits) (m : R) (src : series) (around : bool) (x0 dx : R) (nx : nat) (f : Z) (a : R) : Prop :=
  exists k, column_available b m src around x0 dx nx f k /\ a = node_x Heights x0 dx k.
Lemma fill_cropped_mapM src w sc b m ex files pts : some_limit b -> m <> 0 -> (forall s, In s files -> exists dx u, spacing (slon s) = Ok dx /\ crop_sheet b m s = Ok u /\ spacing (slon u) = Ok dx) ->
  fill_files src w sc b (Some m) ex files pts = mapM (fun s => do e <- read_sheet src true (Some b) m s ;; file_values src w sc ex e pts) files.
Proof.
  intros Sb Hm. induction files as [|s files IH]; intros Hf; [reflexivity|]. cbn [fill_files mapM]. unfold read_sheet at 1. rewrite any_limit_t by auto.
  destruct (Hf s (or_introl eq_refl)) as (dx & u & E1 & E2 & E3). rewrite E1. cbn [bind buffer_of]. rewrite req_f by auto. rewrite E2. cbn [bind]. rewrite extend_cut_same by auto.
  destruct (extend_sheet src u) as [e|]; [|reflexivity]. cbn [bind]. destruct (file_values src w sc ex e pts) as [cs|]; [|reflexivity]. cbn [bind]. rewrite IH; [reflexivity|]. intros; apply Hf; now right.
Qed.
Theorem C89_cropped : forall src w sc ex b m m' files pts pts' around x0 dx nx y0 dy ny f i j,
  files <> [] -> (forall s, In s files -> sheet_grid around x0 dx nx y0 dy ny s /\ usable_for w ny nx s) ->
  INR nx * dx <= 360 -> 1 / 200 < dx -> some_limit b ->
  window x0 dx nx (x_min b) (x_max b) f -> f = 0%Z \/ around = true ->
  m' <> 0 -> same_kept b m m' x0 dx nx y0 dy ny f ->
  column_available b m src around x0 dx nx f i -> column_available b m src around x0 dx nx f (i + 1) ->
  (S j < ny)%nat -> row_stays b m y0 dy j -> row_stays b m y0 dy (S j) ->
  pts <> [] -> moved (kept_longitude b m src around x0 dx nx f) pts pts' ->
  exists t, read_options src true (Some b) m files = Ok t /\
    interpolate_options src w sc ex t pts = extract_options src w sc true (Some b) (Some m') ex files pts'.
Proof.
  intros src w sc ex b m m' files pts pts' around x0 dx nx y0 dy ny f i j Hne Hf Hw Hd Sb W Hf0 Hm' Sk Ai Ai1 Hj Rj Rj1 Hn Mv.
  assert (Hf' : f = 0%Z \/ around = true /\ 1 / 10000 < dx) by (destruct Hf0; [left; auto | right; split; [auto | lra]]).
  destruct files as [|s0 files']; [congruence|]. clear Hne. destruct (Hf s0 (or_introl eq_refl)) as [G0 _]. assert (Hdx : 0 < dx) by apply G0.
  assert (Step : match src with FES => dx | GOT => Rabs dx end = dx) by (destruct src; auto; now rewrite Rabs_pos_eq by lra).
  (* each file *)
  assert (One : forall s, In s (s0 :: files') -> exists glob a na j0 k u e, crop_sheet b m s = Ok u /\ read_sheet src true (Some b) m s = Ok e /\ spacing (slon u) = Ok dx /\ cropped_to src b m s around x0 dx nx y0 dy ny f glob a na j0 k u e).
  { intros s Hin. destruct (Hf s Hin) as [G _]. destruct (crop_exists _ _ _ _ _ _ _ _ _ _ _ _ _ _ G W Hf' Ai Ai1 Hj Rj Rj1) as (glob & a & na & j0 & k & u & e & X1 & X2 & X3).
    exists glob, a, na, j0, k, u, e. split; [exact X1|]. pose proof (crop_spacing src b m s around x0 dx nx y0 dy ny f i j u G W Hf' Ai Ai1 Hj Rj X1) as Su. split; [|split; [exact Su | exact X3]].
    unfold read_sheet. rewrite any_limit_t by auto. rewrite X1. cbn [bind]. rewrite <- (extend_cut_same src u dx Su), Step. exact X2. }
  assert (Re : forall s, In s (s0 :: files') -> exists e, read_sheet src true (Some b) m s = Ok e) by (intros s Hin; destruct (One s Hin) as (? & ? & ? & ? & ? & ? & e & _ & E & _); eauto).
  destruct (mapM_all _ _ Re) as (es & Ees). unfold read_options. rewrite Ees. cbn [bind]. eexists. split; [reflexivity|].
  destruct (One s0 (or_introl eq_refl)) as (glob & a & na & j0 & k & u0 & e0 & X1 & X2 & X3 & X4).
  assert (Ax : forall e, In e es -> slon e = slon e0 /\ slat e = slat e0).
  { intros e He. destruct (mapM_from _ _ _ _ Ees He) as (s & Hin & Ee). destruct (Hf s Hin) as [G _]. destruct (One s Hin) as (? & ? & ? & ? & ? & u & e' & Y1 & Y2 & Y3 & _). rewrite Ee in Y2. apply Ok_inj in Y2 as <-.
    assert (S1 : slon s = slon s0) by (apply (evenly_unique x0 dx nx); [apply G | apply G0]). assert (S2 : slat s = slat s0) by (apply (evenly_unique y0 dy ny); [apply G | apply G0]).
    destruct (crop_axes b m s s0 u u0 S1 S2 Y1 X1) as [C1 C2]. unfold read_sheet in Ee, X2. rewrite any_limit_t in Ee, X2 by auto. rewrite Y1 in Ee. rewrite X1 in X2. cbn [bind] in Ee, X2. unfold extend_sheet in Ee, X2.
    rewrite Y3 in Ee. rewrite X3 in X2. cbn [bind] in Ee, X2. rewrite C1, C2 in Ee. destruct (isclose _ _).
    - match type of Ee with bind ?x _ = _ => destruct x as [L|]; [|discriminate] end. cbn [bind] in Ee, X2. match type of Ee with bind ?x _ = _ => destruct x; [|discriminate] end. match type of X2 with bind ?x _ = _ => destruct x; [|discriminate] end. cbn [bind] in Ee, X2.
      apply Ok_inj in Ee as <-. apply Ok_inj in X2 as <-. auto.
    - apply Ok_inj in Ee as <-. apply Ok_inj in X2 as <-. auto. }
  assert (Ne : es <> []) by (intros ->; apply mapM_len in Ees; discriminate).
  (* whole globe *)
  assert (Gl : forall s glob a na j0 k u e, In s (s0 :: files') -> cropped_to src b m s around x0 dx nx y0 dy ny f glob a na j0 k u e -> glob = true -> around = true /\ na = nx /\ a = f /\ INR na * dx = 360).
  { intros s gl a1 na1 j1 k1 u1 e1 Hin (Ge & _ & _ & _ & _ & Fa & Fb & _ & Eg) ->. destruct (Hf s Hin) as [(Gx & _ & Nx & _ & _ & Ga) _]. pose proof Ge as (_ & _ & Nx1 & _).
    assert (Ena : na1 = nx) by (destruct (le_lt_dec nx na1); [lia|rewrite (not_around_less dx nx na1 Hw Hd) in Eg by lia; discriminate]). subst na1.
    destruct Ga as [[Ga Gb]|[_ Ga]]; [split; [auto|]; split; [auto|]; split; [lia|auto]|]. exfalso. apply Ga. apply isclose_close. auto. }
  rewrite (interpolate_read src w sc ex es (slon e0) (slat e0) pts pts'); auto.
  - rewrite options_given by now apply (moved_nonempty _ _ _ Mv).
    rewrite (fill_cropped_mapM src w sc b m' ex); auto.
    + rewrite (mapM_ext_in (fun s => do e <- read_sheet src true (Some b) m' s ;; file_values src w sc ex e pts') (fun s => do e <- read_sheet src true (Some b) m s ;; file_values src w sc ex e pts')).
      * symmetry. now apply (mapM_then (read_sheet src true (Some b) m) (fun e => file_values src w sc ex e pts')).
      * intros s Hin. destruct (Hf s Hin) as [G _]. unfold read_sheet. now rewrite (crop_same b m m' s _ _ _ _ _ _ _ _ G W Hf' Sk).
    + intros s Hin. destruct (Hf s Hin) as [G _]. destruct (One s Hin) as (? & ? & ? & ? & ? & u & e' & Y1 & _ & Y3 & _). exists dx, u. split; [apply (evenly_spacing x0 dx nx); apply G|]. split; [|exact Y3].
      now rewrite <- (crop_same b m m' s _ _ _ _ _ _ _ _ G W Hf' Sk).
  - pose proof X4 as ((Gx & _ & Nx & _) & V & _ & _ & _ & Fa & Fb & Cols & _). apply (moved_adjust (kept_longitude b m src around x0 dx nx f)); auto.
    + intros K. destruct Gx as (_ & L & _). rewrite K in L. cbn in L. lia.
    + pose proof (Gl s0 _ _ _ _ _ _ _ (or_introl eq_refl) X4) as Glob.
      assert (Sh : forall k', node_x Heights x0 dx a - INR (bef glob) * dx + INR k' * dx = node_x Heights x0 dx (a - Z.of_nat (bef glob) + Z.of_nat k')) by (intros; unfold node_x; rewrite plus_IZR, minus_IZR, <- !INR_IZR_INZ; ring).
      intros c. split.
      * intros Hc. destruct (evenly_in _ _ _ _ _ Gx Hc) as (k' & Hk' & ->). rewrite Sh. exists (a - Z.of_nat (bef glob) + Z.of_nat k')%Z. split; [|reflexivity]. destruct glob.
        -- destruct (Glob eq_refl) as (Ka & -> & -> & _). right. split; [auto|]. split; [apply Cols; lia|]. split; [apply Cols; lia|]. unfold bef, aft, behind in *. destruct src; lia.
        -- left. unfold bef, aft in *. split; [lia|]. apply Cols; lia.
      * intros (k' & Av & ->). destruct (V k' Av) as [Rc _]. apply within_reached in Rc. unfold SeriesProofs.within in Rc.
        replace (node_x Heights x0 dx k') with (nth (Z.to_nat (k' - a + Z.of_nat (bef glob))) (slon e0) 0).
        -- apply nth_In. destruct Gx as (_ & -> & _). lia.
        -- destruct Gx as (_ & _ & E). rewrite E by lia. rewrite Sh. f_equal. lia.
  - intros e He. destruct (mapM_from _ _ _ _ Ees He) as (s & Hin & Ee). destruct (Hf s Hin) as [G U]. destruct (One s Hin) as (gl & a1 & na1 & j1 & k1 & u & e' & Y1 & Y2 & Y3 & Y4). rewrite Ee in Y2. apply Ok_inj in Y2 as <-.
    pose proof (Gl _ _ _ _ _ _ _ _ Hin Y4) as Glob. destruct Y4 as (Ge & _ & _ & _ & Nu & _). apply (grown_field _ _ _ _ _ _ _ _ _ _ _ _ _ _ Ge); auto.
    + intros K. now destruct (Glob K) as (_ & _ & _ & K').
    + destruct U as [U|[U|U]]; unfold usable_for; auto.
Qed.
Print Assumptions C89_cropped.
