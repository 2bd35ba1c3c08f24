(** C69: constants extracted from models with a file for each constituent (FES and GOT). *)
From Coq Require Import Reals List Bool Arith ZArith Lra Lia.
From Verif Require Import PyBase RBase MathModel GeoModel ConvertProps GridModel InterpModel InterpProps ExtractModel ExtractSpec NodeProps ExtractProofs ExtractProps SplineProps ReturnProps MergeSpec MergeProps SeriesModel SeriesSpec SeriesProofs.
Import ListNotations.
Open Scope R_scope.

(** ** The grid of a file *)
Definition sheet_grid (around : bool) (x0 dx : R) (nx : nat) (y0 dy : R) (ny : nat) (s : sheet) : Prop :=
  evenly x0 dx nx (slon s) /\ evenly y0 dy ny (slat s) /\ (2 <= nx)%nat /\ (2 <= ny)%nat /\ rect ny nx (shc s) /\
  (around = true /\ INR nx * dx = 360 \/ around = false /\ ~ ExtractSpec.close (INR (nx - 1) * dx) (360 - dx)).
(** columns added after the last one around the globe *)
Definition behind (src : series) : Z := match src with FES => 1%Z | GOT => 2%Z end.
(** every value of the file is a number (masked or not) *)
Definition numbers (ny nx : nat) (s : sheet) : Prop :=
  forall j i, (j < ny)%nat -> (i < nx)%nat -> fst (entry (None, true) (shc s) j i) <> None.

(** ** The points *)
Lemma adjust_nonempty lons pts pts' : adjust lons pts = Ok pts' -> pts <> [].
Proof. intros H ->. discriminate. Qed.
Lemma adjust_placed fr lons pts pts' : framed fr lons -> adjust lons pts = Ok pts' -> pts' = map (fun p => (placed fr (fst p), snd p)) pts.
Proof.
  intros F H. unfold adjust in H. destruct (amin (map fst pts)) as [mn|] eqn:E1; [|discriminate]. cbn [bind] in H.
  destruct (amax (map fst pts)) as [mx|] eqn:E2; [|discriminate]. cbn [bind] in H.
  destruct (amin lons) as [lo|] eqn:E3; [|discriminate]. cbn [bind] in H. destruct (amax lons) as [hi|] eqn:E4; [|discriminate]. cbn [bind] in H.
  apply Ok_inj in H as <-. apply amin_least in E1 as [_ E1]. apply amax_most in E2 as [_ E2]. apply amin_least in E3 as [E3 E3']. apply amax_most in E4 as [E4 E4'].
  assert (I : forall p, In p pts -> mn <= fst p <= mx) by (intros p Hp; split; [apply E1|apply E2]; now apply in_map).
  assert (Id : forall f, (forall p, In p pts -> f (fst p) = fst p) -> pts = map (fun p : R * R => (f (fst p), snd p)) pts).
  { intros f Hf. rewrite <- (map_id pts) at 1. apply map_ext_in. intros q Hp. rewrite (Hf _ Hp). now destruct q. }
  destruct fr; cbn [framed placed] in *.
  - destruct F as [(a & Ha & La) F]. assert (180 < hi) by (specialize (E4' a Ha); lra). assert (0 <= lo) by now apply F.
    rewrite (rlt_t 180 hi), (rlt_f lo 0), !andb_false_r, andb_true_r by lra. destruct (rlt mn 0) eqn:K.
    + apply map_ext. intros p. now rewrite east_eq.
    + apply Id. intros p Hp. unfold rlt in K. destruct (Rlt_dec mn 0); [discriminate|]. specialize (I p Hp). unfold eastward. destruct (Rlt_dec _ 0); lra.
  - destruct F as [(a & Ha & La) F]. assert (lo < 0) by (specialize (E3' a Ha); lra). assert (hi <= 180) by now apply F.
    rewrite (rlt_f 180 hi), (rlt_t lo 0), !andb_false_r, andb_true_r by lra. destruct (rlt 180 mx) eqn:K.
    + apply map_ext. intros p. now rewrite west_eq.
    + apply Id. intros p Hp. unfold rlt in K. destruct (Rlt_dec 180 mx); [discriminate|]. specialize (I p Hp). unfold westward. destruct (Rlt_dec 180 _); lra.
  - destruct F as [_ F]. assert (0 <= lo) by now apply F. assert (hi <= 180) by now apply F.
    rewrite (rlt_f 180 hi), (rlt_f lo 0), !andb_false_r by lra. apply (Id (fun x => x)). auto.
Qed.
Lemma placed_twice fr x : -360 <= x <= 540 -> placed fr (placed fr x) = placed fr x /\ -360 <= placed fr x <= 540.
Proof.
  intros H. destruct fr; cbn [placed]; unfold eastward, westward; auto; repeat destruct (Rlt_dec _ _); split; lra.
Qed.

(** what extraction does with each file *)
Lemma extract_files_nth src me sc fr files : (forall s, In s files -> framed fr (slon s)) -> forall pts out,
  (forall q, In q pts -> -360 <= fst q <= 540) -> extract_files src me sc files pts = Ok out ->
  length out = length files /\
  forall c s, nth_error files c = Some s -> exists e cs, extend_sheet src s = Ok e /\
    mapM (sheet_constant src me sc e) (map (fun p => (placed fr (fst p), snd p)) pts) = Ok cs /\ nth_error out c = Some cs.
Proof.
  induction files as [|s files IH]; intros Hf pts out Hp H.
  - apply Ok_inj in H as <-. split; auto. intros [|c] s Hc; discriminate.
  - cbn [extract_files] in H. destruct (spacing (slon s)); [|discriminate]. cbn [bind] in H.
    destruct (adjust (slon s) pts) as [pts'|] eqn:Ea; [|discriminate]. cbn [bind] in H.
    destruct (extend_sheet src s) as [e|] eqn:Ee; [|discriminate]. cbn [bind] in H.
    destruct (mapM (sheet_constant src me sc e) pts') as [cs|] eqn:Ec; [|discriminate]. cbn [bind] in H.
    destruct (extract_files src me sc files pts') as [out'|] eqn:Eo; [|discriminate]. cbn [bind] in H. apply Ok_inj in H as <-.
    apply (adjust_placed fr) in Ea; [|apply Hf; now left]. subst pts'.
    assert (Hp' : forall q, In q (map (fun p : R * R => (placed fr (fst p), snd p)) pts) -> -360 <= fst q <= 540).
    { intros q Hq. apply in_map_iff in Hq as (p & <- & Hin). cbn [fst]. apply placed_twice. auto. }
    destruct (IH (fun s Hs => Hf s (or_intror Hs)) _ out' Hp' Eo) as [L V].
    split; [cbn; lia|]. intros [|c] s' Hc; cbn [nth_error] in *.
    + injection Hc as <-. exists e, cs. auto.
    + destruct (V c s' Hc) as (e' & cs' & V1 & V2 & V3). exists e', cs'. repeat split; auto. rewrite <- V2. f_equal. rewrite map_map. apply map_ext_in.
      intros p Hin. cbn [fst snd]. now rewrite (proj1 (placed_twice fr (fst p) (Hp p Hin))).
Qed.

(** ** The longer grid *)
Definition bef (around : bool) : nat := if around then 1%nat else 0%nat.
Definition aft (src : series) (around : bool) : nat := if around then (match src with FES => 1%nat | GOT => 2%nat end) else 0%nat.
Lemma within_reached src around nx i : within (bef around) (aft src around) nx i <-> reached (behind src) around nx i.
Proof. unfold within, bef, aft, reached, behind. destruct around, src; lia. Qed.
Lemma extend_axis_got_evenly x0 d n l : evenly x0 d n l -> (2 <= n)%nat -> exists l', extend_axis_got l d = Ok l' /\ evenly (x0 - d) d (n + 3) l'.
Proof.
  intros (Hd & L & E) Hn. destruct l as [|a l]; [cbn in L; lia|]. eexists. split; [reflexivity|]. split; [auto|].
  split; [cbn [length] in *; rewrite app_length; cbn [length] in *; lia|].
  assert (El : last (a :: l) a = x0 + INR (n - 1) * d) by (rewrite last_nth' by congruence; rewrite (nth_indep _ a 0) by lia; rewrite L; apply E; lia).
  assert (Ea : a = x0) by (specialize (E 0%nat ltac:(lia)); cbn in E; lra).
  intros [|k] Hk; [cbn [nth INR]; lra|]. rewrite S_INR.
  change (nth (S k) (a - d :: (a :: l) ++ [last (a :: l) a + d; last (a :: l) a + 2 * d]) 0) with (nth k ((a :: l) ++ [last (a :: l) a + d; last (a :: l) a + 2 * d]) 0).
  destruct (Nat.lt_ge_cases k n) as [K|K]; [rewrite app_nth1 by lia; rewrite E by auto; ring|].
  rewrite app_nth2 by lia. rewrite L, El. rewrite minus_INR by lia. cbn [INR].
  assert (k = n \/ k = S n) as [-> | ->] by lia.
  - rewrite Nat.sub_diag. cbn [nth]. ring.
  - replace (S n - n)%nat with 1%nat by lia. cbn [nth]. rewrite S_INR. ring.
Qed.
Lemma extend_row_got_nth {A} (d : A) row nx : length row = nx -> (2 <= nx)%nat ->
  exists r, extend_row_got row = Ok r /\ length r = (nx + 3)%nat /\ forall i, (-1 <= i < Z.of_nat nx + 2)%Z -> nth (ec 1 i) r d = nth (column nx i) row d.
Proof.
  intros L Hx. destruct row as [|a [|b row]]; [cbn in L; lia|cbn in L; lia|]. eexists. split; [reflexivity|].
  split; [cbn [length] in *; rewrite app_length; cbn [length] in *; lia|]. intros i Hi. unfold ec, column.
  set (row' := a :: b :: row) in *. destruct (Z.eq_dec i (-1)) as [->|N].
  - rewrite <- (Z.mod_unique (-1) (Z.of_nat nx) (-1) (Z.of_nat nx - 1)) by lia. change (Z.to_nat (-1 + Z.of_nat 1)) with 0%nat. cbn [nth].
    rewrite last_nth' by (unfold row'; congruence). rewrite L. replace (Z.to_nat (Z.of_nat nx - 1)) with (nx - 1)%nat by lia. apply nth_indep. lia.
  - replace (Z.to_nat (i + Z.of_nat 1)) with (S (Z.to_nat i)) by lia.
    change (nth (S (Z.to_nat i)) (last row' a :: row' ++ [a; b]) d) with (nth (Z.to_nat i) (row' ++ [a; b]) d).
    destruct (Z.lt_ge_cases i (Z.of_nat nx)) as [K|K]; [rewrite app_nth1 by lia; now rewrite Z.mod_small by lia|].
    rewrite app_nth2 by lia. rewrite L. assert (i = Z.of_nat nx \/ i = Z.of_nat nx + 1)%Z as [-> | ->] by lia.
    + rewrite Z_mod_same_full, Nat2Z.id, Nat.sub_diag. reflexivity.
    + replace (Z.of_nat nx + 1)%Z with (1 + 1 * Z.of_nat nx)%Z at 2 by ring. rewrite Z_mod_plus_full, Z.mod_small by lia.
      replace (Z.to_nat (Z.of_nat nx + 1) - nx)%nat with 1%nat by lia. reflexivity.
Qed.
Lemma mapM_rows {A} (d : A) (f : list A -> res (list A)) (ny nx w : nat) m (P : nat -> list A -> list A -> Prop) : rect ny nx m ->
  (forall row, length row = nx -> exists r, f row = Ok r /\ length r = w /\ P 0%nat row r) ->
  exists m', mapM f m = Ok m' /\ rect ny w m' /\ forall j, (j < ny)%nat -> P 0%nat (nth j m []) (nth j m' []).
Proof.
  intros [L Hr] Hf. revert ny L. induction m as [|r m IH]; intros ny L.
  - cbn in L. subst ny. exists []. repeat split; auto; [intros r []|intros j Hj; lia].
  - destruct ny as [|ny]; [discriminate|]. destruct (Hf r (Hr r (or_introl eq_refl))) as (r' & E1 & E2 & E3).
    destruct (IH (fun r Hin => Hr r (or_intror Hin)) ny ltac:(now injection L)) as (m' & M1 & [M2 M3] & M4). exists (r' :: m'). cbn [mapM]. rewrite E1. cbn [bind]. rewrite M1. cbn [bind].
    split; [reflexivity|]. split; [split; [cbn; lia|intros q [<-|Hq]; auto]|]. intros [|j] Hj; [exact E3|]. cbn [nth]. apply M4. lia.
Qed.
Lemma around_sheet around x0 dx nx y0 dy ny s : sheet_grid around x0 dx nx y0 dy ny s ->
  isclose (last (slon s) 0 - hd 0 (slon s)) (360 - dx) = around.
Proof.
  intros (Ex & _ & Hx & _ & _ & H). rewrite (evenly_span x0 dx nx) by auto. destruct H as [(-> & E) | (-> & H)].
  - apply close_isclose. rewrite minus_INR by lia. cbn [INR]. replace ((INR nx - 1) * dx) with (360 - dx) by lra.
    unfold ExtractSpec.close. replace (360 - dx - (360 - dx)) with 0 by ring. rewrite Rabs_R0. pose proof (Rabs_pos (360 - dx)). lra.
  - apply not_true_is_false. rewrite <- close_isclose. auto.
Qed.
Lemma extend_sheet_grid src around x0 dx nx y0 dy ny s : sheet_grid around x0 dx nx y0 dy ny s ->
  exists e, extend_sheet src s = Ok e /\ evenly (x0 - INR (bef around) * dx) dx (bef around + nx + aft src around) (slon e) /\ slat e = slat s /\
    rect ny (bef around + nx + aft src around) (shc e) /\
    forall j i, (j < ny)%nat -> within (bef around) (aft src around) nx i -> entry (None, true) (shc e) j (ec (bef around) i) = entry (None, true) (shc s) j (column nx i).
Proof.
  intros G. pose proof (around_sheet _ _ _ _ _ _ _ _ G) as Ha. destruct G as (Ex & Ey & Hx & Hy & Rs & G). assert (Hd : 0 < dx) by apply Ex.
  unfold extend_sheet. rewrite (evenly_spacing x0 dx nx) by auto. cbn [bind].
  replace (match src with FES => dx | GOT => Rabs dx end) with dx by (destruct src; auto; rewrite Rabs_pos_eq; lra). rewrite Ha.
  destruct around.
  - unfold bef, aft. destruct src.
    + destruct (extend_axis_evenly x0 dx nx _ Ex Hx) as (l & El & Hl). rewrite El. cbn [bind].
      destruct (@extend_if_entries (gcell cpx) (None, true) true ny nx (shc s) Rs ltac:(lia)) as (m & Em & Rm & Nm). cbn [extend_if] in Em. rewrite Em. cbn [bind].
      eexists. split; [reflexivity|]. cbn [slon slat shc]. replace (1 + nx + 1)%nat with (nx + 2)%nat by lia. replace (x0 - INR 1 * dx) with (x0 - dx) by (cbn [INR]; ring).
      split; [exact Hl|]. split; auto. split; [exact Rm|]. intros j i Hj Hi. unfold within in Hi.
      change (ec 1 i) with (ecol true i). assert (Ci : columns true nx i) by (unfold columns; lia).
      rewrite Nm by (auto; now apply ecol_lt). now rewrite ecol_col by auto.
    + destruct (extend_axis_got_evenly x0 dx nx _ Ex Hx) as (l & El & Hl). rewrite El. cbn [bind].
      destruct (@mapM_rows (gcell cpx) (None, true) extend_row_got ny nx (nx + 3) (shc s) (fun _ row r => forall i, (-1 <= i < Z.of_nat nx + 2)%Z -> nth (ec 1 i) r (None, true) = nth (column nx i) row (None, true)) Rs) as (m & Em & Rm & Nm).
      { intros row Hrow. now apply extend_row_got_nth. }
      rewrite Em. cbn [bind]. eexists. split; [reflexivity|]. cbn [slon slat shc]. replace (1 + nx + 2)%nat with (nx + 3)%nat by lia. replace (x0 - INR 1 * dx) with (x0 - dx) by (cbn [INR]; ring).
      split; [exact Hl|]. split; auto. split; [exact Rm|]. intros j i Hj Hi. unfold within in Hi. unfold entry. apply Nm; auto; lia.
  - exists s. split; [reflexivity|]. unfold bef, aft. cbn [INR]. replace (x0 - 0 * dx) with x0 by ring. replace (0 + nx + 0)%nat with nx by lia.
    repeat (split; auto). intros j i Hj Hi. unfold within in Hi. unfold ec, column. rewrite Z.mod_small by lia. f_equal. lia.
Qed.

(** the columns of a node are columns of the file *)
Lemma column_lt nx i : (2 <= nx)%nat -> (column nx i < nx)%nat.
Proof. intros H. unfold column. pose proof (Z.mod_pos_bound i (Z.of_nat nx) ltac:(lia)). lia. Qed.

(** everything extraction computes for a point of a file *)
Lemma series_inv src me sc fr files pts out c s n p around x0 dx nx y0 dy ny :
  (forall s, In s files -> framed fr (slon s)) -> (forall q, In q pts -> -360 <= fst q <= 540) ->
  extract_series src me sc files pts = Ok out ->
  nth_error files c = Some s -> sheet_grid around x0 dx nx y0 dy ny s -> nth_error pts n = Some p ->
  exists e cs r, evenly (x0 - INR (bef around) * dx) dx (bef around + nx + aft src around) (slon e) /\ slat e = slat s /\
    rect ny (bef around + nx + aft src around) (shc e) /\
    (forall j i, (j < ny)%nat -> within (bef around) (aft src around) nx i -> entry (None, true) (shc e) j (ec (bef around) i) = entry (None, true) (shc s) j (column nx i)) /\
    nth_error out c = Some cs /\ length cs = length pts /\ nth_error cs n = Some r /\ sheet_constant src me sc e (placed fr (fst p), snd p) = Ok r.
Proof.
  intros Hf Hp H Hc G Hn. unfold extract_series in H. destruct (amin (map fst pts)); [|discriminate]. cbn [bind] in H.
  destruct (extract_files_nth src me sc fr files Hf pts out Hp H) as [_ V]. destruct (V c s Hc) as (e & cs & E1 & E2 & E3).
  destruct (extend_sheet_grid src _ _ _ _ _ _ _ _ G) as (e' & Ee & He). rewrite Ee in E1. apply Ok_inj in E1 as <-.
  destruct (mapM_nth _ _ _ n (placed fr (fst p), snd p) E2) as (r & R1 & R2); [now apply (map_nth_error (fun p => (placed fr (fst p), snd p)))|].
  exists e', cs, r. destruct He as (? & ? & ? & ?). repeat (split; [assumption|]). split; [now rewrite (mapM_len _ _ _ E2), map_length|]. auto.
Qed.
Lemma settled_kept sc h : scaled sc (kept h) (settled Bilinear sc false h).
Proof.
  unfold kept, settled. rewrite orb_false_r. destruct (snd h || is_nan h) eqn:K; [reflexivity|]. destruct (fst h) as [z|]; [|reflexivity].
  cbn. exists (cabs z), (phase_of z). split; [apply phase_of_spec|reflexivity].
Qed.
Lemma blank_value src c : value_of (blank src c) = valid c.
Proof. unfold blank, valid, value_of, gusable. destruct c as [[v|] []], src; reflexivity. Qed.
Lemma inside_sheet src around x0 dx nx y0 dy ny lon lat x y : evenly (x0 - INR (bef around) * dx) dx (bef around + nx + aft src around) lon -> evenly y0 dy ny lat ->
  (2 <= nx)%nat -> (2 <= ny)%nat ->
  node_x Heights x0 dx (first_of around) <= x <= node_x Heights x0 dx (last_of (behind src) around nx) -> y0 <= y <= y0 + INR (ny - 1) * dy ->
  outside_sheet src lon lat (x, y) = Ok false.
Proof.
  intros Hx Hy Nx Ny Kx Ky. destruct src; [|reflexivity]. unfold outside_sheet, outside_axes.
  destruct (evenly_ends _ _ _ _ Hx) as [-> ->]; [lia|]. destruct (evenly_ends _ _ _ _ Hy) as [-> ->]; auto. cbn [bind fst snd].
  unfold node_x, first_of, last_of, behind in Kx. unfold bef, aft in *.
  assert (Eb : x0 - INR (if around then 1 else 0) * dx <= x <= x0 - INR (if around then 1 else 0) * dx + INR ((if around then 1 else 0) + nx + (if around then 1 else 0) - 1) * dx).
  { destruct around.
    - replace (1 + nx + 1 - 1)%nat with (S nx) by lia. rewrite (S_INR nx). cbn [INR]. replace (Z.of_nat nx + 1 - 1)%Z with (Z.of_nat nx) in Kx by lia. rewrite <- INR_IZR_INZ in Kx. lra.
    - replace (0 + nx + 0 - 1)%nat with (nx - 1)%nat by lia. replace (Z.of_nat nx - 1)%Z with (Z.of_nat (nx - 1)) in Kx by lia. rewrite <- INR_IZR_INZ in Kx. change (INR 0) with 0. lra. }
  rewrite !rlt_f by (try apply Eb; try apply Ky). reflexivity.
Qed.
Lemma cell_inside src around x0 dx nx y0 dy ny x y i j : 0 < dx -> 0 < dy -> (2 <= nx)%nat -> (2 <= ny)%nat ->
  reached (behind src) around nx i -> reached (behind src) around nx (i + 1) -> (S j < ny)%nat ->
  node_x Heights x0 dx i <= x <= node_x Heights x0 dx (i + 1) -> node_y Heights y0 dy j <= y <= node_y Heights y0 dy (S j) ->
  node_x Heights x0 dx (first_of around) <= x <= node_x Heights x0 dx (last_of (behind src) around nx) /\ y0 <= y <= y0 + INR (ny - 1) * dy.
Proof.
  intros Hdx Hdy Nx Ny Ri Ri1 Hj Bx By. unfold node_x, node_y in *.
  assert (IZR (first_of around) <= IZR i) by (apply IZR_le; unfold first_of, reached in *; destruct around; lia).
  assert (IZR (i + 1) <= IZR (last_of (behind src) around nx)) by (apply IZR_le; unfold last_of, reached in *; destruct around; lia).
  assert (0 <= INR j) by apply pos_INR. assert (INR (S j) <= INR (ny - 1)) by (apply le_INR; lia).
  repeat split; nra.
Qed.

(** ** C69: within a cell the constants of every file are the weighted means of the valid
    nodes around the point *)
Theorem C69_cell : forall src sc fr files pts out c s n p around x0 dx nx y0 dy ny x y i j,
  (forall s, In s files -> framed fr (slon s)) -> (forall q, In q pts -> -360 <= fst q <= 540) ->
  extract_series src Bilinear sc files pts = Ok out ->
  nth_error files c = Some s -> sheet_grid around x0 dx nx y0 dy ny s ->
  nth_error pts n = Some p -> placed fr (fst p) = x -> snd p = y ->
  reached (behind src) around nx i -> reached (behind src) around nx (i + 1) -> (S j < ny)%nat ->
  between_nodes Heights x0 dx y0 dy x y i j -> ~ at_node Heights x0 dx y0 dy x y i j ->
  let z := corners Heights x0 dx y0 dy nx x y i j (fun j i => valid (entry (None, true) (shc s) j i)) in
  exists cs r, nth_error out c = Some cs /\ length cs = length pts /\ nth_error cs n = Some r /\
    scaled sc (both (mean (part fst z)) (mean (part snd z))) r.
Proof.
  intros src sc fr files pts out c s n p around x0 dx nx y0 dy ny x y i j Hf Hp H Hc G Hn Ex Ey Ri Ri1 Hj B NA z.
  destruct (series_inv _ _ _ _ _ _ _ _ _ _ _ _ _ _ _ _ _ _ Hf Hp H Hc G Hn) as (e & cs & r & Hx & Hlat & Rh & Nh & O1 & O2 & O3 & O4). rewrite Ex, Ey in O4.
  exists cs, r. repeat (split; [assumption|]). destruct G as (Gx & Gy & Nx & Ny & Rs & Ga). rewrite <- Hlat in Gy.
  assert (0 < dx) by apply Gx. assert (0 < dy) by apply Gy.
  destruct (cell_inside src around x0 dx nx y0 dy ny x y i j) as [I1 I2]; auto; [destruct B as (B1 & B2 & _); lra|destruct B as (B1 & B2 & _); lra|].
  unfold sheet_constant in O4. rewrite (inside_sheet src around x0 dx nx y0 dy ny) in O4 by auto. cbn [bind] in O4.
  destruct (st_off (bef around) (aft src around) nx ny x0 dx y0 dy (slon e) (slat e) Hx Gy Nx Ny (map (map (blank src)) (shc e)) (fun j i => valid (entry (None, true) (shc s) j i)) (map_rect _ _ _ _ Rh) x y i j) as (h & Eh & Kh); auto.
  - intros j' i' Hj' Hi'. rewrite (map_entry (blank src) ny (bef around + nx + aft src around) (shc e) (None, true)) by (auto; now apply ec_lt). rewrite Nh by auto. apply blank_value.
  - now apply within_reached.
  - now apply within_reached.
  - rewrite Eh in O4. cbn [bind] in O4. apply Ok_inj in O4 as <-. fold z in Kh. rewrite <- Kh. apply settled_kept.
Qed.
Print Assumptions C69_cell.

(** ** C69: at a node, its constant *)
Theorem C69_node : forall src sc fr files pts out c s n p around x0 dx nx y0 dy ny x y i j,
  (forall s, In s files -> framed fr (slon s)) -> (forall q, In q pts -> -360 <= fst q <= 540) ->
  extract_series src Bilinear sc files pts = Ok out ->
  nth_error files c = Some s -> sheet_grid around x0 dx nx y0 dy ny s ->
  nth_error pts n = Some p -> placed fr (fst p) = x -> snd p = y ->
  reached (behind src) around nx i -> reached (behind src) around nx (i + 1) -> (S j < ny)%nat ->
  between_nodes Heights x0 dx y0 dy x y i j -> at_node Heights x0 dx y0 dy x y i j ->
  exists a b cs r, (a = i \/ a = i + 1)%Z /\ (b = j \/ b = S j) /\
    ExtractSpec.close x (node_x Heights x0 dx a) /\ ExtractSpec.close y (node_y Heights y0 dy b) /\
    (x = node_x Heights x0 dx i -> y = node_y Heights y0 dy j -> a = i /\ b = j) /\
    nth_error out c = Some cs /\ length cs = length pts /\ nth_error cs n = Some r /\
    scaled sc (valid (entry (None, true) (shc s) b (column nx a))) r.
Proof.
  intros src sc fr files pts out c s n p around x0 dx nx y0 dy ny x y i j Hf Hp H Hc G Hn Ex Ey Ri Ri1 Hj B NA.
  destruct (series_inv _ _ _ _ _ _ _ _ _ _ _ _ _ _ _ _ _ _ Hf Hp H Hc G Hn) as (e & cs & r & Hx & Hlat & Rh & Nh & O1 & O2 & O3 & O4). rewrite Ex, Ey in O4.
  destruct G as (Gx & Gy & Nx & Ny & Rs & Ga). rewrite <- Hlat in Gy.
  assert (0 < dx) by apply Gx. assert (0 < dy) by apply Gy.
  destruct (cell_inside src around x0 dx nx y0 dy ny x y i j) as [I1 I2]; auto; [destruct B as (B1 & B2 & _); lra|destruct B as (B1 & B2 & _); lra|].
  unfold sheet_constant in O4. rewrite (inside_sheet src around x0 dx nx y0 dy ny) in O4 by auto. cbn [bind] in O4.
  destruct (st_node (bef around) (aft src around) nx ny x0 dx y0 dy (slon e) (slat e) Hx Gy Nx Ny (map (map (blank src)) (shc e)) (fun j i => valid (entry (None, true) (shc s) j i)) (map_rect _ _ _ _ Rh) x y i j) as (h & a & b & Eh & Ka & Kb & C1 & C2 & C3 & Kh); auto.
  - intros j' i' Hj' Hi'. rewrite (map_entry (blank src) ny (bef around + nx + aft src around) (shc e) (None, true)) by (auto; now apply ec_lt). rewrite Nh by auto. apply blank_value.
  - now apply within_reached.
  - now apply within_reached.
  - exists a, b, cs, r. repeat (split; [assumption|]). rewrite Eh in O4. cbn [bind] in O4. apply Ok_inj in O4 as <-. rewrite <- Kh. apply settled_kept.
Qed.
Print Assumptions C69_node.

(** ** C69: with splines, the bilinear interpolant of the four nodes around, none if one that
    counts is masked; GOT takes points outside of the model at its nearest edge *)
Theorem C69_spline : forall src sc fr files pts out c s n p around x0 dx nx y0 dy ny x y i j,
  (forall s, In s files -> framed fr (slon s)) -> (forall q, In q pts -> -360 <= fst q <= 540) ->
  extract_series src Spline sc files pts = Ok out ->
  nth_error files c = Some s -> sheet_grid around x0 dx nx y0 dy ny s -> numbers ny nx s ->
  nth_error pts n = Some p ->
  nearest_within (node_x Heights x0 dx (first_of around)) (node_x Heights x0 dx (last_of (behind src) around nx)) (placed fr (fst p)) = x ->
  nearest_within y0 (y0 + INR (ny - 1) * dy) (snd p) = y ->
  (src = FES -> placed fr (fst p) = x /\ snd p = y) ->
  reached (behind src) around nx i -> reached (behind src) around nx (i + 1) -> (S j < ny)%nat ->
  bracket (i + 1 = last_of (behind src) around nx)%Z (node_x Heights x0 dx i) (node_x Heights x0 dx (i + 1)) x ->
  bracket (S (S j) = ny) (node_y Heights y0 dy j) (node_y Heights y0 dy (S j)) y ->
  let z := corners Heights x0 dx y0 dy nx x y i j (fun j i => valid (entry (None, true) (shc s) j i)) in
  exists cs r, nth_error out c = Some cs /\ length cs = length pts /\ nth_error cs n = Some r /\
    (complete z -> both (mean (part fst z)) (mean (part snd z)) <> None /\ scaled sc (both (mean (part fst z)) (mean (part snd z))) r) /\ (~ complete z -> r = None).
Proof.
  intros src sc fr files pts out c s n p around x0 dx nx y0 dy ny x y i j Hf Hp H Hc G Hv Hn Ex Ey Hfes Ri Ri1 Hj Bx By z.
  destruct (series_inv _ _ _ _ _ _ _ _ _ _ _ _ _ _ _ _ _ _ Hf Hp H Hc G Hn) as (e & cs & r & Hx & Hlat & Rh & Nh & O1 & O2 & O3 & O4).
  exists cs, r. repeat (split; [assumption|]). destruct G as (Gx & Gy & Nx & Ny & Rs & Ga). rewrite <- Hlat in Gy.
  assert (0 < dx) by apply Gx. assert (0 < dy) by apply Gy.
  destruct (bracket_le _ _ _ _ Bx) as [Bx1 Bx2]. destruct (bracket_le _ _ _ _ By) as [By1 By2].
  destruct (cell_inside src around x0 dx nx y0 dy ny x y i j) as [I1 I2]; auto.
  assert (O5 : outside_sheet src (slon e) (slat e) (placed fr (fst p), snd p) = Ok false).
  { destruct src; [|reflexivity]. destruct (Hfes eq_refl) as [-> ->]. apply (inside_sheet FES around x0 dx nx y0 dy ny); auto. }
  unfold sheet_constant in O4. rewrite O5 in O4. cbn [bind] in O4.
  destruct (st_axes (bef around) (aft src around) nx ny x0 dx y0 dy (slon e) (slat e) Hx Gy Nx Ny) as [A1 A2].
  assert (E1 : nth 0 (slon e) 0 = node_x Heights x0 dx (first_of around)).
  { destruct Hx as (_ & _ & E). rewrite E by lia. unfold node_x, first_of, bef. destruct around; cbn [INR]; lra. }
  assert (E2 : nth (length (slon e) - 1) (slon e) 0 = node_x Heights x0 dx (last_of (behind src) around nx)).
  { rewrite <- (ec_x (bef around) (aft src around) nx x0 dx (slon e) Hx) by (unfold within, last_of, bef, aft, behind; destruct around, src; lia).
    f_equal. destruct Hx as (_ & -> & _). unfold ec, last_of, bef, aft, behind. destruct around, src; lia. }
  assert (E3 : nth 0 (slat e) 0 = y0) by (destruct Gy as (_ & _ & E); rewrite E by lia; cbn; lra).
  assert (E4 : nth (length (slat e) - 1) (slat e) 0 = y0 + INR (ny - 1) * dy) by (destruct Gy as (_ & L & E); rewrite L, E by lia; reflexivity).
  unfold cspline in O4. rewrite spline_clamped, E1, E2, E3, E4 in O4 by auto. change clamp with nearest_within in O4. rewrite Ex, Ey in O4.
  change (gspline_point (0, 0) cadd cscale) with cspline in O4.
  destruct (st_spline (bef around) (aft src around) nx ny x0 dx y0 dy (slon e) (slat e) Hx Gy Nx Ny (shc e) (fun j i => valid (entry (None, true) (shc s) j i)) Rh x y i j) as (v & m & Es & Zc & Zn); auto.
  - intros j' i' Hj' Hi'. rewrite Nh by auto. apply Hv; auto. now apply column_lt.
  - intros j' i' Hj' Hi'. now rewrite Nh by auto.
  - now apply within_reached.
  - now apply within_reached.
  - destruct Bx as [Bx|[K Bx]]; [now left|right]. split; auto. unfold last_of, behind, aft, reached in *. destruct around, src; lia.
  - rewrite Es in O4. cbn [bind] in O4. apply Ok_inj in O4 as <-. unfold settled. cbn [fst snd]. rewrite orb_false_r. split.
    + intros K. destruct (Zc K) as [-> Ez]. change (both (mean (part fst z)) (mean (part snd z)) = Some v) in Ez. rewrite Ez. split; [discriminate|]. cbn. exists (cabs v), (phase_of v). split; [apply phase_of_spec|reflexivity].
    + intros K. now rewrite (Zn K).
Qed.
Print Assumptions C69_spline.
