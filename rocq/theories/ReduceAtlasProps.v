(** C93: reducing ATLAS-compact grids to a region.
    Code: scripts/reduce_OTIS_files.py:95-136, pyTMD/io/OTIS.py:1498-1688. *)
From Coq Require Import Reals ZArith List Bool Lra Lia.
From Verif Require Import PyBase RBase GeoModel GridModel InterpModel InterpProps ExtractModel ExtractSpec MergeModel MergeSpec MergeProps ReduceModel ReduceSpec ReduceProofs ReduceProps ReduceAtlasModel.
From Verif Require ComputeModel NodeProps.
Import ListNotations.
Open Scope R_scope.

(** the centres of the cells of the combined grid *)
Definition meridians : list R := map east (seq 0 nlon).
Definition parallels : list R := map north (seq 0 nlat).
Lemma x30_meridians : x30 = meridians. Proof. reflexivity. Qed.
Lemma y30_parallels : y30 = parallels. Proof. reflexivity. Qed.
Local Opaque cols rows nlon nlat.
Lemma spacing30 s n : (2 <= n)%nat -> spacing (arange30 s n) = Ok arc2.
Proof.
  intros H. destruct n as [|[|n]]; try lia. unfold arange30. cbn [seq map spacing INR]. f_equal.
  change d30 with arc2. rewrite Rabs_right; unfold arc2; lra.
Qed.
Lemma cols_many : (2 <= cols)%nat. Proof. Transparent cols. unfold cols, per. Opaque cols. lia. Qed.
Lemma rows_many : (2 <= rows)%nat. Proof. Transparent rows. unfold rows, per. Opaque rows. lia. Qed.

Lemma taken_prod {A} (d : A) m J I : taken d m (list_prod J I) = concat (map (fun j => map (fun i => nth i (nth j m []) d) I) J).
Proof. unfold taken. induction J as [|j J IH]; [reflexivity|]. cbn [list_prod map concat]. rewrite map_app, IH, map_map. reflexivity. Qed.
Lemma taken_part {A} (d : A) lx hx ly hy xi yi m : rect (length yi) (length xi) m ->
  map (fun j => map (fun i => nth i (nth j m []) d) (places lx hx xi)) (places ly hy yi) = restricted lx hx ly hy xi yi m.
Proof.
  intros [L F]. unfold restricted. rewrite <- (places_kept [] ly hy yi m L), map_map. apply map_ext_in. intros j Hj. apply places_kept.
  unfold places in Hj. apply filter_In in Hj as [Hj _]. apply in_seq in Hj. apply F. apply nth_In. lia.
Qed.
Lemma reshape_rows {A} ny nx (m : list (list A)) : rect ny nx m -> ComputeModel.reshape ny nx (concat m) = Ok m.
Proof.
  intros [<- F]. unfold ComputeModel.reshape.
  assert (L : length (concat m) = (length m * nx)%nat).
  { induction m as [|r m IH]; [reflexivity|]. cbn [concat length]. rewrite app_length, (F r) by now left. rewrite IH by (intros; apply F; now right). reflexivity. }
  rewrite L, Nat.eqb_refl. f_equal. clear L. induction m as [|r m IH]; [reflexivity|]. cbn [concat length ComputeModel.chunks].
  assert (Lr : length r = nx) by (apply F; now left).
  rewrite firstn_app, skipn_app, Lr, Nat.sub_diag, firstn_O, app_nil_r. cbn [skipn]. rewrite <- Lr at 1. rewrite firstn_all.
  rewrite <- Lr at 2. rewrite skipn_all. cbn [app]. now rewrite IH by (intros; apply F; now right).
Qed.
Lemma restricted_map {A B} (f : A -> B) lx hx ly hy xi yi m :
  restricted lx hx ly hy xi yi (map (map f) m) = map (map f) (restricted lx hx ly hy xi yi m).
Proof.
  assert (K : forall (C D : Type) (g : C -> D) lo hi ax l, kept lo hi ax (map g l) = map g (kept lo hi ax l)).
  { clear. intros C D g lo hi ax. unfold kept. induction ax as [|x ax IH]; intros [|y l]; try reflexivity. cbn [map combine filter fst].
    destruct (in_box lo hi x); cbn [map snd]; now rewrite IH. }
  unfold restricted. rewrite K, !map_map. apply map_ext. intros r. apply K.
Qed.

(** *** C93: where some cells of the combined grid have their centres in the box (whose edges are
    the least and greatest coordinates of its corners), the reduced arrays are the parts of the
    combined depths and of the combined mask at these cells, and the limits are their outer edges. *)
Theorem C93_atlas : forall (corner : R * R -> R * R) a b c d x0 y0 hz0 mz0 z ls px dx py dy lx hx ly hy,
  axis x0 -> axis y0 -> values z (length y0) (length x0) hz0 -> rect (length y0) (length x0) mz0 ->
  evenly px dx (length x0) x0 -> evenly py dy (length y0) y0 ->
  (forall l, In l ls -> exists ny nx, local_rect l ny nx) ->
  bounds_of (map fst (map corner [(a, c); (b, c); (b, d); (a, d)])) lx hx ->
  bounds_of (map snd (map corner [(a, c); (b, c); (b, d); (a, d)])) ly hy ->
  let X := filter (in_box lx hx) meridians in let Y := filter (in_box ly hy) parallels in
  X <> [] -> Y <> [] ->
  exists hz mz r, combine_atlas_model x0 y0 hz0 ls = Ok hz /\ create_atlas_mask x0 y0 mz0 ls = Ok mz
    /\ reduced_atlas corner a b c d x0 y0 hz0 mz0 ls = Ok r
    /\ r_xlim r = (hd 0 X - arc2 / 2, last X 0 + arc2 / 2) /\ r_ylim r = (hd 0 Y - arc2 / 2, last Y 0 + arc2 / 2)
    /\ r_hz r = restricted lx hx ly hy meridians parallels hz
    /\ r_mz r = map (map fst) (restricted lx hx ly hy meridians parallels mz).
Proof.
  intros corner a b c d x0 y0 hz0 mz0 z ls px dx py dy lx hx ly hy A1 A2 V Rm Ex Ey Hl Bx By X Y NX NY.
  destruct (C66_combine x0 y0 hz0 z ls A1 A2 V Hl) as (hz & Ehz & Rhz & _).
  destruct (C66_mask R ls x0 y0 mz0 px dx py dy Ex Ey (proj1 A1) (proj1 A2) Rm Hl) as (mz & Emz & Rmz & _).
  change nlat with rows in *. change nlon with cols in *.
  rewrite <- x30_length, <- y30_length in Rhz, Rmz.
  set (I := places lx hx x30). set (J := places ly hy y30).
  assert (EI : map (fun i => nth i x30 0) I = X) by (unfold X; rewrite <- x30_meridians; apply kept_places).
  assert (EJ : map (fun i => nth i y30 0) J = Y) by (unfold Y; rewrite <- y30_parallels; apply kept_places).
  assert (NI : I <> []) by (intros H; apply NX; rewrite <- EI, H; reflexivity).
  assert (NJ : J <> []) by (intros H; apply NY; rewrite <- EJ, H; reflexivity).
  exists hz, mz. eexists. split; [exact Ehz|]. split; [exact Emz|].
  assert (Sh : forall (A : Type) (m : list (list A)), rect (length y30) (length x30) m -> rect (length Y) (length X) (restricted lx hx ly hy x30 y30 m)).
  { intros A m [L F]. destruct (restricted_shape lx hx ly hy x30 y30 m L) as [S1 S2]; [apply Forall_forall; auto|]. unfold X, Y. rewrite <- x30_meridians, <- y30_parallels.
    split; [exact S1|]. rewrite Forall_forall in S2. exact S2. }
  split.
  - unfold reduced_atlas. rewrite Ehz, Emz. cbn [bind]. cbv zeta.
    rewrite (five_bounds corner a b c d fst lx hx Bx), (five_bounds corner a b c d snd ly hy By).
    rewrite nodes_prod. cbn [fst snd]. fold I J.
    rewrite (filter_ext (inside (lx, hx)) (in_box lx hx)) by (intros; apply inside_in_box).
    rewrite (filter_ext (inside (ly, hy)) (in_box ly hy)) by (intros; apply inside_in_box).
    replace (filter (in_box lx hx) x30) with X by (unfold X; now rewrite <- x30_meridians).
    replace (filter (in_box ly hy) y30) with Y by (unfold Y; now rewrite <- y30_parallels).
    replace (spacing x30) with (Ok arc2 : res R) by (symmetry; apply spacing30, cols_many).
    replace (spacing y30) with (Ok arc2 : res R) by (symmetry; apply spacing30, rows_many). cbn [bind].
    rewrite !taken_prod, concat_map. unfold I, J. rewrite !taken_part by assumption. fold I J.
    rewrite (reshape_rows _ _ (restricted lx hx ly hy x30 y30 hz)) by (now apply Sh).
    rewrite (reshape_rows _ _ (map (map fst) (restricted lx hx ly hy x30 y30 mz))) by (apply NodeProps.map_rect; now apply Sh). cbn [bind].
    destruct (list_prod J I) as [|first others] eqn:EP.
    { exfalso. destruct J as [|j J']; [now elim NJ|]. destruct I as [|i I']; [now elim NI|]. discriminate EP. }
    assert (E1 : first = (hd 0%nat J, hd 0%nat I)).
    { destruct J as [|j J']; [now elim NJ|]. destruct I as [|i I']; [now elim NI|]. cbn in EP. now injection EP as <- _. }
    rewrite <- EP, (last_prod J I 0%nat 0%nat NJ NI), E1. cbn [fst snd].
    assert (Hh1 : forall (K : list nat) (ax l : list R), K <> [] -> map (fun i => nth i ax 0%R) K = l -> nth (hd 0%nat K) ax 0%R = hd 0%R l /\ nth (last K 0%nat) ax 0%R = last l 0%R).
    { clear. intros K ax l N <-. split; [destruct K; [now elim N|reflexivity]|]. symmetry. now apply (last_map (fun i => nth i ax 0%R) K 0%nat). }
    destruct (Hh1 I x30 X NI EI) as [-> ->]. destruct (Hh1 J y30 Y NJ EJ) as [-> ->]. reflexivity.
  - rewrite <- x30_meridians, <- y30_parallels. cbn [r_xlim r_ylim r_hz r_mz]. repeat split; reflexivity.
Qed.
Print Assumptions C93_atlas.

Lemma meridian_positive x : In x meridians -> arc2 / 2 <= x.
Proof.
  intros H. apply in_map_iff in H as (i & <- & _). unfold east. pose proof (Rmult_le_pos _ _ (pos_INR i) (ltac:(unfold arc2; lra) : 0 <= arc2)). lra.
Qed.

(** *** C93: a box whose eastern edge is west of the first meridian of the grid (all boxes in
    western longitudes, where these are negative) is an IndexError, though the grid goes around the globe. *)
Theorem C93_atlas_west_refuted : forall (corner : R * R -> R * R) a b c d x0 y0 hz0 mz0 z ls px dx py dy lx hx ly hy,
  axis x0 -> axis y0 -> values z (length y0) (length x0) hz0 -> rect (length y0) (length x0) mz0 ->
  evenly px dx (length x0) x0 -> evenly py dy (length y0) y0 ->
  (forall l, In l ls -> exists ny nx, local_rect l ny nx) ->
  bounds_of (map fst (map corner [(a, c); (b, c); (b, d); (a, d)])) lx hx ->
  bounds_of (map snd (map corner [(a, c); (b, c); (b, d); (a, d)])) ly hy ->
  hx <= 0 -> reduced_atlas corner a b c d x0 y0 hz0 mz0 ls = Err IndexError.
Proof.
  intros corner a b c d x0 y0 hz0 mz0 z ls px dx py dy lx hx ly hy A1 A2 V Rm Ex Ey Hl Bx By Hw.
  destruct (C66_combine x0 y0 hz0 z ls A1 A2 V Hl) as (hz & Ehz & _ & _).
  destruct (C66_mask R ls x0 y0 mz0 px dx py dy Ex Ey (proj1 A1) (proj1 A2) Rm Hl) as (mz & Emz & _ & _).
  unfold reduced_atlas. rewrite Ehz, Emz. cbn [bind]. cbv zeta.
  rewrite (five_bounds corner a b c d fst lx hx Bx), (five_bounds corner a b c d snd ly hy By).
  replace (spacing x30) with (Ok arc2 : res R) by (symmetry; apply spacing30, cols_many).
  replace (spacing y30) with (Ok arc2 : res R) by (symmetry; apply spacing30, rows_many). cbn [bind].
  rewrite nodes_prod. cbn [fst snd].
  assert (E : places lx hx x30 = []).
  { destruct (places lx hx x30) as [|i t] eqn:Ep; [reflexivity|]. exfalso. assert (Hi : In i (places lx hx x30)) by (rewrite Ep; now left).
    unfold places in Hi. apply filter_In in Hi as [Hi B]. apply in_seq in Hi.
    assert (M : In (nth i x30 0) meridians) by (rewrite <- x30_meridians; apply nth_In; lia).
    apply meridian_positive in M. unfold in_box in B. destruct (Rle_dec lx _); [|discriminate B]. destruct (Rle_dec _ hx); [|discriminate B]. unfold arc2 in M. lra. }
  rewrite E. assert (P : forall K : list nat, list_prod K (@nil nat) = []) by (clear; induction K; cbn; auto). now rewrite P.
Qed.
Print Assumptions C93_atlas_west_refuted.

(** *** C93: of a box across Greenwich only the eastern part is kept: its western limit is 0. *)
Theorem C93_atlas_greenwich_refuted : forall (corner : R * R -> R * R) a b c d x0 y0 hz0 mz0 z ls px dx py dy lx hx ly hy,
  axis x0 -> axis y0 -> values z (length y0) (length x0) hz0 -> rect (length y0) (length x0) mz0 ->
  evenly px dx (length x0) x0 -> evenly py dy (length y0) y0 ->
  (forall l, In l ls -> exists ny nx, local_rect l ny nx) ->
  bounds_of (map fst (map corner [(a, c); (b, c); (b, d); (a, d)])) lx hx ->
  bounds_of (map snd (map corner [(a, c); (b, c); (b, d); (a, d)])) ly hy ->
  lx < 0 -> arc2 / 2 <= hx -> (exists j, (j < nlat)%nat /\ ly <= north j <= hy) ->
  exists r, reduced_atlas corner a b c d x0 y0 hz0 mz0 ls = Ok r /\ fst (r_xlim r) = 0.
Proof.
  intros corner a b c d x0 y0 hz0 mz0 z ls px dx py dy lx hx ly hy A1 A2 V Rm Ex Ey Hl Bx By Hw He (j & Hj & Nj).
  assert (EX : exists t, filter (in_box lx hx) meridians = arc2 / 2 :: t).
  { unfold meridians. pose proof cols_many as C. change cols with nlon in C. destruct nlon as [|n]; [lia|]. cbn [seq map filter].
    assert (E0 : east 0 = arc2 / 2) by (unfold east; cbn [INR]; ring). rewrite E0.
    replace (in_box lx hx (arc2 / 2)) with true; [eauto|]. unfold in_box. destruct (Rle_dec lx _) as [|N]; [destruct (Rle_dec _ hx); [reflexivity|contradiction]|]. elim N. unfold arc2. lra. }
  destruct EX as (t & EX).
  assert (NY : filter (in_box ly hy) parallels <> []).
  { intros E. assert (H : In (north j) (filter (in_box ly hy) parallels)); [|rewrite E in H; destruct H]. apply filter_In. split; [apply in_map_iff; exists j; split; [reflexivity|apply in_seq; lia]|].
    unfold in_box. destruct (Rle_dec ly _) as [|N]; [destruct (Rle_dec _ hy) as [|N]; [reflexivity|]|]; elim N; lra. }
  destruct (C93_atlas corner a b c d x0 y0 hz0 mz0 z ls px dx py dy lx hx ly hy A1 A2 V Rm Ex Ey Hl Bx By) as (hz & mz & r & _ & _ & E & L & _); [rewrite EX; discriminate|exact NY|].
  exists r. split; [exact E|]. rewrite L, EX. cbn [fst hd]. unfold arc2. lra.
Qed.
Print Assumptions C93_atlas_greenwich_refuted.

(** the coarse grid of C66 with its local solution, reduced to ten degrees about Greenwich *)
Lemma coarse_even : evenly 90 180 2 coarse_x /\ evenly (-45) 90 2 coarse_y.
Proof. split; (split; [lra|split; [reflexivity|]]; intros [|[|i]] H; try lia; cbn; lra). Qed.
Lemma box_bounds w e s n : w <= e -> s <= n -> bounds_of (map fst [(w, s); (e, s); (e, n); (w, n)]) w e /\ bounds_of (map snd [(w, s); (e, s); (e, n); (w, n)]) s n.
Proof. intros H H'. split; (split; [cbn; tauto|split; [cbn; tauto|]]; cbn [map fst snd]; repeat (apply Forall_cons; [lra|]); apply Forall_nil). Qed.
Example C93_atlas_case :
  reduced_atlas (fun p => p) (-10) (-5) 0 5 coarse_x coarse_y coarse_z [[1; 1]; [0; 1]]%Z [patch] = Err IndexError
  /\ exists r, reduced_atlas (fun p => p) (-5) 5 (-1) 1 coarse_x coarse_y coarse_z [[1; 1]; [0; 1]]%Z [patch] = Ok r /\ fst (r_xlim r) = 0.
Proof.
  destruct coarse_ok as (A1 & A2 & V). destruct coarse_even as [E1 E2].
  assert (Rm : rect (length coarse_y) (length coarse_x) [[1; 1]; [0; 1]]%Z) by (split; [reflexivity|intros r [<-|[<-|[]]]; reflexivity]).
  assert (P : forall l, In l [patch] -> exists ny nx, local_rect l ny nx) by (intros l [<-|[]]; exists 1%nat, 2%nat; apply patch_ok).
  split.
  - destruct (box_bounds (-10) (-5) 0 5 ltac:(lra) ltac:(lra)) as [B1 B2].
    apply (C93_atlas_west_refuted (fun p => p) (-10) (-5) 0 5 coarse_x coarse_y coarse_z _ _ [patch] 90 180 (-45) 90 (-10) (-5) 0 5 A1 A2 V Rm E1 E2 P B1 B2). lra.
  - destruct (box_bounds (-5) 5 (-1) 1 ltac:(lra) ltac:(lra)) as [B1 B2].
    apply (C93_atlas_greenwich_refuted (fun p => p) (-5) 5 (-1) 1 coarse_x coarse_y coarse_z _ _ [patch] 90 180 (-45) 90 (-5) 5 (-1) 1 A1 A2 V Rm E1 E2 P B1 B2); [lra|unfold arc2; lra|].
    exists 2700%nat. assert (Er : Z.of_nat nlat = 5400%Z) by (vm_compute; reflexivity). split; [lia|]. unfold north, arc2. rewrite INR_IZR_INZ. change (Z.of_nat 2700) with 2700%Z. lra.
Qed.
