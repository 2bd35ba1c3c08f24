(** C93: the files of reduced ATLAS-compact grids.
    Code: scripts/reduce_OTIS_files.py:95-139, pyTMD/io/OTIS.py:914-975, 1746-1811. *)
From Coq Require Import Reals ZArith List Bool Lra Lia.
From Verif Require Import PyBase RBase GeoModel GridModel InterpModel InterpProps ExtractModel ExtractSpec MergeModel MergeSpec MergeProps.
From Verif Require Import OtisModel OtisProofs OtisProps ReduceModel ReduceSpec ReduceProofs ReduceProofs2 ReduceProps ReduceAtlasModel ReduceAtlasProps ReduceAtlasModel2.
Import ListNotations.
Open Scope R_scope.
Local Opaque cols rows nlon nlat.

Lemma part_axis s n lo hi : let X := filter (in_box lo hi) (map (fun i => s + INR i * arc2) (seq 0 n)) in X <> [] ->
  ExtractModel.centres (hd 0 X - arc2 / 2, last X 0 + arc2 / 2) (length X) = X.
Proof.
  intros X. subst X. change (fun i => s + INR i * arc2) with (affine s arc2).
  destruct (affine_kept s arc2 n lo hi ltac:(unfold arc2; lra)) as (k & m & -> & _).
  destruct m as [|m]; [intros H; now elim H|]. intros _. rewrite affine_last by lia. rewrite map_length, seq_length.
  change (hd 0 (map (affine s arc2) (seq k (S m)))) with (affine s arc2 k). apply (affine_edges s arc2 k (S m)). lia.
Qed.

Lemma part_x lx hx : let X := filter (in_box lx hx) meridians in X <> [] -> ExtractModel.centres (hd 0 X - arc2 / 2, last X 0 + arc2 / 2) (length X) = X.
Proof. exact (part_axis (arc2 / 2) nlon lx hx). Qed.
Lemma part_y ly hy : let Y := filter (in_box ly hy) parallels in Y <> [] -> ExtractModel.centres (hd 0 Y - arc2 / 2, last Y 0 + arc2 / 2) (length Y) = Y.
Proof. exact (part_axis (-90 + arc2 / 2) nlat ly hy). Qed.
Lemma combined_shape x0 y0 hz0 z ls hz : axis x0 -> axis y0 -> MergeProps.values z (length y0) (length x0) hz0 ->
  (forall l, In l ls -> exists ny nx, local_rect l ny nx) -> combine_atlas_model x0 y0 hz0 ls = Ok hz -> rect (length parallels) (length meridians) hz.
Proof.
  intros A1 A2 V Hl Ehz. destruct (C66_combine x0 y0 hz0 z ls A1 A2 V Hl) as (hz' & E & R & _). rewrite Ehz in E. apply Ok_inj in E as <-.
  unfold parallels, meridians. rewrite !map_length, !seq_length. exact R.
Qed.
(** the file of a grid *)
Lemma written ny nx (D M : list (list Z)) w e s n iob dt : length D = ny -> Forall (fun q => length q = nx) D -> patterns (array D ny nx) ->
  pattern w -> pattern e -> pattern s -> pattern n -> pattern dt -> (forall p, In p iob -> int32 (fst p) /\ int32 (snd p)) -> fits nx ny (length iob) ->
  exists file raw, output_otis_grid (DT 4 true) (w, e) (s, n) (array D ny nx) (array M ny nx) (DT 4 true) iob dt = Ok file /\ run read_otis_grid file = Ok raw
    /\ g_nx raw = Z.of_nat nx /\ g_ny raw = Z.of_nat ny /\ g_xlim raw = [w; e] /\ g_ylim raw = [s; n] /\ g_hz raw = D
    /\ g_iob raw = map (fun p => [fst p; snd p]) iob /\ g_dt raw = dt
    /\ ((2 <= ny * nx)%nat -> exists k, concat (g_mz raw) = map signed32 (skipn 2 (concat (g_hz raw)) ++ [k; k])).
Proof.
  intros LD FD PD Pw Pe Ps Pn Pt Pi Ft.
  destruct (grid_read (DT 4 true) (w, e) (s, n) (array D ny nx) (array M ny nx) (DT 4 true) iob dt) as (file & Ef & Er'); try assumption; try reflexivity; try (split; assumption).
  rewrite (array_rows D _ _ LD FD) in Er'. cbn [array nx2 ny2 dt2] in Er'.
  replace (map (map (as_read (DT 4 true))) D) with D in Er' by (symmetry; rewrite <- (map_id D) at 2; apply map_ext; intros q; apply map_id).
  replace (map (fun p => [int_read (DT 4 true) (fst p); int_read (DT 4 true) (snd p)]) iob) with (map (fun p : Z * Z => [fst p; snd p]) iob) in Er'
    by (apply map_ext_in; intros p Hp; destruct (Pi p Hp); now rewrite !int_read_big).
  cbn [as_read big fst snd] in Er'.
  exists file. eexists. split; [exact Ef|]. split; [exact Er'|]. cbn [g_nx g_ny g_xlim g_ylim g_hz g_iob g_dt g_mz].
  do 7 (split; [reflexivity|]).
  intros N2. destruct (C35_mask_refuted (DT 4 true) (w, e) (s, n) (array D ny nx) (array M ny nx) (array M ny nx) (DT 4 true) iob dt)
     as (f1 & f2 & g1 & E1 & _ & E3 & _ & k & E5); try assumption; try reflexivity; try (split; assumption).
  rewrite Ef in E1. apply Ok_inj in E1 as <-. rewrite Er' in E3. apply Ok_inj in E3 as <-. cbn [g_mz] in E5. exists k.
  rewrite (array_rows D _ _ LD FD) in E5. exact E5.
Qed.
(** the arrays of a region and its file *)
Lemma region_file corner single depth a b c d x0 y0 hz0 mz0 ls iob dt r (X Y : list R) w e s n H :
  reduced_atlas corner a b c d x0 y0 hz0 mz0 ls = Ok r -> r_xlim r = (w, e) -> r_ylim r = (s, n) -> r_hz r = H ->
  length H = length Y -> Forall (fun q => length q = length X) H -> Y <> [] ->
  reduced_atlas_file corner single depth a b c d x0 y0 hz0 mz0 ls iob dt
    = output_otis_grid (DT 4 true) (single w, single e) (single s, single n) (array (map (map depth) H) (length Y) (length X)) (array (r_mz r) (length Y) (length X)) (DT 4 true) iob dt.
Proof.
  intros Er Lx Ly Hh S1 S2 NY. unfold reduced_atlas_file. rewrite Er. cbn [bind]. cbv zeta. rewrite Lx, Ly, Hh, S1.
  assert (LX : length (hd [] H) = length X). { destruct H as [|q t]; [destruct Y; [now elim NY|discriminate S1]|]. now inversion S2. }
  rewrite LX. reflexivity.
Qed.

(** the sizes of all regions fit in a record *)
Lemma filter_short {A} (f : A -> bool) l : (length (filter f l) <= length l)%nat.
Proof. induction l as [|x l IH]; cbn [filter length]; [lia|]. destruct (f x); cbn [length]; lia. Qed.
Lemma meridians_length : Z.of_nat (length meridians) = 10800%Z. Proof. unfold meridians. rewrite map_length, seq_length. vm_compute. reflexivity. Qed.
Lemma parallels_length : Z.of_nat (length parallels) = 5400%Z. Proof. unfold parallels. rewrite map_length, seq_length. vm_compute. reflexivity. Qed.
Lemma region_fits lx hx ly hy k : (8 * Z.of_nat k < 2 ^ 31)%Z -> fits (length (filter (in_box lx hx) meridians)) (length (filter (in_box ly hy) parallels)) k.
Proof.
  intros H. pose proof (filter_short (in_box lx hx) meridians) as H1. pose proof (filter_short (in_box ly hy) parallels) as H2.
  pose proof meridians_length as E1. pose proof parallels_length as E2.
  set (p := length (filter (in_box lx hx) meridians)) in *. set (q := length (filter (in_box ly hy) parallels)) in *.
  apply Nat2Z.inj_le in H1, H2. rewrite E1 in H1. rewrite E2 in H2. clearbody p q. clear E1 E2. unfold fits, int32. repeat split; nia.
Qed.

(** *** C93: the file of the reduced grid, read back, has as many nodes as there are cells of the
    combined grid with their centres in the box, the casts of their combined depths and of their
    outer edges; the centres between these edges are those of the cells.  In place of the mask
    it has the depths again, shifted by two (as in C35). *)
Theorem C93_atlas_file : forall (corner : R * R -> R * R) (single : R -> Z) (depth : option R -> Z) a b c d x0 y0 hz0 mz0 z ls px dx py dy lx hx ly hy iob dt,
  axis x0 -> axis y0 -> MergeProps.values z (length y0) (length x0) hz0 -> rect (length y0) (length x0) mz0 ->
  evenly px dx (length x0) x0 -> evenly py dy (length y0) y0 ->
  (forall l, In l ls -> exists ny nx, local_rect l ny nx) ->
  bounds_of (map fst (map corner [(a, c); (b, c); (b, d); (a, d)])) lx hx ->
  bounds_of (map snd (map corner [(a, c); (b, c); (b, d); (a, d)])) ly hy ->
  (forall v, pattern (single v)) -> (forall v, pattern (depth v)) -> pattern dt ->
  (forall p, In p iob -> int32 (fst p) /\ int32 (snd p)) ->
  let X := filter (in_box lx hx) meridians in let Y := filter (in_box ly hy) parallels in
  let west := hd 0 X - arc2 / 2 in let east := last X 0 + arc2 / 2 in
  let south := hd 0 Y - arc2 / 2 in let north := last Y 0 + arc2 / 2 in
  X <> [] -> Y <> [] -> (8 * Z.of_nat (length iob) < 2 ^ 31)%Z ->
  exists hz file raw, combine_atlas_model x0 y0 hz0 ls = Ok hz
    /\ reduced_atlas_file corner single depth a b c d x0 y0 hz0 mz0 ls iob dt = Ok file /\ run read_otis_grid file = Ok raw
    /\ g_nx raw = Z.of_nat (length X) /\ g_ny raw = Z.of_nat (length Y)
    /\ g_xlim raw = [single west; single east] /\ g_ylim raw = [single south; single north]
    /\ ExtractModel.centres (west, east) (length X) = X /\ ExtractModel.centres (south, north) (length Y) = Y
    /\ g_hz raw = map (map depth) (restricted lx hx ly hy meridians parallels hz)
    /\ g_iob raw = map (fun p => [fst p; snd p]) iob /\ g_dt raw = dt
    /\ ((2 <= length Y * length X)%nat -> exists n, concat (g_mz raw) = map signed32 (skipn 2 (concat (g_hz raw)) ++ [n; n])).
Proof.
  intros corner single depth a b c d x0 y0 hz0 mz0 z ls px dx py dy lx hx ly hy iob dt A1 A2 V Rm Ex Ey Hl Bx By Ps Pd Pt Pi X Y west east south north NX NY Ft.
  destruct (C93_atlas corner a b c d x0 y0 hz0 mz0 z ls px dx py dy lx hx ly hy A1 A2 V Rm Ex Ey Hl Bx By NX NY) as (hz & mz & r & Ehz & Emz & Er & Lx & Ly & Hh & Hm).
  destruct (combined_shape x0 y0 hz0 z ls hz A1 A2 V Hl Ehz) as [Rl Rr].
  destruct (restricted_shape lx hx ly hy meridians parallels hz Rl) as [S1 S2]; [apply Forall_forall; exact Rr|].
  pose proof (region_file corner single depth a b c d x0 y0 hz0 mz0 ls iob dt r X Y _ _ _ _ _ Er Lx Ly Hh S1 S2 NY) as Eout.
  destruct (written (length Y) (length X) (map (map depth) (restricted lx hx ly hy meridians parallels hz)) (r_mz r) (single west) (single east) (single south) (single north) iob dt)
    as (file & raw & Ef & Err & T).
  - rewrite map_length. exact S1.
  - apply Forall_map. eapply Forall_impl; [|exact S2]. intros q Hq. rewrite map_length. exact Hq.
  - apply array_patterns. apply Forall_map, Forall_forall. intros q _. apply Forall_map, Forall_forall. intros v _. apply Pd.
  - apply Ps.
  - apply Ps.
  - apply Ps.
  - apply Ps.
  - exact Pt.
  - exact Pi.
  - exact (region_fits lx hx ly hy (length iob) Ft).
  - exists hz, file, raw. split; [exact Ehz|]. split; [rewrite Eout; exact Ef|]. split; [exact Err|].
    destruct T as (T1 & T2 & T3 & T4 & T5 & T6 & T7 & T8).
    split; [exact T1|]. split; [exact T2|]. split; [exact T3|]. split; [exact T4|].
    split; [exact (part_x lx hx NX)|]. split; [exact (part_y ly hy NY)|]. split; [exact T5|]. split; [exact T6|]. split; [exact T7|exact T8].
Qed.
Print Assumptions C93_atlas_file.

(** five degrees east of Greenwich of the coarse grid of C66: the limits 0 and 5 are written as
    they are, with one open boundary node *)
Definition five : R -> Z := fun v => if rlt 0 v then 1084227584%Z else 0%Z.
Example C93_atlas_file_case : exists file raw,
  reduced_atlas_file (fun p => p) five (fun v => match v with Some x => five x | None => 2143289344%Z end) 0 5 (-1) 1 coarse_x coarse_y coarse_z [[1; 1]; [0; 1]]%Z [patch] [(1, 1)]%Z 1094713344 = Ok file
  /\ run read_otis_grid file = Ok raw /\ nth 0 (g_xlim raw) 7%Z = 0%Z /\ g_iob raw = [[1; 1]]%Z /\ (1 <= g_nx raw <= 10800)%Z.
Proof.
  destruct coarse_ok as (A1 & A2 & V). destruct coarse_even as [E1 E2].
  assert (Rm : rect (length coarse_y) (length coarse_x) [[1; 1]; [0; 1]]%Z) by (split; [reflexivity|intros r [<-|[<-|[]]]; reflexivity]).
  assert (P : forall l, In l [patch] -> exists ny nx, local_rect l ny nx) by (intros l [<-|[]]; exists 1%nat, 2%nat; apply patch_ok).
  destruct (box_bounds 0 5 (-1) 1 ltac:(lra) ltac:(lra)) as [B1 B2].
  assert (EX : exists t, filter (in_box 0 5) meridians = arc2 / 2 :: t).
  { unfold meridians. pose proof cols_many as C. change cols with nlon in C. destruct nlon as [|n]; [lia|]. cbn [seq map filter].
    assert (E0 : east 0 = arc2 / 2) by (unfold east; cbn [INR]; ring). rewrite E0.
    rewrite (proj2 (in_box_true 0 5 (arc2 / 2))) by (unfold arc2; lra). eauto. }
  destruct EX as (t & EX).
  assert (NY : filter (in_box (-1) 1) parallels <> []).
  { intros E. assert (H : In (north 2700) (filter (in_box (-1) 1) parallels)); [|rewrite E in H; destruct H].
    assert (Er : Z.of_nat nlat = 5400%Z) by (vm_compute; reflexivity).
    apply filter_In. split; [apply in_map_iff; exists 2700%nat; split; [reflexivity|apply in_seq; lia]|].
    apply in_box_true. unfold north, arc2. rewrite INR_IZR_INZ. change (Z.of_nat 2700) with 2700%Z. lra. }
  assert (Pf : forall v, pattern (five v)) by (intros v; unfold five; destruct (rlt 0 v); unfold pattern; lia).
  destruct (C93_atlas_file (fun p => p) five (fun v => match v with Some x => five x | None => 2143289344%Z end) 0 5 (-1) 1 coarse_x coarse_y coarse_z _ _ [patch] 90 180 (-45) 90 0 5 (-1) 1 [(1, 1)]%Z 1094713344%Z
    A1 A2 V Rm E1 E2 P B1 B2 Pf) as (hz & file & raw & _ & Ef & Er & Nx & _ & Lx & _ & _ & _ & _ & Ib & _).
  - intros [x|]; [apply Pf|unfold pattern; lia].
  - unfold pattern. lia.
  - intros p [<-|[]]. unfold int32. cbn [fst snd]. lia.
  - rewrite EX. discriminate.
  - exact NY.
  - cbn [length]. lia.
  - exists file, raw. split; [exact Ef|]. split; [exact Er|]. split.
    + rewrite Lx, EX. cbn [nth hd]. unfold five, rlt. destruct (Rlt_dec 0 _) as [H|]; [unfold arc2 in H; lra|reflexivity].
    + split; [exact Ib|]. rewrite Nx. pose proof (filter_short (in_box 0 5) meridians) as H1. apply Nat2Z.inj_le in H1. rewrite meridians_length in H1.
      rewrite EX in *. cbn [length] in *. lia.
Qed.
