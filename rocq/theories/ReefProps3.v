(** C88: cropped ATLAS models. *)
From Coq Require Import Reals List Bool Arith ZArith Lra Lia.
From Verif Require Import PyBase RBase MathModel GeoModel ConvertProps GridModel InterpModel InterpProps ExtrapProps ExtractModel ExtractSpec NodeProps ExtractProofs ExtractProps SplineProps ReturnProps SeriesModel SeriesSpec SeriesProofs SeriesProps SeriesProps2 SeriesProps3 StretchProofs AtlasNcModel AtlasNcSpec AtlasNcProps AtlasNcProps2 AtlasNcProps3 RegularModel RegularProps3 CropModel CropSpec CropProofs CropProps ShoreModel ShoreSpec ShoreProofs ShoreProps NarrowModel NarrowSpec NarrowProofs NarrowProps NarrowProps4 ReefModel ReefSpec ReefProofs ReefProps ReefProps2.
Import ListNotations.
Open Scope R_scope.

(** ** The smaller model *)
Definition cut_parts (nx : nat) (a : Z) (na c nr : nat) (p : parts) : parts :=
  (built na nr (fun i j => entry None (fst p) (column nx (a + Z.of_nat i)) (c + j)), built na nr (fun i j => entry None (snd p) (column nx (a + Z.of_nat i)) (c + j))).
Definition cut_file (nx : nat) (a : Z) (na c nr : nat) (f : tide_file) : tide_file :=
  let cut := option_map (cut_parts nx a na c nr) in TideFile na nr (tname f) (tencoded f) (cut (th f)) (cut (tu f)) (cut (tv f)).
Lemma cut_for nx a na c nr f t pa : parts_for f t (Some pa) -> parts_for (cut_file nx a na c nr f) t (Some (cut_parts nx a na c nr pa)).
Proof.
  intros H. inversion H as [E1 E2|E1 E2|E1 E2|E1 E2|E1 E2];
    (replace (Some (cut_parts nx a na c nr pa)) with (option_map (cut_parts nx a na c nr) (Some pa)) by reflexivity); rewrite <- E2.
  - apply (Parts_z (cut_file nx a na c nr f)). - apply (Parts_u (cut_file nx a na c nr f)). - apply (Parts_U (cut_file nx a na c nr f)).
  - apply (Parts_v (cut_file nx a na c nr f)). - apply (Parts_V (cut_file nx a na c nr f)).
Qed.
Lemma cut_grid nx a na c nr f pa : file_grid na nr (cut_file nx a na c nr f) (cut_parts nx a na c nr pa).
Proof. split; [reflexivity|]. split; apply (built_cells None). Qed.
Lemma cut_block nx a na c nr pa : parts_block nx a na c nr pa (cut_parts nx a na c nr pa).
Proof.
  intros j i Hj Hi. unfold number_of, cut_parts. cbn [fst snd].
  now rewrite (proj2 (built_cells (V := option R) None na nr _) i j), (proj2 (built_cells (V := option R) None na nr _) i j).
Qed.
Lemma block_cells {V} (d : V) nx a na c nr ny C m m' : (1 <= nx)%nat -> (c + nr <= ny)%nat -> cells d ny nx C m -> block d nx a na c nr m m' ->
  cells d nr na (fun j i => C (c + j)%nat (column nx (a + Z.of_nat i))) m'.
Proof.
  intros Hx Hc [R1 E] [R2 B]. split; auto. intros j i Hj Hi. rewrite B by auto. apply E; [lia|]. unfold column. pose proof (Z.mod_pos_bound (a + Z.of_nat i) (Z.of_nat nx)). lia.
Qed.
Lemma mapM_cut {A B} (F G : A -> res B) (h : A -> A) l : (forall x, In x l -> F x = G (h x)) -> mapM F l = mapM G (map h l).
Proof. induction l as [|x l IH]; intros H; [reflexivity|]. cbn [mapM map]. rewrite (H x) by now left. rewrite IH by (intros y Hy; apply H; now right). reflexivity. Qed.

(** the files all have the variable, with a value at each node *)
Definition files_grid (t : variable) (nx ny : nat) (files : list tide_file) : Prop :=
  forall f, In f files -> exists pa, parts_for f t (Some pa) /\ file_grid nx ny f pa.
(** the rows and columns of an ATLAS model within the bounds *)
Definition smaller_model (t : variable) (around : bool) (x0 dx : R) (nx : nat) (y0 dy : R) (ny : nat) (b : limits) (m : R) (f : Z) (nd : nodes) (files : list tide_file)
    (around' : bool) (a : Z) (na c nr : nat) (g' : grid_file) (nd' : nodes) (files' : list tide_file) : Prop :=
  columns_kept x0 dx nx (x_min b) (x_max b) m f a na /\ rows_kept y0 dy ny (y_min b) (y_max b) m c nr /\ (around' = true <-> around = true /\ na = nx) /\
  nodes_for g' t nd' /\ fny g' = nr /\ nodes_grid around' (node_x Heights x0 dx a) dx na (node_y Heights y0 dy c) dy nr nd' /\ nodes_block nx a na c nr nd nd' /\
  length files' = length files /\
  forall k fl pa, nth_error files k = Some fl -> parts_for fl t (Some pa) -> file_grid nx ny fl pa ->
    exists fl' pa', nth_error files' k = Some fl' /\ parts_for fl' t (Some pa') /\ file_grid na nr fl' pa' /\ read_name fl' = read_name fl /\ parts_block nx a na c nr pa pa'.

Definition one_grid (na nr : nat) (nd : nodes) : grid_file := GridFile na nr nd nd nd.
Lemma one_for na nr nd t : t <> Vother -> nodes_for (one_grid na nr nd) t nd.
Proof.
  intros H. destruct t; try congruence.
  - exact (For_z (one_grid na nr nd)). - exact (For_u (one_grid na nr nd)). - exact (For_U (one_grid na nr nd)). - exact (For_v (one_grid na nr nd)). - exact (For_V (one_grid na nr nd)).
Qed.
Lemma reef_start w t sc ex bounds buffer b m g nd files pts around x0 dx nx y0 dy ny h : nodes_for g t nd -> fny g = ny -> nodes_grid around x0 dx nx y0 dy ny nd -> pts <> [] ->
  for_points bounds pts b -> some_limit b -> margin buffer dx m -> read_netcdf_grid t g = Ok (nlon nd, nlat nd, h) ->
  extract_reef w t sc ex true bounds buffer g files pts =
  do c <- crop_matrix true b m h (nlon nd) (nlat nd) ;;
  reef_from w t sc ex dx (snd (fst c)) (snd c) (fst (fst c)) (fun hc => do k <- crop_matrix true b m hc (nlon nd) (nlat nd) ;; Ok (fst (fst k))) files pts.
Proof.
  intros Hn Hny G Ne Hb Sb Hm Er. unfold extract_reef. rewrite Er. cbn [bind]. destruct (four_extremes pts Ne) as (e & M1 & M2 & M3 & M4). rewrite M1, M2, M3, M4. cbn [bind].
  rewrite (bounds_are _ _ _ _ Hb M1 M2 M3 M4). destruct G as (Gx & _ & Nx & _). rewrite (evenly_spacing x0 dx nx) by auto. cbn [bind].
  rewrite (buffer_is _ _ _ Hm), (any_limit_t b Sb). reflexivity.
Qed.
Lemma reef_narrow w t sc bounds buffer b m g nd files pts around x0 dx nx y0 dy ny f a na c nr :
  nodes_for g t nd -> fny g = ny -> nodes_grid around x0 dx nx y0 dy ny nd -> files_grid t nx ny files -> 1 / 250 < dx -> INR nx * dx <= 360 -> pts <> [] ->
  for_points bounds pts b -> some_limit b -> margin buffer dx m ->
  NarrowSpec.frame true x0 dx nx (x_min b) (x_max b) f -> f = 0%Z \/ around = true ->
  columns_kept x0 dx nx (x_min b) (x_max b) m f a na -> rows_kept y0 dy ny (y_min b) (y_max b) m c nr -> (2 <= na)%nat -> (2 <= nr)%nat ->
  exists around' g' nd' h' files', smaller_model t around x0 dx nx y0 dy ny b m f nd files around' a na c nr g' nd' files' /\
    read_netcdf_grid t g' = Ok (nlon nd', nlat nd', h') /\ cells (None, true) nr na (fun j i => depth_at (entry 0 (ndepth nd') i j)) h' /\ files_grid t na nr files' /\
    forall ex, extract_reef w t sc ex true bounds buffer g files pts = reef_from w t sc ex dx (nlon nd') (nlat nd') h' (fun hc => Ok hc) files' pts.
Proof.
  intros Hn Hny G Gf Hd Hw Ne Hb Sb Hm F Hf Kc Kr N1 N2. pose proof G as (Gx & Gy & Nx & Ny & Rd & Ga).
  destruct (read_grid t g nd around x0 dx nx y0 dy ny Hn Hny G) as (h & Eh & Ch).
  assert (Hf' : f = 0%Z \/ INR nx * dx = 360 /\ 1 / 10000 < dx). { destruct Hf as [Hf|Hf]; [now left|]. right. destruct Ga as [[_ E]|[E _]]; [|congruence]. split; [exact E | lra]. }
  destruct (crop_block true b m x0 dx nx y0 dy ny f a na c nr (nlon nd) (nlat nd) Nx F Hf' Kc Kr ltac:(lia) ltac:(lia) (or_introl Gx) (rows_same _ _ _ _ _ _ _ _ Gy Kr)) as (xa & ya & Xa & Ya & Cr).
  specialize (Xa Gx). specialize (Ya Gy). destruct (Cr (gcell R) (None, true) h (proj1 Ch)) as (h1 & E1 & B1).
  set (nd' := Nodes xa ya (built na nr (fun i j => entry 0 (ndepth nd) (column nx (a + Z.of_nat i)) (c + j)))).
  set (around' := if Nat.eqb na nx then around else false).
  pose proof Kc as (K1 & K2 & _). pose proof Kr as (R1 & _). assert (N0 : (1 <= nx)%nat) by lia.
  assert (G' : nodes_grid around' (node_x Heights x0 dx a) dx na (node_y Heights y0 dy c) dy nr nd').
  { split; [exact Xa|]. split; [exact Ya|]. split; [exact N1|]. split; [exact N2|]. split; [apply (built_cells 0)|]. unfold around'. destruct (Nat.eqb_spec na nx) as [->|Hnn]; [exact Ga|].
    right. split; [reflexivity|]. apply (not_turn dx nx na); auto. lia. }
  assert (Hv : t <> Vother) by (intros ->; inversion Hn). assert (Hn' : nodes_for (one_grid na nr nd') t nd') by now apply one_for.
  destruct (read_grid t (one_grid na nr nd') nd' _ _ _ _ _ _ _ Hn' eq_refl G') as (h2 & E2 & C2).
  assert (Eh2 : h1 = h2).
  { apply (cells_ext (None, true) nr na (fun j i => depth_at (entry 0 (ndepth nd') i j))); [|exact C2]. pose proof (block_cells _ _ _ _ _ _ _ _ _ _ N0 R1 Ch B1) as [Q1 Q2]. split; [exact Q1|].
    intros j i Hj Hi. rewrite Q2 by auto. f_equal. symmetry. exact (proj2 (built_cells 0 na nr _) i j Hi Hj). }
  subst h2. exists around', (one_grid na nr nd'), nd', h1, (map (cut_file nx a na c nr) files). split.
  { split; [exact Kc|]. split; [exact Kr|]. split. { unfold around'. destruct (Nat.eqb_spec na nx) as [E|E]; split; intros K; try discriminate; tauto. }
    split; [exact Hn'|]. split; [reflexivity|]. split; [exact G'|]. split.
    { intros j i Hj Hi. unfold depth_of. assert (E : entry 0 (ndepth nd') i j = entry 0 (ndepth nd) (column nx (a + Z.of_nat i)) (c + j)) by exact (proj2 (built_cells 0 na nr _) i j Hi Hj). rewrite E. reflexivity. }
    split; [apply map_length|]. intros k fl pa Hk Hp Hg. exists (cut_file nx a na c nr fl), (cut_parts nx a na c nr pa). split; [now apply map_nth_error|]. split; [now apply cut_for|]. split; [apply cut_grid|]. split; [reflexivity | apply cut_block]. }
  split; [exact E2|]. split; [exact C2|]. split.
  { intros fl Hfl. apply in_map_iff in Hfl as (fl0 & <- & Hfl). destruct (Gf fl0 Hfl) as (pa & P1 & P2). exists (cut_parts nx a na c nr pa). split; [now apply cut_for | apply cut_grid]. }
  intros ex. rewrite (reef_start w t sc ex bounds buffer b m g nd files pts around x0 dx nx y0 dy ny h) by auto. rewrite E1. cbn [bind fst snd].
  unfold reef_from. cbn [nlon nlat nd']. set (glob := isclose _ _). destruct (if glob then extend_axis xa dx else Ok xa) as [xi|]; [|reflexivity]. cbn [bind]. destruct (extend_if glob h1) as [bb|]; [|reflexivity]. cbn [bind].
  destruct (mapM (outside_axes xi ya) pts) as [inv|]; [|reflexivity]. cbn [bind]. destruct (mapM (bed_by w xi ya bb) pts) as [ds|]; [|reflexivity]. cbn [bind].
  match goal with |- bind (mapM ?P _) _ = bind (mapM ?Q _) _ => rewrite (mapM_cut P Q (cut_file nx a na c nr)); [reflexivity|] end.
  intros fl Hfl. destruct (Gf fl Hfl) as (pa & P1 & P2). destruct (read_file t fl pa nx ny P1 P2) as (r & Er & Cr1). rewrite Er. cbn [bind fst snd].
  destruct (Cr (gcell cpx) (None, true) r (proj1 Cr1)) as (u & Eu & Bu). rewrite Eu. cbn [bind fst].
  destruct (read_file t (cut_file nx a na c nr fl) (cut_parts nx a na c nr pa) na nr (cut_for _ _ _ _ _ _ _ _ P1) (cut_grid _ _ _ _ _ _ _)) as (r' & Er' & Cr'). rewrite Er'. cbn [bind fst snd].
  replace r' with u; [reflexivity|]. apply (cells_ext (None, true) nr na (fun j i => (number_of (cut_parts nx a na c nr pa) j i, false))); [|exact Cr'].
  pose proof (block_cells _ _ _ _ _ _ _ _ _ _ N0 R1 Cr1 Bu) as [Q1 Q2]. split; [exact Q1|]. intros j i Hj Hi. rewrite Q2 by auto. now rewrite cut_block.
Qed.

(** ** What is cropped: a model on an even grid, to bounds b (given or those of the points)
    with a margin m; its columns start at column f for these bounds *)
Definition cropping (t : variable) (around : bool) (x0 dx : R) (nx : nat) (y0 dy : R) (ny : nat) (bounds : option limits) (buffer : option R) (b : limits) (m : R) (f : Z)
    (g : grid_file) (nd : nodes) (files : list tide_file) (pts : list (R * R)) : Prop :=
  nodes_for g t nd /\ fny g = ny /\ nodes_grid around x0 dx nx y0 dy ny nd /\ files_grid t nx ny files /\ 1 / 250 < dx /\ INR nx * dx <= 360 /\ pts <> [] /\
  for_points bounds pts b /\ some_limit b /\ margin buffer dx m /\ window x0 dx nx (x_min b) (x_max b) f /\ (f = 0%Z \/ around = true).
(** the cell between columns i and i + 1 and rows j and j + 1 is within the bounds *)
Definition cell_within (x0 dx : R) (nx : nat) (y0 dy : R) (ny : nat) (b : limits) (m : R) (f i : Z) (j : nat) : Prop :=
  (f <= i)%Z /\ (i + 1 < f + Z.of_nat nx)%Z /\ stays (x_min b) (x_max b) m (node_x Heights x0 dx i) /\ stays (x_min b) (x_max b) m (node_x Heights x0 dx (i + 1)) /\
  (S j < ny)%nat /\ stays (y_min b) (y_max b) m (node_y Heights y0 dy j) /\ stays (y_min b) (y_max b) m (node_y Heights y0 dy (S j)).

Lemma reef_cell_from w t sc around x0 dx nx y0 dy ny bounds buffer b m f g nd files pts i j :
  cropping t around x0 dx nx y0 dy ny bounds buffer b m f g nd files pts -> cell_within x0 dx nx y0 dy ny b m f i j ->
  exists around' a na c nr g' nd' h' files', smaller_model t around x0 dx nx y0 dy ny b m f nd files around' a na c nr g' nd' files' /\
    (a <= i)%Z /\ (i + 1 < a + Z.of_nat na)%Z /\ (c <= j)%nat /\ (S j < c + nr)%nat /\ (2 <= na)%nat /\ (2 <= nr)%nat /\
    read_netcdf_grid t g' = Ok (nlon nd', nlat nd', h') /\ cells (None, true) nr na (fun j i => depth_at (entry 0 (ndepth nd') i j)) h' /\ files_grid t na nr files' /\
    forall ex, extract_reef w t sc ex true bounds buffer g files pts = reef_from w t sc ex dx (nlon nd') (nlat nd') h' (fun hc => Ok hc) files' pts.
Proof.
  intros (Hn & Hny & G & Gf & Hd & Hw & Ne & Hb & Sb & Hm & W & Hf) (Hi & Hi1 & Si & Si1 & Hj & Sj & Sj1). pose proof G as (Gx & Gy & _).
  assert (Dx : 0 < dx) by apply Gx. assert (Dy : 0 < dy) by apply Gy.
  destruct (kept_exists x0 dx nx y0 dy ny (x_min b) (x_max b) (y_min b) (y_max b) m f i j Dx Dy) as (a & na & c & nr & Kc & Kr & N1 & N2); auto; [lia | lia |].
  assert (A : (a <= i /\ i + 1 < a + Z.of_nat na)%Z). { destruct Kc as (_ & _ & K3). apply K3 in Si; [|lia]. apply K3 in Si1; [|lia]. lia. }
  assert (C : (c <= j /\ S j < c + nr)%nat). { destruct Kr as (_ & K3). apply K3 in Sj; [|lia]. apply K3 in Sj1; [|lia]. lia. }
  destruct (reef_narrow w t sc bounds buffer b m g nd files pts around x0 dx nx y0 dy ny f a na c nr) as (around' & g' & nd' & h' & files' & M & E1 & E2 & E3 & E4); auto; try lia. { right. auto. }
  exists around', a, na, c, nr, g', nd', h', files'. split; [exact M|]. repeat (split; [lia|]). auto.
Qed.

(** ** C88: extraction from a cropped model is extraction from the model of the rows and
    columns within the bounds, if that one would leave the longitudes of the points as
    they are *)
Theorem C88_model : forall w t sc ex around x0 dx nx y0 dy ny bounds buffer b m f g nd files pts i j,
  cropping t around x0 dx nx y0 dy ny bounds buffer b m f g nd files pts -> cell_within x0 dx nx y0 dy ny b m f i j ->
  exists around' a na c nr g' nd' files', smaller_model t around x0 dx nx y0 dy ny b m f nd files around' a na c nr g' nd' files' /\
    forall fr, SeriesSpec.framed fr (nlon nd') -> (forall p, In p pts -> SeriesSpec.placed fr (fst p) = fst p) ->
      extract_reef w t sc ex true bounds buffer g files pts = extract_reef w t sc ex false None None g' files' pts.
Proof.
  intros w t sc ex around x0 dx nx y0 dy ny bounds buffer b m f g nd files pts i j Cr Ce.
  destruct (reef_cell_from w t sc _ _ _ _ _ _ _ _ _ _ _ _ _ _ _ _ _ _ Cr Ce) as (around' & a & na & c & nr & g' & nd' & h' & files' & M & _ & _ & _ & _ & N1 & N2 & E1 & E2 & E3 & Eq). rewrite Eq.
  exists around', a, na, c, nr, g', nd', files'. split; [exact M|]. intros fr Fr Pl. rewrite reef_off by now left. rewrite E1. cbn [bind].
  destruct M as (_ & _ & _ & _ & _ & (Gx & _) & _). assert (Ne : pts <> []) by apply Cr.
  assert (exists mn, amin (map fst pts) = Ok mn) as (mn & ->) by (destruct pts; [congruence | cbn; eauto]). cbn [bind]. rewrite (evenly_spacing _ _ _ _ Gx N1). cbn [bind].
  destruct (adjust_ok (nlon nd') pts) as (pts' & Ea); auto. { intros K. destruct Gx as (_ & L & _). rewrite K in L. cbn in L. lia. }
  rewrite Ea. cbn [bind]. apply (adjust_placed fr) in Ea; auto. replace pts' with pts; [reflexivity|]. subst pts'. rewrite <- (map_id pts) at 1. apply map_ext_in. intros [x y] Hp. pose proof (Pl _ Hp) as Ep. cbn [fst snd] in *. now rewrite Ep.
Qed.
Print Assumptions C88_model.

(** ** Everything computed for a point of the smaller model *)
Lemma inner_inv w t sc around x0 dx nx y0 dy ny g nd h files pts out k fl pa n q : nodes_for g t nd -> fny g = ny -> nodes_grid around x0 dx nx y0 dy ny nd ->
  cells (None, true) ny nx (fun j i => depth_at (entry 0 (ndepth nd) i j)) h ->
  reef_from w t sc None dx (nlon nd) (nlat nd) h (fun hc => Ok hc) files pts = Ok out -> nth_error files k = Some fl -> parts_for fl t (Some pa) -> file_grid nx ny fl pa -> nth_error pts n = Some q ->
  exists xi b hc inv D cs v,
    evenly (x0 - INR (bef around) * dx) dx (bef around + nx + aft FES around) xi /\ rect ny (bef around + nx + aft FES around) b /\ rect ny (bef around + nx + aft FES around) hc /\
    (forall j i, (j < ny)%nat -> within (bef around) (aft FES around) nx i -> entry (None, true) b j (ec (bef around) i) = depth_at (entry 0 (ndepth nd) (column nx i) j)) /\
    (forall j i, (j < ny)%nat -> within (bef around) (aft FES around) nx i -> entry (None, true) hc j (ec (bef around) i) = (number_of pa j (column nx i), snd (depth_at (entry 0 (ndepth nd) (column nx i) j)))) /\
    outside_axes xi (nlat nd) q = Ok inv /\ bed_by w xi (nlat nd) b q = Ok D /\ v = (do kk <- number_by w xi (nlat nd) hc q ;; Ok (atlas_value t sc D inv kk)) /\
    nth_error (adepth out) n = Some D /\ length (adepth out) = length pts /\ nth_error (anames out) k = Some (read_name fl) /\
    nth_error (aconst out) k = Some cs /\ length cs = length pts /\ exists r, v = Ok r /\ nth_error cs n = Some r.
Proof.
  intros Hn Hny G Ch H Hk Hpa Hf Hq. pose proof (around_spans _ _ _ _ _ _ _ _ G) as Ga. pose proof G as (Gx & Gy & Nx & Ny & Rd & _). destruct (read_file t fl pa nx ny Hpa Hf) as (r & Er & Cr).
  destruct (from_inv w t sc None x0 dx nx ny (nlon nd) (nlat nd) h (fun hc => Ok hc) (fun j i => entry 0 (ndepth nd) i j) (number_of pa) Gx Nx Ny Ch files pts out k fl n q r H Hk Hq Er (ex_intro _ r (conj eq_refl Cr)))
    as (xi & b & hc & inv & D & kk & cs & v & Hxi & Rb & Rc & Nb & Nc & O1 & O2 & O3 & O4 & O5 & O6 & O7 & O8 & O9 & O10 & V0 & _).
  rewrite Ga in *. exists xi, b, hc, inv, D, cs. eexists. repeat (split; [assumption|]). split; [reflexivity|]. repeat (split; [assumption|]). exists v. split; [|exact O10]. rewrite O3. cbn [bind]. rewrite (V0 eq_refl), reef_atlas. reflexivity.
Qed.
