(** C90: what is interpolated from an ATLAS model that was read is what extraction gives. *)
From Coq Require Import Reals List Bool Arith ZArith Lra Lia.
From Verif Require Import PyBase RBase MathModel GeoModel ConvertProps GridModel GridProofs InterpModel InterpProps ExtrapProps ExtractModel ExtractSpec NodeProps ExtractProofs ExtractProps SplineProps ReturnProps SeriesModel SeriesSpec SeriesProofs SeriesProps SeriesProps2 SeriesProps3 StretchProofs AtlasNcModel AtlasNcSpec AtlasNcProps AtlasNcProps2 AtlasNcProps3 RegularModel RegularProps3 CropModel CropSpec CropProofs CropProps ShoreModel ShoreSpec ShoreProofs ShoreProps NarrowModel NarrowSpec NarrowProofs NarrowProps NarrowProps4 ReefModel ReefSpec ReefProofs ReefProps ReefProps2 ReefProps3 LaterModel LaterSpec LaterProofs LaterProps LaterProps2 LaterProps3 LagoonModel LagoonProofs LagoonProps.
Import ListNotations.
Open Scope R_scope.

(** the files have the variable, with numbers at the nodes if the method needs them at
    masked nodes as well *)
Definition files_for (w : way) (t : variable) (nx ny : nat) (files : list tide_file) : Prop :=
  forall f, In f files -> exists pa, parts_for f t (Some pa) /\ file_grid nx ny f pa /\
    (w = Quick Bilinear \/ w = Regular Nearest \/ forall j i, (j < ny)%nat -> (i < nx)%nat -> number_of pa j i <> None).
Lemma lagoon_whole w t g nd h files around x0 dx nx y0 dy ny : nodes_for g t nd -> fny g = ny -> nodes_grid around x0 dx nx y0 dy ny nd -> files_for w t nx ny files ->
  read_netcdf_grid t g = Ok (nlon nd, nlat nd, h) ->
  exists c, read_atlas t g files = Ok c /\ evenly (x0 - INR (bef around) * dx) dx (bef around + nx + aft FES around) (alon c) /\
    forall sc ex pts pts', adjust (alon c) pts = Ok pts' ->
      same_reads w (reef_from w t sc ex dx (nlon nd) (nlat nd) h (fun hc => Ok hc) files pts') (interpolate_lagoon w t sc ex c pts).
Proof.
  intros Hn Hny G Hf Er. destruct (atlas_setup t g nd around x0 dx nx y0 dy ny Hn Hny G) as (xi & b & Exi & Eb & Hxi & Rb & Nb). pose proof G as (Gx & Gy & Nx & Ny & Rd & Ga).
  pose proof (read_atlas_inv t g nd files around x0 dx nx y0 dy ny xi b Hn G Exi Eb) as Ei.
  match type of Ei with _ = bind (mapM ?F files) _ => destruct (mapM_ok F files) as (fs & Efs) end.
  { intros f Hin. destruct (Hf f Hin) as (pa & Hpa & Hfg & _). destruct (atlas_file t f pa around nx ny b Hpa Hfg Nx Rb) as (r & e & hc & -> & Ee & Eh & _).
    cbn [bind fst]. rewrite Ee. cbn [bind]. rewrite Eh. cbn [bind]. eauto. }
  rewrite Efs in Ei. cbn [bind] in Ei. eexists. split; [exact Ei|]. cbn [alon]. split; [exact Hxi|]. intros sc ex pts pts' Ha.
  assert (Hv : t <> Vother) by (intros ->; inversion Hn).
  destruct (st_axes (bef around) (aft FES around) nx ny x0 dx y0 dy xi (nlat nd) Hxi Gy Nx Ny) as [A1 A2].
  destruct (st_lengths (bef around) (aft FES around) nx ny x0 dx y0 dy xi (nlat nd) Hxi Gy) as [L1 L2].
  apply from_same; cbn [alon alat afields]; auto.
  - rewrite <- Ei. unfold read_atlas. rewrite Er. cbn [bind]. rewrite (evenly_spacing x0 dx nx) by auto. reflexivity.
  - intros p Hp. destruct (mapM_from _ _ _ _ Efs Hp) as (f & Hin & Ep). destruct (Hf f Hin) as (pa & Hpa & Hfg & Hnum). destruct (atlas_file t f pa around nx ny b Hpa Hfg Nx Rb) as (r & e & hc & E1 & Ee & Eh & Rh & Nh).
    rewrite E1 in Ep. cbn [bind fst snd] in Ep. rewrite Ee in Ep. cbn [bind] in Ep. rewrite Eh in Ep. cbn [bind] in Ep. apply Ok_inj in Ep as <-. cbn [fst]. rewrite L1, L2. split; [exact Rh|].
    intros N1 N2 j' i' Hj Hi. destruct Hnum as [K|[K|Hnum]]; [congruence | congruence|]. replace i' with (ec (bef around) (Z.of_nat i' - Z.of_nat (bef around))) by (unfold ec; lia).
    rewrite Nh by (auto; unfold within; lia). cbn [fst]. apply Hnum; auto. unfold column. pose proof (Z.mod_pos_bound (Z.of_nat i' - Z.of_nat (bef around)) (Z.of_nat nx)). lia.
Qed.
(** ** C90: a model that was read gives what extraction gives *)
Theorem C90_read : forall w t sc ex fr bounds m buffer g nd files pts around x0 dx nx y0 dy ny,
  nodes_for g t nd -> fny g = ny -> nodes_grid around x0 dx nx y0 dy ny nd -> SeriesSpec.framed fr (nlon nd) -> files_for w t nx ny files ->
  same_frame FES fr around x0 dx nx pts ->
  exists c, read_lagoon t false bounds m g files = Ok c /\
    match extract_reef w t sc ex false bounds buffer g files pts, interpolate_lagoon w t sc ex c pts with
    | Ok a, Ok (cs, ds, c') => cs = aconst a /\ Forall2 (fun D D' => snd D = snd D' /\ (snd D = false \/ w <> Quick Bilinear -> D = D')) (adepth a) ds /\ map snd (afields c') = anames a
    | Err e, Err e' => e = e'
    | _, _ => False
    end.
Proof.
  intros w t sc ex fr bounds m buffer g nd files pts around x0 dx nx y0 dy ny Hn Hny G Fr Hf Hs. pose proof G as (Gx & _ & Nx & _).
  destruct (read_grid t g nd around x0 dx nx y0 dy ny Hn Hny G) as (h & Er & _).
  destruct (lagoon_whole w t g nd h files around x0 dx nx y0 dy ny Hn Hny G Hf Er) as (c & Ec & Hx & Sa). exists c. split; [exact Ec|].
  rewrite reef_off by now left. rewrite Er. cbn [bind]. destruct pts as [|q0 t0] eqn:Ept; [reflexivity|]. rewrite <- Ept in *. assert (Hne : pts <> []) by (rewrite Ept; discriminate).
  assert (exists mn, amin (map fst pts) = Ok mn) as (mn & ->) by (rewrite Ept; cbn; eauto). cbn [bind]. rewrite (evenly_spacing x0 dx nx) by auto. cbn [bind].
  destruct (adjust_ok (nlon nd) pts) as (pts' & Ea); auto. { intros K. destruct Gx as (_ & L & _). rewrite K in L. cbn in L. lia. }
  rewrite Ea. cbn [bind]. apply (adjust_placed fr) in Ea; auto. specialize (Sa sc ex pts pts'). apply Sa. rewrite Ea.
  apply (adjust_longer FES fr around x0 dx nx y0 dy ny _ (alon c) pts (nodes_as_sheet _ _ _ _ _ _ _ _ G) Fr Hx Hne Hs).
Qed.
Print Assumptions C90_read.

(** ** Cropping when the model is read *)
Lemma kept_block {V} (d : V) nx a na c nr m u u' : block d nx a na c nr m u -> block d nx a na c nr m u' -> u = u'.
Proof. intros [R1 B1] [R2 B2]. apply (cells_ext d nr na (fun j i => entry d m (c + j) (column nx (a + Z.of_nat i)))); split; auto. Qed.
Lemma lagoon_narrow t b m m' g nd files around x0 dx nx y0 dy ny f a na c nr :
  nodes_for g t nd -> fny g = ny -> nodes_grid around x0 dx nx y0 dy ny nd -> files_grid t nx ny files -> 1 / 250 < dx -> INR nx * dx <= 360 -> some_limit b ->
  NarrowSpec.frame true x0 dx nx (x_min b) (x_max b) f -> f = 0%Z \/ around = true ->
  columns_kept x0 dx nx (x_min b) (x_max b) m f a na -> rows_kept y0 dy ny (y_min b) (y_max b) m c nr -> (2 <= na)%nat -> (2 <= nr)%nat ->
  same_kept b m m' x0 dx nx y0 dy ny f ->
  exists around' g' nd' h' files', smaller_model t around x0 dx nx y0 dy ny b m f nd files around' a na c nr g' nd' files' /\
    read_netcdf_grid t g' = Ok (nlon nd', nlat nd', h') /\ files' = map (cut_file nx a na c nr) files /\
    read_lagoon t true (Some b) m g files = read_atlas t g' files' /\
    forall w sc ex bounds buffer pts, pts <> [] -> for_points bounds pts b -> margin buffer dx m' ->
      extract_reef w t sc ex true bounds buffer g files pts = reef_from w t sc ex dx (nlon nd') (nlat nd') h' (fun hc => Ok hc) files' pts.
Proof.
  intros Hn Hny G Gf Hd Hw Sb F Hf Kc Kr N1 N2 [Sk1 Sk2]. pose proof G as (Gx & Gy & Nx & Ny & Rd & Ga).
  destruct (read_grid t g nd around x0 dx nx y0 dy ny Hn Hny G) as (h & Eh & Ch).
  assert (Hf' : f = 0%Z \/ INR nx * dx = 360 /\ 1 / 10000 < dx). { destruct Hf as [Hf|Hf]; [now left|]. right. destruct Ga as [[_ E]|[E _]]; [|congruence]. split; [exact E | lra]. }
  assert (Kc' : columns_kept x0 dx nx (x_min b) (x_max b) m' f a na) by (destruct Kc as (K1 & K2 & K3); split; [auto|]; split; [auto|]; intros i Hi; rewrite <- (Sk1 i Hi); now apply K3).
  assert (Kr' : rows_kept y0 dy ny (y_min b) (y_max b) m' c nr) by (destruct Kr as (K1 & K3); split; [auto|]; intros j Hj; pose proof (Sk2 j Hj) as Q; unfold row_stays in Q; rewrite <- Q; now apply K3).
  destruct (crop_block true b m x0 dx nx y0 dy ny f a na c nr (nlon nd) (nlat nd) Nx F Hf' Kc Kr ltac:(lia) ltac:(lia) (or_introl Gx) (rows_same _ _ _ _ _ _ _ _ Gy Kr)) as (xa & ya & Xa & Ya & Cr).
  destruct (crop_block true b m' x0 dx nx y0 dy ny f a na c nr (nlon nd) (nlat nd) Nx F Hf' Kc' Kr' ltac:(lia) ltac:(lia) (or_introl Gx) (rows_same _ _ _ _ _ _ _ _ Gy Kr')) as (xa' & ya' & Xa' & Ya' & Cr').
  specialize (Xa Gx). specialize (Ya Gy). specialize (Xa' Gx). specialize (Ya' Gy).
  assert (xa' = xa) by (apply (evenly_unique _ _ _ _ _ Xa' Xa)). assert (ya' = ya) by (apply (evenly_unique _ _ _ _ _ Ya' Ya)). subst xa' ya'.
  assert (Same : forall A (d0 : A) (u : list (list A)), rect ny nx u -> crop_matrix true b m' u (nlon nd) (nlat nd) = crop_matrix true b m u (nlon nd) (nlat nd)).
  { intros A d0 u Ru. destruct (Cr A d0 u Ru) as (v & -> & Bv). destruct (Cr' A d0 u Ru) as (v' & -> & Bv'). now rewrite (kept_block d0 nx a na c nr u v v' Bv Bv'). }
  destruct (Cr (gcell R) (None, true) h (proj1 Ch)) as (h1 & E1 & B1).
  set (nd' := Nodes xa ya (built na nr (fun i j => entry 0 (ndepth nd) (column nx (a + Z.of_nat i)) (c + j)))).
  set (around' := if Nat.eqb na nx then around else false).
  pose proof Kc as (K1 & K2 & _). pose proof Kr as (R1 & _). assert (N0 : (1 <= nx)%nat) by lia.
  assert (G' : nodes_grid around' (node_x Heights x0 dx a) dx na (node_y Heights y0 dy c) dy nr nd').
  { split; [exact Xa|]. split; [exact Ya|]. split; [exact N1|]. split; [exact N2|]. split; [apply (built_cells 0)|]. unfold around'. destruct (Nat.eqb_spec na nx) as [->|Hnn]; [exact Ga|].
    right. split; [reflexivity|]. apply (not_turn dx nx na); auto. lia. }
  assert (Hv : t <> Vother) by (intros ->; inversion Hn). assert (Hn' : nodes_for (one_grid na nr nd') t nd') by now apply one_for.
  destruct (read_grid t (one_grid na nr nd') nd' _ _ _ _ _ _ _ Hn' eq_refl G') as (h2 & E2 & C2).
  assert (Eh2 : h1 = h2).
  { apply (cells_ext (None, true) nr na (fun j i => depth_at (entry 0 (ndepth nd') i j))); [|exact C2]. pose proof (block_cells _ _ _ _ _ _ _ _ _ _ N0 R1 Ch B1) as [Q1 Q2]. split; [exact Q1|].
    intros j i Hj Hi. rewrite Q2 by auto. f_equal. symmetry. exact (proj2 (built_cells 0 na nr _) i j Hi Hj). }
  subst h2.
  assert (Read : forall fl, In fl files -> exists r r', read_netcdf_file t fl = Ok (r, read_name fl) /\ rect ny nx r /\ read_netcdf_file t (cut_file nx a na c nr fl) = Ok (r', read_name fl) /\ crop_matrix true b m r (nlon nd) (nlat nd) = Ok (r', xa, ya)).
  { intros fl Hfl. destruct (Gf fl Hfl) as (pa & P1 & P2). destruct (read_file t fl pa nx ny P1 P2) as (r & Er & Cr1). destruct (Cr (gcell cpx) (None, true) r (proj1 Cr1)) as (u & Eu & Bu).
    destruct (read_file t (cut_file nx a na c nr fl) (cut_parts nx a na c nr pa) na nr (cut_for _ _ _ _ _ _ _ _ P1) (ReefProps3.cut_grid _ _ _ _ _ _ _)) as (r' & Er' & Cr2).
    exists r, r'. split; [exact Er|]. split; [apply Cr1|]. split; [exact Er'|]. replace r' with u; [exact Eu|]. apply (cells_ext (None, true) nr na (fun j i => (number_of (cut_parts nx a na c nr pa) j i, false))); [|exact Cr2].
    pose proof (block_cells _ _ _ _ _ _ _ _ _ _ N0 R1 Cr1 Bu) as [Q1 Q2]. split; [exact Q1|]. intros j i Hj Hi. rewrite Q2 by auto. now rewrite cut_block. }
  exists around', (one_grid na nr nd'), nd', h1, (map (cut_file nx a na c nr) files). split.
  { split; [exact Kc|]. split; [exact Kr|]. split. { unfold around'. destruct (Nat.eqb_spec na nx) as [E|E]; split; intros K; try discriminate; tauto. }
    split; [exact Hn'|]. split; [reflexivity|]. split; [exact G'|]. split.
    { intros j i Hj Hi. unfold depth_of. assert (E : entry 0 (ndepth nd') i j = entry 0 (ndepth nd) (column nx (a + Z.of_nat i)) (c + j)) by exact (proj2 (built_cells 0 na nr _) i j Hi Hj). rewrite E. reflexivity. }
    split; [apply map_length|]. intros k fl pa Hk Hp Hg. exists (cut_file nx a na c nr fl), (cut_parts nx a na c nr pa). split; [now apply map_nth_error|]. split; [now apply cut_for|]. split; [apply ReefProps3.cut_grid|]. split; [reflexivity | apply cut_block]. }
  split; [exact E2|]. split; [reflexivity|]. split.
  - unfold read_lagoon, read_atlas. rewrite Eh, E2. cbn [bind]. rewrite any_limit_t by auto. rewrite E1. cbn [bind fst snd nlon nlat nd']. rewrite (evenly_spacing _ _ _ _ Xa N1). cbn [bind].
    unfold lagoon_from. set (glob := isclose _ _). destruct (if glob then extend_axis xa dx else Ok xa) as [xi|]; [|reflexivity]. cbn [bind]. destruct (extend_if glob h1) as [bb|]; [|reflexivity]. cbn [bind].
    match goal with |- bind (mapM ?P _) _ = bind (mapM ?Q _) _ => rewrite (mapM_cut P Q (cut_file nx a na c nr)); [reflexivity|] end.
    intros fl Hfl. destruct (Read fl Hfl) as (r & r' & F1 & _ & F3 & F4). rewrite F1, F3. cbn [bind fst snd]. rewrite F4. reflexivity.
  - intros w sc ex bounds buffer pts Ne Hb Hm. rewrite (reef_start w t sc ex bounds buffer b m' g nd files pts around x0 dx nx y0 dy ny h) by auto. match goal with |- bind ?x _ = _ => assert (E9 : x = Ok (h1, xa, ya)) by (exact (eq_trans (Same (gcell R) (None, true) h (proj1 Ch)) E1)); rewrite E9 end. cbn [bind fst snd].
    unfold reef_from. cbn [nlon nlat nd']. set (glob := isclose _ _). destruct (if glob then extend_axis xa dx else Ok xa) as [xi|]; [|reflexivity]. cbn [bind]. destruct (extend_if glob h1) as [bb|]; [|reflexivity]. cbn [bind].
    destruct (mapM (outside_axes xi ya) pts) as [inv|]; [|reflexivity]. cbn [bind]. destruct (mapM (bed_by w xi ya bb) pts) as [ds|]; [|reflexivity]. cbn [bind].
    match goal with |- bind (mapM ?P _) _ = bind (mapM ?Q _) _ => rewrite (mapM_cut P Q (cut_file nx a na c nr)); [reflexivity|] end.
    intros fl Hfl. destruct (Read fl Hfl) as (r & r' & F1 & F2 & F3 & F4). rewrite F1, F3. cbn [bind fst snd]. pose proof (eq_trans (Same (gcell cpx) (None, true) r F2) F4) as E8. match goal with |- context [crop_matrix true b m' ?y ?l ?k] => assert (E10 : crop_matrix true b m' y l k = Ok (r', xa, ya)) by exact E8; rewrite E10 end. reflexivity.
Qed.
(** ** C90: reading with cropping is reading the model of the rows and columns within the
    bounds, whatever the margin *)
Lemma lagoon_cell t b m m' g nd files around x0 dx nx y0 dy ny f i j :
  nodes_for g t nd -> fny g = ny -> nodes_grid around x0 dx nx y0 dy ny nd -> files_grid t nx ny files -> 1 / 250 < dx -> INR nx * dx <= 360 -> some_limit b ->
  window x0 dx nx (x_min b) (x_max b) f -> f = 0%Z \/ around = true -> cell_within x0 dx nx y0 dy ny b m f i j -> same_kept b m m' x0 dx nx y0 dy ny f ->
  exists around' a na c nr g' nd' h' files', smaller_model t around x0 dx nx y0 dy ny b m f nd files around' a na c nr g' nd' files' /\
    (2 <= na)%nat /\ (2 <= nr)%nat /\
    read_netcdf_grid t g' = Ok (nlon nd', nlat nd', h') /\ files' = map (cut_file nx a na c nr) files /\
    read_lagoon t true (Some b) m g files = read_atlas t g' files' /\
    forall w sc ex bounds buffer pts, pts <> [] -> for_points bounds pts b -> margin buffer dx m' ->
      extract_reef w t sc ex true bounds buffer g files pts = reef_from w t sc ex dx (nlon nd') (nlat nd') h' (fun hc => Ok hc) files' pts.
Proof.
  intros Hn Hny G Gf Hd Hw Sb W Hf (Hi & Hi1 & Si & Si1 & Hj & Sj & Sj1) Sk. pose proof G as (Gx & Gy & _).
  assert (Dx : 0 < dx) by apply Gx. assert (Dy : 0 < dy) by apply Gy.
  destruct (kept_exists x0 dx nx y0 dy ny (x_min b) (x_max b) (y_min b) (y_max b) m f i j Dx Dy) as (a & na & c & nr & Kc & Kr & N1 & N2); auto; [lia | lia |].
  assert (A : (a <= i /\ i + 1 < a + Z.of_nat na)%Z). { destruct Kc as (_ & _ & K3). apply K3 in Si; [|lia]. apply K3 in Si1; [|lia]. lia. }
  assert (C : (c <= j /\ S j < c + nr)%nat). { destruct Kr as (_ & K3). apply K3 in Sj; [|lia]. apply K3 in Sj1; [|lia]. lia. }
  destruct (lagoon_narrow t b m m' g nd files around x0 dx nx y0 dy ny f a na c nr) as (around' & g' & nd' & h' & files' & M & E); auto; try lia. { right. auto. }
  exists around', a, na, c, nr, g', nd', h', files'. split; [exact M|]. repeat (split; [lia|]). exact E.
Qed.
Theorem C90_model : forall t b m g nd files around x0 dx nx y0 dy ny f i j,
  nodes_for g t nd -> fny g = ny -> nodes_grid around x0 dx nx y0 dy ny nd -> files_grid t nx ny files -> 1 / 250 < dx -> INR nx * dx <= 360 -> some_limit b ->
  window x0 dx nx (x_min b) (x_max b) f -> f = 0%Z \/ around = true -> cell_within x0 dx nx y0 dy ny b m f i j ->
  exists around' a na c nr g' nd' files' r, smaller_model t around x0 dx nx y0 dy ny b m f nd files around' a na c nr g' nd' files' /\
    read_lagoon t true (Some b) m g files = Ok r /\ read_lagoon t false None 0 g' files' = Ok r.
Proof.
  intros t b m g nd files around x0 dx nx y0 dy ny f i j Hn Hny G Gf Hd Hw Sb W Hf Ce.
  destruct (lagoon_cell t b m m g nd files around x0 dx nx y0 dy ny f i j Hn Hny G Gf Hd Hw Sb W Hf Ce (same_kept_refl _ _ _ _ _ _ _ _ _)) as (around' & a & na & c & nr & g' & nd' & h' & files' & M & N1 & N2 & E1 & E2 & E3 & _).
  pose proof M as (_ & _ & _ & Hn' & Hny' & G' & _).
  assert (F' : files_for (Quick Bilinear) t na nr files').
  { intros fl Hfl. rewrite E2 in Hfl. apply in_map_iff in Hfl as (fl0 & <- & Hfl). destruct (Gf fl0 Hfl) as (pa & P1 & P2). exists (cut_parts nx a na c nr pa). split; [now apply cut_for|]. split; [apply ReefProps3.cut_grid|]. now left. }
  destruct (lagoon_whole (Quick Bilinear) t g' nd' h' files' _ _ _ _ _ _ _ Hn' Hny' G' F' E1) as (r & Er & _).
  exists around', a, na, c, nr, g', nd', files', r. split; [exact M|]. rewrite E3. split; exact Er.
Qed.
Print Assumptions C90_model.
(** ** C90: a model cropped when it is read gives what extraction with cropping gives, for
    the points in the longitudes of its columns *)
Theorem C90_cropped : forall w t sc ex b m m' g nd files pts pts' around x0 dx nx y0 dy ny f i j,
  nodes_for g t nd -> fny g = ny -> nodes_grid around x0 dx nx y0 dy ny nd -> files_for w t nx ny files -> 1 / 250 < dx -> INR nx * dx <= 360 -> some_limit b ->
  window x0 dx nx (x_min b) (x_max b) f -> f = 0%Z \/ around = true -> cell_within x0 dx nx y0 dy ny b m f i j ->
  m' <> 0 -> same_kept b m m' x0 dx nx y0 dy ny f ->
  pts <> [] -> moved (kept_longitude b m FES around x0 dx nx f) pts pts' ->
  exists c, read_lagoon t true (Some b) m g files = Ok c /\
    match extract_reef w t sc ex true (Some b) (Some m') g files pts', interpolate_lagoon w t sc ex c pts with
    | Ok a, Ok (cs, ds, c') => cs = aconst a /\ Forall2 (fun D D' => snd D = snd D' /\ (snd D = false \/ w <> Quick Bilinear -> D = D')) (adepth a) ds /\ map snd (afields c') = anames a
    | Err e, Err e' => e = e'
    | _, _ => False
    end.
Proof.
  intros w t sc ex b m m' g nd files pts pts' around x0 dx nx y0 dy ny f i j Hn Hny G Gf Hd Hw Sb W Hf Ce Hm' Sk Ne Mv. pose proof G as ((Dx & _) & _).
  assert (Gf' : files_grid t nx ny files) by (intros fl Hfl; destruct (Gf fl Hfl) as (pa & P1 & P2 & _); eauto).
  destruct (lagoon_cell t b m m' g nd files around x0 dx nx y0 dy ny f i j Hn Hny G Gf' Hd Hw Sb W Hf Ce Sk) as (around' & a & na & c & nr & g' & nd' & h' & files' & M & N1 & N2 & E1 & E2 & E3 & E4).
  pose proof M as (Kc & Kr & Ha & Hn' & Hny' & G' & _). pose proof Kc as (K1 & K2 & Cols). pose proof Kr as (R1 & _).
  assert (F' : files_for w t na nr files').
  { intros fl Hfl. rewrite E2 in Hfl. apply in_map_iff in Hfl as (fl0 & <- & Hfl). destruct (Gf fl0 Hfl) as (pa & P1 & P2 & P3). exists (cut_parts nx a na c nr pa). split; [now apply cut_for|]. split; [apply ReefProps3.cut_grid|].
    destruct P3 as [P3|[P3|P3]]; auto. right. right. intros j' i' Hj' Hi'. rewrite (cut_block nx a na c nr pa j' i' Hj' Hi'). apply P3; [lia|]. unfold column. pose proof (Z.mod_pos_bound (a + Z.of_nat i') (Z.of_nat nx)). lia. }
  destruct (lagoon_whole w t g' nd' h' files' _ _ _ _ _ _ _ Hn' Hny' G' F' E1) as (r & Er & Hx & Sa). exists r. rewrite E3. split; [exact Er|].
  rewrite E4; [|now apply (moved_nonempty _ _ _ Mv) | reflexivity | unfold margin; auto].
  apply (Sa sc ex pts pts'). apply (moved_adjust (kept_longitude b m FES around x0 dx nx f)); auto.
  - intros K. destruct Hx as (_ & L & _). rewrite K in L. cbn in L. lia.
  - assert (Sh : forall k', node_x Heights x0 dx a - INR (bef around') * dx + INR k' * dx = node_x Heights x0 dx (a - Z.of_nat (bef around') + Z.of_nat k')) by (intros; unfold node_x; rewrite plus_IZR, minus_IZR, <- !INR_IZR_INZ; ring).
    intros v. split.
    + intros Hv. destruct (evenly_in _ _ _ _ _ Hx Hv) as (k' & Hk' & ->). rewrite Sh. exists (a - Z.of_nat (bef around') + Z.of_nat k')%Z. split; [|reflexivity]. destruct around'.
      * destruct (proj1 Ha eq_refl) as [Ka ->]. assert (a = f) by lia. subst a. right. split; [auto|]. split; [apply Cols; lia|]. split; [apply Cols; lia|]. unfold bef, aft, behind in *. lia.
      * left. unfold bef, aft in *. split; [lia|]. apply Cols; lia.
    + intros (k' & Av & ->). assert (Rk : (a - Z.of_nat (bef around') <= k' < a - Z.of_nat (bef around') + Z.of_nat (bef around' + na + aft FES around'))%Z).
      { destruct Av as [[A1 A2]|(A1 & A2 & A3 & A4)].
        - apply Cols in A2; auto. lia.
        - apply Cols in A2; [|lia]. apply Cols in A3; [|lia]. assert (Ea : around' = true) by (apply Ha; split; [auto|lia]). rewrite Ea. unfold bef, aft, behind in *. lia. }
      replace (node_x Heights x0 dx k') with (nth (Z.to_nat (k' - a + Z.of_nat (bef around'))) (alon r) 0).
      * apply nth_In. destruct Hx as (_ & -> & _). lia.
      * destruct Hx as (_ & _ & E). rewrite E by lia. rewrite Sh. f_equal. lia.
Qed.
Print Assumptions C90_cropped.
