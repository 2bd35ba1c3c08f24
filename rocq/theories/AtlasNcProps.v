(** C70: what is written to ATLAS netCDF files is read back. *)
From Coq Require Import Reals List Bool Arith ZArith Lra Lia.
From Verif Require Import PyBase RBase GeoModel ExtractModel ExtractSpec NodeProps AtlasNcModel AtlasNcSpec.
From Verif Require OtisModel.
Import ListNotations.
Open Scope R_scope.

Lemma transposed_rect {A} (d : A) ny nx m : rect ny nx m -> rect nx ny (transposed d nx m).
Proof.
  intros [L _]. unfold transposed. split; [now rewrite map_length, seq_length|]. intros r Hr. apply in_map_iff in Hr as (i & <- & _). now rewrite map_length.
Qed.
Lemma transposed_entry {A} (d d' : A) ny nx m j i : rect ny nx m -> (j < ny)%nat -> (i < nx)%nat -> entry d' (transposed d nx m) i j = entry d m j i.
Proof.
  intros [L _] Hj Hi. unfold entry, transposed. rewrite (nth_indep (map _ (seq 0 nx)) [] (map (fun row : list A => nth 0 row d) m)) by now rewrite map_length, seq_length.
  rewrite (map_nth (fun i => map (fun row : list A => nth i row d) m) (seq 0 nx) 0%nat i), seq_nth by auto. cbn [Nat.add].
  rewrite (nth_indep _ d' (nth i [] d)) by (rewrite map_length; lia). apply (map_nth (fun row : list A => nth i row d) m [] j).
Qed.
Lemma whole_rect {A} ny nx (m : list (list A)) : whole ny nx m = true <-> rect ny nx m.
Proof.
  unfold whole, rect. rewrite andb_true_iff, Nat.eqb_eq, forallb_forall. split; intros [H1 H2]; (split; [auto|]); intros r Hr; specialize (H2 r Hr); now apply Nat.eqb_eq.
Qed.
Lemma columns_rect {A} ny nx (m : list (list A)) : (0 < ny)%nat -> rect ny nx m -> columns_of m = nx.
Proof. intros Hn [L H]. unfold columns_of. destruct m as [|r m]; [cbn in L; lia|]. apply H. now left. Qed.

(** ** Grids *)
Definition sketched (ny nx : nat) (k : sketch) : Prop := length (klon k) = nx /\ length (klat k) = ny /\ rect ny nx (kdepth k).
Lemma sketched_fits ny nx k : sketched ny nx k -> sketch_fits ny nx k = true.
Proof. intros (H1 & H2 & H3). unfold sketch_fits. rewrite H1, H2, !Nat.eqb_refl. cbn [andb]. now apply whole_rect. Qed.
Lemma stored_nodes ny nx k : rect ny nx (kdepth k) ->
  rect ny nx (map (map depth_at) (transposed 0 ny (ndepth (store_nodes nx k)))) /\
  forall j i, (j < ny)%nat -> (i < nx)%nat ->
    entry (None, true) (map (map depth_at) (transposed 0 ny (ndepth (store_nodes nx k)))) j i = depth_at (stored_depth (entry (0, true) (kdepth k) j i)).
Proof.
  intros Rk. unfold store_nodes. cbn [ndepth]. assert (R1 : rect ny nx (map (map stored_depth) (kdepth k))) by now apply map_rect.
  assert (R2 := transposed_rect 0 ny nx _ R1). assert (R3 := transposed_rect 0 nx ny _ R2). split; [now apply map_rect|].
  intros j i Hj Hi. rewrite (map_entry depth_at ny nx _ 0 (None, true)) by auto. f_equal. rewrite (transposed_entry 0 0 nx ny _ i j R2 Hi Hj), (transposed_entry 0 0 ny nx _ j i R1 Hj Hi).
  now rewrite (map_entry stored_depth ny nx _ (0, true) 0) by auto.
Qed.

(** coordinates and depths are read back for the nodes of each variable; cells that were
    masked or zero come back masked, all others with their depth *)
Theorem C70_grid : forall z u v ny nx, (0 < ny)%nat -> sketched ny nx z -> sketched ny nx u -> sketched ny nx v ->
  exists g, output_netcdf_grid z u v = Ok g /\
  forall t k, (t = Vz /\ k = z \/ (t = Vu \/ t = VU) /\ k = u \/ (t = Vv \/ t = VV) /\ k = v) ->
    exists b, read_netcdf_grid t g = Ok (klon k, klat k, b) /\ rect ny nx b /\
    forall j i, (j < ny)%nat -> (i < nx)%nat ->
      let '(h, m) := entry (0, true) (kdepth k) j i in
      entry (None, true) b j i = if m then (Some 0, true) else if Req_EM_T h 0 then (Some 0, true) else (Some h, false).
Proof.
  intros z u v ny nx Hn Sz Su Sv. unfold output_netcdf_grid. pose proof Sz as (_ & _ & Rz). pose proof Su as (_ & _ & Ru). pose proof Sv as (_ & _ & Rv).
  rewrite (columns_rect ny nx) by auto. rewrite (proj1 Rz). rewrite !(sketched_fits ny nx) by auto. cbn [andb]. eexists. split; [reflexivity|].
  intros t k Hk. assert (Go : forall k, rect ny nx (kdepth k) -> exists b, Ok (nlon (store_nodes nx k), nlat (store_nodes nx k), map (map depth_at) (transposed 0 ny (ndepth (store_nodes nx k)))) = Ok (klon k, klat k, b) /\ rect ny nx b /\
    forall j i, (j < ny)%nat -> (i < nx)%nat ->
      let '(h, m) := entry (0, true) (kdepth k) j i in
      entry (None, true) b j i = if m then (Some 0, true) else if Req_EM_T h 0 then (Some 0, true) else (Some h, false)).
  { intros k' Rk. destruct (stored_nodes ny nx k' Rk) as [R1 E1]. eexists. split; [reflexivity|]. split; [exact R1|]. intros j i Hj Hi. rewrite E1 by auto.
    destruct (entry (0, true) (kdepth k') j i) as [h m]. unfold stored_depth, depth_at, req. cbn [fst snd]. destruct m; [destruct (Req_EM_T 0 0); [reflexivity|congruence]|]. destruct (Req_EM_T h 0); [now subst|reflexivity]. }
  destruct Hk as [[-> ->]|[[[-> | ->] ->]|[[-> | ->] ->]]]; unfold read_netcdf_grid; cbn [nodes_of bind fz fu fv fny]; now apply Go.
Qed.
Print Assumptions C70_grid.

(** arrays of different shapes are refused *)
Theorem C70_grid_shape : forall z u v g, output_netcdf_grid z u v = Ok g ->
  exists ny nx, sketched ny nx z /\ sketched ny nx u /\ sketched ny nx v /\ fny g = ny /\ fnx g = nx.
Proof.
  intros z u v g H. unfold output_netcdf_grid in H. destruct (sketch_fits _ _ z && sketch_fits _ _ u && sketch_fits _ _ v) eqn:E; [|discriminate].
  injection H as <-. cbn [fny fnx]. apply andb_prop in E as [E E3]. apply andb_prop in E as [E1 E2]. exists (length (kdepth z)), (columns_of (kdepth z)).
  assert (K : forall k ny nx, sketch_fits ny nx k = true -> sketched ny nx k).
  { intros k ny nx Hk. unfold sketch_fits in Hk. apply andb_prop in Hk as [Hk H3]. apply andb_prop in Hk as [H1 H2]. apply Nat.eqb_eq in H1. apply Nat.eqb_eq in H2. apply whole_rect in H3. repeat split; auto; apply H3. }
  auto.
Qed.
Print Assumptions C70_grid_shape.

(** ** Constants *)
Lemma stored_parts ny nx h : rect ny nx h -> exists f, read_parts ny (Some (store_parts nx h)) = Ok f /\ rect ny nx f /\
  forall j i, (j < ny)%nat -> (i < nx)%nat -> entry (None, true) f j i = joined (stored_part cre (entry (None, true) h j i)) (stored_part cim (entry (None, true) h j i)).
Proof.
  intros Rh. unfold store_parts, read_parts. eexists. split; [reflexivity|].
  assert (R1 : forall p, rect ny nx (map (map (stored_part p)) h)) by (intros; now apply map_rect).
  assert (R2 := fun p => transposed_rect None ny nx _ (R1 p)). assert (R3 := fun p => transposed_rect None nx ny _ (R2 p)). split; [now apply zip22_rect|].
  intros j i Hj Hi. rewrite (zip22_entry joined ny nx _ _ None None) by auto.
  rewrite !(transposed_entry None None nx ny _ i j (R2 _) Hi Hj), !(transposed_entry None None ny nx _ j i (R1 _) Hj Hi).
  now rewrite !(map_entry (stored_part _) ny nx _ (None, true) None) by auto.
Qed.
Definition kept_back (c r : option (R * R) * bool) : Prop :=
  r = (if snd c then Some (0, 0) else fst c, false).
Lemma joined_back c : kept_back c (joined (stored_part cre c) (stored_part cim c)).
Proof. unfold kept_back, joined, stored_part. destruct c as [[[a b]|] []]; reflexivity. Qed.

(** every constant is read back; masked ones come back as zeros that are not masked *)
Theorem C70_elevation : forall h con ny nx, (0 < ny)%nat -> rect ny nx h -> (length con <= 4)%nat ->
  exists f, output_netcdf_elevation h con = Ok f /\
  exists hc name, read_netcdf_file Vz f = Ok (hc, name) /\ rect ny nx hc /\
    forall j i, (j < ny)%nat -> (i < nx)%nat -> kept_back (entry (None, true) h j i) (entry (None, true) hc j i).
Proof.
  intros h con ny nx Hn Rh Hc. unfold output_netcdf_elevation. rewrite (columns_rect ny nx) by auto. rewrite (proj1 Rh). rewrite (proj2 (whole_rect ny nx h) Rh).
  unfold store_name. assert (Hc' : (4 <? length con)%nat = false) by now apply Nat.ltb_ge. rewrite Hc'. cbn [bind]. eexists. split; [reflexivity|].
  unfold read_netcdf_file. cbn [th tny]. destruct (stored_parts ny nx h Rh) as (f & -> & R1 & E1). cbn [bind]. eexists. eexists. split; [reflexivity|]. split; [exact R1|].
  intros j i Hj Hi. rewrite E1 by auto. apply joined_back.
Qed.
Print Assumptions C70_elevation.
Theorem C70_transport : forall u v con ny nx, (0 < ny)%nat -> rect ny nx u -> rect ny nx v -> (length con <= 4)%nat ->
  exists f, output_netcdf_transport u v con = Ok f /\
  forall t h, ((t = Vu \/ t = VU) /\ h = u \/ (t = Vv \/ t = VV) /\ h = v) ->
  exists hc name, read_netcdf_file t f = Ok (hc, name) /\ rect ny nx hc /\
    forall j i, (j < ny)%nat -> (i < nx)%nat -> kept_back (entry (None, true) h j i) (entry (None, true) hc j i).
Proof.
  intros u v con ny nx Hn Ru Rv Hc. unfold output_netcdf_transport. rewrite (columns_rect ny nx) by auto. rewrite (proj1 Ru). rewrite (proj2 (whole_rect ny nx u) Ru), (proj2 (whole_rect ny nx v) Rv). cbn [andb].
  unfold store_name. assert (Hc' : (4 <? length con)%nat = false) by now apply Nat.ltb_ge. rewrite Hc'. cbn [bind]. eexists. split; [reflexivity|].
  intros t h Ht. assert (Go : forall h, rect ny nx h -> exists f, read_parts ny (Some (store_parts nx h)) = Ok f /\ rect ny nx f /\ forall j i, (j < ny)%nat -> (i < nx)%nat -> kept_back (entry (None, true) h j i) (entry (None, true) f j i)).
  { intros h' Rh. destruct (stored_parts ny nx h' Rh) as (f & E & R1 & E1). exists f. split; [exact E|]. split; auto. intros j i Hj Hi. rewrite E1 by auto. apply joined_back. }
  destruct Ht as [[[-> | ->] ->]|[[-> | ->] ->]]; unfold read_netcdf_file; cbn [tu tv tny];
    [destruct (Go u Ru) as (f & -> & R1 & E1)|destruct (Go u Ru) as (f & -> & R1 & E1)|destruct (Go v Rv) as (f & -> & R1 & E1)|destruct (Go v Rv) as (f & -> & R1 & E1)]; cbn [bind]; eexists; eexists; (split; [reflexivity|auto]).
Qed.
Print Assumptions C70_transport.

(** C70 refuted: masks are lost *)
Theorem C70_masks_refuted : forall h con ny nx f hc name j i, (0 < ny)%nat -> rect ny nx h -> (length con <= 4)%nat ->
  output_netcdf_elevation h con = Ok f -> read_netcdf_file Vz f = Ok (hc, name) -> (j < ny)%nat -> (i < nx)%nat ->
  snd (entry (None, true) h j i) = true -> entry (None, true) hc j i = (Some (0, 0), false).
Proof.
  intros h con ny nx f hc name j i Hn Rh Hc Ho Hr Hj Hi Hm. destruct (C70_elevation h con ny nx Hn Rh Hc) as (f' & Ef & hc' & name' & E & _ & K).
  rewrite Ho in Ef. apply Ok_inj in Ef as <-. rewrite Hr in E. injection E as -> ->. specialize (K j i Hj Hi). unfold kept_back in K. now rewrite K, Hm.
Qed.
Print Assumptions C70_masks_refuted.

(** a file of heights has no transports, and a file of transports no heights *)
Theorem C70_other_variable : forall h u v con f f', output_netcdf_elevation h con = Ok f -> output_netcdf_transport u v con = Ok f' ->
  read_netcdf_file Vz f' = Err KeyError /\ forall t, In t [Vu; VU; Vv; VV] -> read_netcdf_file t f = Err KeyError.
Proof.
  intros h u v con f f' H H'. unfold output_netcdf_elevation in H. unfold output_netcdf_transport in H'. destruct (whole _ _ h); [|discriminate]. destruct (whole _ _ u && _); [|discriminate].
  destruct (store_name con); [|discriminate]. cbn [bind] in *. apply Ok_inj in H as <-. apply Ok_inj in H' as <-. split; [reflexivity|].
  intros t [<-|[<-|[<-|[<-|[]]]]]; reflexivity.
Qed.
Print Assumptions C70_other_variable.

(** ** Names *)
Lemma lstrip_length b : (length (OtisModel.lstrip b) <= length b)%nat.
Proof. induction b as [|c b IH]; [auto|]. cbn. destruct (OtisModel.blank c); cbn; lia. Qed.
Lemma lstrip_zero t : OtisModel.lstrip (0%Z :: t) = 0%Z :: t.
Proof. reflexivity. Qed.
Lemma wide_last s : s <> [] -> exists l, wide s = l ++ [0%Z].
Proof.
  intros H. destruct (@exists_last _ s H) as (s' & c & ->). unfold wide. rewrite flat_map_app. cbn [flat_map app]. exists (flat_map (fun c => [c; 0; 0; 0]%Z) s' ++ [c; 0; 0]%Z). now rewrite <- app_assoc.
Qed.
Lemma wide_length s : length (wide s) = (4 * length s)%nat.
Proof. unfold wide. induction s as [|c s IH]; [auto|]. cbn [flat_map app length] in *. lia. Qed.
Lemma wide_strip s : s <> [] -> (4 * length s - 1 <= length (OtisModel.strip (wide s)))%nat.
Proof.
  intros Hs. assert (L1 : (4 * length s - 1 <= length (OtisModel.lstrip (wide s)))%nat /\ exists l, OtisModel.lstrip (wide s) = l ++ [0%Z]).
  { destruct s as [|c s]; [congruence|]. cbn [wide flat_map app OtisModel.lstrip]. destruct (OtisModel.blank c).
    - change (OtisModel.blank 0) with false. cbn iota. split; [cbn [length]; fold (wide s); rewrite wide_length; lia|].
      destruct s as [|c' s]; [exists [0; 0]%Z; reflexivity|]. destruct (wide_last (c' :: s)) as (l & E); [discriminate|]. fold (wide (c' :: s)). rewrite E. exists (0 :: 0 :: 0 :: l)%Z. reflexivity.
    - split; [cbn [length]; fold (wide s); rewrite wide_length; lia|]. destruct (wide_last (c :: s)) as (l & E); [discriminate|]. exists l. exact E. }
  destruct L1 as [L1 (l & E)]. unfold OtisModel.strip. rewrite rev_length. rewrite E in *. rewrite rev_app_distr. cbn [rev app]. rewrite lstrip_zero. cbn [length]. rewrite rev_length. rewrite app_length in L1. cbn in L1. lia.
Qed.

(** C70 refuted: no name that is written is read back, because the variable has the
    attribute _Encoding: what is read has at least fifteen characters *)
Theorem C70_names_refuted : forall h con f hc name, output_netcdf_elevation h con = Ok f -> read_netcdf_file Vz f = Ok (hc, name) ->
  (15 <= length name)%nat /\ name <> con.
Proof.
  intros h con f hc name H Hr. unfold output_netcdf_elevation in H. destruct (whole _ _ h); [|discriminate]. unfold store_name in H.
  destruct (4 <? length con)%nat eqn:Hc; [discriminate|]. apply Nat.ltb_ge in Hc. cbn [bind] in H. apply Ok_inj in H as <-. unfold read_netcdf_file in Hr. cbn [th tny] in Hr.
  destruct (read_parts _ _); [|discriminate]. cbn [bind] in Hr. unfold read_name in Hr. cbn [tencoded tname] in Hr. injection Hr as _ <-.
  assert (L : length (OtisModel.ljust4 con) = 4%nat) by (unfold OtisModel.ljust4; rewrite app_length, repeat_length; lia).
  assert (N : OtisModel.ljust4 con <> []) by (intros K; rewrite K in L; discriminate).
  pose proof (wide_strip _ N) as W. rewrite L in W. split; [lia|]. intros K. rewrite K in W. lia.
Qed.
Print Assumptions C70_names_refuted.

(** without that attribute, as in the files that are distributed, a name without blanks
    around it is read back *)
Theorem C70_names : forall f con, tencoded f = false -> (length con <= 4)%nat -> tname f = con ++ repeat 32%Z (4 - length con) ->
  (forall c, hd_error con = Some c -> OtisModel.blank c = false) -> (forall c, hd_error (rev con) = Some c -> OtisModel.blank c = false) ->
  read_name f = con.
Proof.
  intros f con He Hc Hn H1 H2. unfold read_name. rewrite He, Hn. unfold OtisModel.strip.
  assert (Sp : forall n l, OtisModel.lstrip (repeat 32%Z n ++ l) = OtisModel.lstrip l) by (induction n as [|n IH]; intros l; [reflexivity|cbn; apply IH]).
  assert (St : forall l, (forall c, hd_error l = Some c -> OtisModel.blank c = false) -> OtisModel.lstrip l = l).
  { intros [|c l] H; [reflexivity|]. cbn. now rewrite (H c eq_refl). }
  destruct con as [|c con].
  - reflexivity.
  - rewrite (St ((c :: con) ++ _)) by (intros c' K; apply H1; exact K).
    rewrite rev_app_distr. replace (rev (repeat 32%Z (4 - length (c :: con)))) with (repeat 32%Z (4 - length (c :: con))).
    + rewrite Sp, (St (rev (c :: con))) by exact H2. apply rev_involutive.
    + generalize (4 - length (c :: con))%nat as n. induction n as [|n IH]; [reflexivity|]. cbn [repeat rev]. rewrite <- IH. clear. induction n as [|n IH]; [reflexivity|]. cbn. now f_equal.
Qed.
Print Assumptions C70_names.
Theorem C70_long_names_refuted : forall h con, (4 < length con)%nat -> output_netcdf_elevation h con = Err OtherError.
Proof.
  intros h con Hc. unfold output_netcdf_elevation, store_name. assert (K : (4 <? length con)%nat = true) by now apply Nat.ltb_lt. rewrite K. now destruct (whole _ _ h).
Qed.
Print Assumptions C70_long_names_refuted.

(** ** Cases *)
Definition small : field := [[(Some (1, 2), false); (Some (3, 4), true)]; [(None, false); (Some (0, 5), false)]].
Definition small_sketch : sketch := Sketch [10; 11] [50; 51] [[(100, false); (200, true)]; [(0, false); (300, false)]].
Example C70_elevation_case : rect 2 2 small /\ exists f, output_netcdf_elevation small [109; 50]%Z = Ok f /\
  exists name, read_netcdf_file Vz f = Ok ([[(Some (1, 2), false); (Some (0, 0), false)]; [(None, false); (Some (0, 5), false)]], name).
Proof. split; [repeat split; intros r [<-|[<-|[]]]; reflexivity|]. eexists. split; [reflexivity|]. eexists. reflexivity. Qed.
Example C70_grid_case : sketched 2 2 small_sketch /\ exists g, output_netcdf_grid small_sketch small_sketch small_sketch = Ok g /\
  exists b, read_netcdf_grid VU g = Ok ([10; 11], [50; 51], b) /\ entry (None, true) b 0 0 = (Some 100, false) /\ entry (None, true) b 0 1 = (Some 0, true) /\ entry (None, true) b 1 0 = (Some 0, true).
Proof.
  assert (S0 : sketched 2 2 small_sketch) by (repeat split; intros r [<-|[<-|[]]]; reflexivity). split; auto.
  destruct (C70_grid small_sketch small_sketch small_sketch 2 2) as (g & Eg & K); auto. exists g. split; auto.
  destruct (K VU small_sketch) as (b & Eb & _ & Kb); auto. exists b. split; [exact Eb|].
  pose proof (Kb 0%nat 0%nat ltac:(lia) ltac:(lia)) as K1. pose proof (Kb 0%nat 1%nat ltac:(lia) ltac:(lia)) as K2. pose proof (Kb 1%nat 0%nat ltac:(lia) ltac:(lia)) as K3.
  cbn in K1, K2, K3. destruct (Req_EM_T 100 0); [exfalso; lra|]. destruct (Req_EM_T 0 0); [|congruence]. auto.
Qed.
Example C70_names_case : exists f hc name, output_netcdf_elevation small [109; 50]%Z = Ok f /\ read_netcdf_file Vz f = Ok (hc, name) /\
  name = [109; 0; 0; 0; 50; 0; 0; 0; 32; 0; 0; 0; 32; 0; 0; 0]%Z /\ read_name (TideFile 2 2 [109; 50; 32; 32]%Z false None None None) = [109; 50]%Z.
Proof. eexists. eexists. eexists. repeat split; reflexivity. Qed.
