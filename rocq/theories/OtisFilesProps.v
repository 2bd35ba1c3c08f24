(** C81: from the bytes of OTIS files to the heights returned for a request. *)
From Coq Require Import String Ascii Reals ZArith List Bool Lia Lra.
From Verif Require Import PyBase RBase StrBase GeoModel OtisModel OtisProofs OtisProps InterpModel PredictModel PredictProps InferModel ComputeModel ComputeSpec
  ExtractModel ExtractSpec ExtractProofs ExtractProps ElevationModel ElevationSpec ElevationProps ElevationProps2 OtisFilesSpec OtisFilesModel OtisFilesProofs.
Import ListNotations.
Open Scope R_scope.
Open Scope list_scope.

(** the file with all constituents, or a file for each of them *)
Inductive holds (s : survey) (names : list string) (td : tides) : source -> Prop :=
| holds_one : legible names -> holds s names td (OneFile (bytes_of s names td))
| holds_each files : (forall c, In c names -> plain c /\ (String.length c <= 4)%nat) -> List.length files = List.length names ->
    (forall c name, nth_error names c = Some name -> nth_error files c = Some (bytes_of s [name] (only c td))) ->
    holds s names td (FilePerConstituent files).
(** the constituents of a kind of node *)
Definition field_of (k : kind) (td : tides) : option (nat -> nat -> nat -> Z * Z) :=
  match k, td with Heights, Elevations h => Some h | Zonal, Transports u _ => Some u | Meridional, Transports _ v => Some v | _, _ => None end.
(** a grid file and files of constituents that belong together: D are the depths, f the
    patterns of the constants *)
Definition tide_files (geo around : bool) (k : kind) (s : survey) (names : list string) (td : tides) (src : source)
    (D : nat -> nat -> R) (f : nat -> nat -> nat -> Z * Z) (xa xb ya yb dt : R) : Prop :=
  storable s (List.length names) /\ names <> [] /\ holds s names td src /\ stored_patterns td /\ field_of k td = Some f /\
  bounded s xa xb ya yb dt /\ (forall j i, single (s_depth s j i) = Some (D j i)) /\ (2 <= s_nx s)%nat /\ (2 <= s_ny s)%nat /\ extent geo around xa xb (s_nx s).

Lemma finite_ok x r : bits32 x -> single x = Some r -> finite x = Ok r.
Proof. intros H E. unfold finite. now rewrite float32_single, E. Qed.
Lemma mapM_map {A B C} (f : B -> res C) (g : A -> B) (h : A -> C) l : (forall a, In a l -> f (g a) = Ok (h a)) -> mapM f (map g l) = Ok (map h l).
Proof. induction l as [|a l IH]; intros H; [reflexivity|]. cbn. rewrite (H a (or_introl eq_refl)). cbn. rewrite IH by (intros; apply H; now right). reflexivity. Qed.
Lemma mapM_seq {A} (f : nat -> res A) (h : nat -> A) l : (forall a, In a l -> f a = Ok (h a)) -> mapM f l = Ok (map h l).
Proof. intros H. rewrite <- (map_id l) at 1. now apply mapM_map. Qed.
Lemma limits_ok a b x y : bits32 a -> bits32 b -> single a = Some x -> single b = Some y -> limits [a; b] = Ok (x, y).
Proof. intros Ha Hb Ea Eb. unfold limits. now rewrite (finite_ok a x), (finite_ok b y). Qed.

Lemma grid_limits_first xa xb dt : xa < xb ->
  exists o, grid_limits (xa, xb) dt = (xa + o, xb + o) /\ forall nx, first_centre xa xb dt nx = xa + o + (xb - xa) / INR nx / 2.
Proof.
  intros H. unfold grid_limits, first_centre, rlt. cbn [fst snd].
  destruct (Rlt_dec xa 0); [|exists 0; cbn [andb]; rewrite !Rplus_0_r; auto].
  destruct (Rlt_dec xb 0); [|exists 0; cbn [andb]; rewrite !Rplus_0_r; auto].
  destruct (Rlt_dec 0 dt); [|exists 0; cbn [andb]; rewrite !Rplus_0_r; auto].
  exists 360. cbn [andb]. auto.
Qed.

Lemma loaded_grid geo around k s names td src D f xa xb ya yb dt : tide_files geo around k s names td src D f xa xb ya yb dt ->
  exists g, grid_of_file (grid_bytes s) = Ok g /\ ghz g = table (s_ny s) (s_nx s) D /\ gmz g = table (s_ny s) (s_nx s) (s_mask s) /\
    evenly (first_centre xa xb dt (s_nx s)) ((xb - xa) / INR (s_nx s)) (s_nx s) (gx g) /\
    evenly (ya + (yb - ya) / INR (s_ny s) / 2) ((yb - ya) / INR (s_ny s)) (s_ny s) (gy g).
Proof.
  intros (St & Nn & Ho & Hp & Hf & (B1 & B2 & B3 & B4 & B5 & Hx & Hy) & Hd & Lx & Ly & He).
  unfold grid_of_file. rewrite (grid_bytes_read s _ St). cbn [bind g_xlim g_ylim g_dt g_hz g_nx g_ny g_mz].
  destruct St as (X1 & X2 & Y1 & Y2 & Dt & Hb & _).
  rewrite (limits_ok _ _ xa xb), (limits_ok _ _ ya yb), (finite_ok _ dt) by assumption. cbn [bind].
  unfold table at 1. rewrite (mapM_map _ _ (fun j => map (D j) (seq 0 (s_nx s)))).
  2:{ intros j _. apply mapM_map. intros i _. now apply finite_ok. }
  cbn [bind]. rewrite !Nat2Z.id. eexists. split; [reflexivity|]. cbn [ghz gmz gx gy]. split; [reflexivity|]. split; [reflexivity|].
  unfold otis_axes. cbn [fst snd]. destruct (grid_limits_first xa xb dt Hx) as (o & -> & ->). split.
  - replace ((xb - xa) / INR (s_nx s)) with (((xb + o) - (xa + o)) / INR (s_nx s)) by (f_equal; ring). apply centres_evenly; [assumption|lra].
  - apply centres_evenly; assumption.
Qed.

Lemma one_storable s (names : list string) : storable s (List.length names) -> names <> [] -> storable s 1.
Proof.
  intros (X1 & X2 & Y1 & Y2 & D & Hd & Hm & Ho & Lo & Lx & Lc & Nx & Ny) Nn. unfold storable.
  assert (28 + 4 * Z.of_nat 1 < 2 ^ 31)%Z by (change (2 ^ 31)%Z with 2147483648%Z; lia). tauto.
Qed.
Definition constants_of (s : survey) (names : list string) (f : nat -> nat -> nat -> Z * Z) : list field :=
  map (fun c => table (s_ny s) (s_nx s) (fun j i => value (clean (f c j i)))) (seq 0 (List.length names)).
Lemma variable_read t k s names td f c : storable s (List.length names) -> legible names -> stored_patterns td -> kind_of t = Some k -> field_of k td = Some f ->
  (c < List.length names)%nat -> read_variable t c (bytes_of s names td) = Ok (table (s_ny s) (s_nx s) (fun j i => value (clean (f c j i)))).
Proof.
  intros St Hn Hp Hk Hf Hc. unfold read_variable, bytes_of.
  destruct t; cbn in Hk; try discriminate; injection Hk as <-; destruct td as [h|u v]; cbn in Hf; try discriminate; injection Hf as <-;
    first [rewrite height_bytes_read by assumption | destruct Hp; rewrite transport_bytes_read by assumption];
    cbn [bind fst snd]; unfold values; now rewrite table_map.
Qed.
Lemma names_loaded s names td src : storable s (List.length names) -> names <> [] -> holds s names td src ->
  names_of src = Ok (names, Z.of_nat (List.length names)).
Proof.
  intros St Nn H. destruct H as [Hn|files Hn Lf H]; unfold names_of.
  - assert (E : run read_constituents (bytes_of s names td) = Ok (map characters names, Z.of_nat (List.length names))) by (destruct td; now apply heading_names).
    rewrite E. cbn [bind fst snd]. rewrite map_map. rewrite (map_ext _ (fun c => c)) by apply decode_characters. now rewrite map_id.
  - assert (E : mapM (fun f => do r <- run read_constituents f ;; match rev (fst r) with [] => Err IndexError | c :: _ => Ok (decode c) end) files = Ok names).
    { pose proof (one_storable s names St Nn) as S1. clear St Nn. revert files td Lf H. induction names as [|c names IH]; intros [|f files] td Lf H; try discriminate; [reflexivity|].
      pose proof (H 0%nat c eq_refl) as E. cbn in E. injection E as ->. cbn [mapM].
      assert (Hc : legible [c]). { split; [|intros d []]. intros d [<-|[]]. apply Hn. now left. }
      assert (E : run read_constituents (bytes_of s [c] (only 0 td)) = Ok (map characters [c], Z.of_nat 1)) by (destruct td; now apply (heading_names s [c])).
      rewrite E. cbn [bind fst snd map rev app]. rewrite decode_characters.
      rewrite (IH (fun d Hd => Hn d (or_intror Hd)) files (match td with Elevations h => Elevations (fun c => h (S c)) | Transports u v => Transports (fun c => u (S c)) (fun c => v (S c)) end)).
      - reflexivity.
      - now injection Lf.
      - intros n name En. specialize (H (S n) name En). cbn in H. rewrite H. now destruct td. }
    rewrite E. reflexivity.
Qed.
Lemma fields_loaded t k s names td f src : storable s (List.length names) -> names <> [] -> holds s names td src -> stored_patterns td -> kind_of t = Some k -> field_of k td = Some f ->
  mapM (read_field t src) (seq 0 (List.length names)) = Ok (constants_of s names f).
Proof.
  intros St Nn H Hp Hk Hf. apply mapM_seq. intros c Hc. apply in_seq in Hc. destruct H as [Hn|files Hn Lf H]; unfold read_field.
  - apply (variable_read t k); try assumption. lia.
  - destruct (nth_error names c) as [name|] eqn:En; [|apply nth_error_None in En; lia]. unfold get1. rewrite (H c name En). cbn [bind].
    pose proof (one_storable s names St Nn) as S1.
    assert (Hc' : legible [name]). { split; [|intros d []]. intros d [<-|[]]. apply Hn. eapply nth_error_In; eauto. }
    rewrite (variable_read t k s [name] (only c td) (fun _ => f c) 0); auto.
    + destruct td; cbn in *; [intros ? ? ?; apply Hp|]. destruct Hp as [P1 P2]. split; intros ? ? ?; [apply P1|apply P2].
    + destruct k, td; cbn in *; try discriminate; injection Hf as <-; reflexivity.
Qed.

Lemma loaded fwd geo around t k s names td src D f xa xb ya yb dt other corr minor : tide_files geo around k s names td src D f xa xb ya yb dt -> kind_of t = Some k ->
  exists g m, otis_files fwd geo t (grid_bytes s) src other corr minor = Ok m /\ bm_names m = names /\ bm_corrections m = corr /\ bm_minor m = minor /\
    (forall METHOD ll, bm_extract m METHOD ll = bm_extract (otis_model fwd geo t g (constants_of s names f) other names corr minor) METHOD ll) /\
    ghz g = table (s_ny s) (s_nx s) D /\ gmz g = table (s_ny s) (s_nx s) (s_mask s) /\
    model_grid geo around (first_centre xa xb dt (s_nx s)) ((xb - xa) / INR (s_nx s)) (s_nx s) (ya + (yb - ya) / INR (s_ny s) / 2) ((yb - ya) / INR (s_ny s)) (s_ny s)
      g (constants_of s names f).
Proof.
  intros T Hk. destruct (loaded_grid _ _ _ _ _ _ _ _ _ _ _ _ _ _ T) as (g & Eg & G1 & G2 & G3 & G4).
  destruct T as (St & Nn & Ho & Hp & Hf & Hb & Hd & Lx & Ly & He). exists g. unfold otis_files. rewrite Eg, (names_loaded s names td src St Nn Ho). cbn [bind fst snd].
  replace (Z.of_nat (List.length names) <? 0)%Z with false by (symmetry; apply Z.ltb_ge; lia). cbn [bind].
  rewrite (fields_loaded t k s names td f src St Nn Ho Hp Hk Hf). cbn [bind]. rewrite Z.ltb_irrefl. cbn [bind]. rewrite Nat2Z.id, Nat.sub_diag. cbn [repeat].
  eexists. split; [reflexivity|]. cbn [bm_names bm_corrections bm_minor bm_extract]. repeat split; try assumption.
  - intros METHOD ll. unfold otis_model, by_method. cbn [bm_extract]. destruct (method_of METHOD) as [me|]; [|reflexivity].
    destruct (extract_constants _ _ _ _ _ _ _); [|reflexivity]. cbn [bind]. f_equal. apply map_ext. intros r. apply app_nil_r.
  - apply G3. - apply G3. - apply G3. - apply G4. - apply G4. - apply G4.
  - rewrite G1. apply table_length. - rewrite G1. apply table_rows.
  - rewrite G2. apply table_length. - rewrite G2. apply table_rows.
  - unfold constants_of in H. apply in_map_iff in H as (c & <- & _). apply table_length.
  - intros r Hr. unfold constants_of in H. apply in_map_iff in H as (c & <- & _). eapply table_rows; eauto.
  - destruct He as [(E1 & E2 & E3)|[E1 E2]]; [left|right]; repeat split; auto.
    rewrite E3. field. apply not_0_INR. lia.
Qed.
Lemma elevations_ext proj clock A B freq gam m m' METHOD TIME CORRECTIONS INFER MINOR TYPE x y ts :
  (forall M ll, bm_extract m M ll = bm_extract m' M ll) -> bm_names m = bm_names m' -> bm_corrections m = bm_corrections m' -> bm_minor m = bm_minor m' ->
  elevations proj clock A B freq gam m true METHOD TIME CORRECTIONS INFER MINOR TYPE x y ts = elevations proj clock A B freq gam m' true METHOD TIME CORRECTIONS INFER MINOR TYPE x y ts.
Proof.
  intros E1 E2 E3 E4. unfold elevations. cbn [negb]. destruct (check (mem_str (lower TIME) time_names)); [|reflexivity]. cbn [bind].
  destruct (check (mem_str (lower METHOD) method_names)); [|reflexivity]. cbn [bind]. destruct (prepare _ _ _ _ _ _ _) as [[[[T x'] ll] sts]|]; [|reflexivity]. cbn [bind].
  now rewrite E1, E2, E3, E4.
Qed.

Lemma column_lt nx i : (0 < nx)%nat -> (column nx i < nx)%nat.
Proof. intros H. unfold column. pose proof (Z.mod_pos_bound i (Z.of_nat nx)). lia. Qed.
Lemma water_table ny nx around k (D : nat -> nat -> R) (mz : nat -> nat -> Z) j i : (j < ny)%nat -> (i < nx)%nat ->
  water (ExtractSpec.entry 0 (table ny nx D)) (ExtractSpec.entry 0%Z (table ny nx mz)) around nx k j i = water D mz around nx k j i.
Proof.
  intros Hj Hi. assert (Hw : (west around nx i < nx)%nat) by (unfold west; destruct i, around; lia). assert (Hs : (south j < ny)%nat) by (unfold south; lia).
  unfold water. destruct k; rewrite ?table_entry by assumption; reflexivity.
Qed.
Lemma tides_table s names f w j i : (forall c j i, bits32 (fst (f c j i)) /\ bits32 (snd (f c j i))) -> (j < s_ny s)%nat -> (i < s_nx s)%nat ->
  map (fun hc => tide w (ExtractSpec.entry (None, true) hc j i)) (constants_of s names f) = map (fun c => tide w (pair_of (f c j i), false)) (seq 0 (List.length names)).
Proof.
  intros Hp Hj Hi. unfold constants_of. rewrite map_map. apply map_ext. intros c. rewrite table_entry by assumption. apply tide_clean; apply Hp.
Qed.
Lemma corners_ext {V} k x0 dx y0 dy nx X Y i j (f g : nat -> nat -> option V) :
  (forall j' i', (j' = j \/ j' = S j) -> (i' = i \/ i' = i + 1)%Z -> f j' (column nx i') = g j' (column nx i')) -> corners k x0 dx y0 dy nx X Y i j f = corners k x0 dx y0 dy nx X Y i j g.
Proof. intros H. unfold corners. cbv zeta. rewrite !H; auto. Qed.
Lemma field_patterns_of k td f : stored_patterns td -> field_of k td = Some f -> forall c j i, bits32 (fst (f c j i)) /\ bits32 (snd (f c j i)).
Proof. intros Hp Hf. destruct k, td as [h|u v]; cbn in Hf; try discriminate; injection Hf as <-; apply Hp. Qed.
Lemma constants_length s names f : List.length names = List.length (constants_of s names f).
Proof. unfold constants_of. now rewrite map_length, seq_length. Qed.

(** The files are read: the names of the file, in its order. *)
Theorem C81_read : forall fwd geo around t k s names td src D f xa xb ya yb dt other corr minor,
  tide_files geo around k s names td src D f xa xb ya yb dt -> kind_of t = Some k ->
  exists m, otis_files fwd geo t (grid_bytes s) src other corr minor = Ok m /\ bm_names m = names /\ bm_corrections m = corr /\ bm_minor m = minor.
Proof. intros. destruct (loaded fwd geo around t k s names td src D f xa xb ya yb dt other corr minor) as (g & m & E & E1 & E2 & E3 & _); auto. exists m. auto. Qed.
Print Assumptions C81_read.

(** At a node the tide of a request is the one of the numbers stored in the files for
    that node. *)
Theorem C81_node : forall proj clock A B freq gam fwd geo around t k s names td src D f xa xb ya yb dt other corr minor m TIME CORRECTIONS MINOR T x y ts v pts n p tau w X Y i j,
  tide_files geo around k s names td src D f xa xb ya yb dt -> kind_of t = Some k ->
  otis_files fwd geo t (grid_bytes s) src other corr minor = Ok m ->
  In (lower TIME) time_names -> (forall c, In c names -> a_known A c = true) ->
  elevations proj clock A B freq gam m true "bilinear" TIME CORRECTIONS false MINOR (Some T) x y ts = Ok v ->
  shows T x y ts v pts n tau w -> nth_error pts n = Some p ->
  let nx := s_nx s in let ny := s_ny s in let dx := (xb - xa) / INR nx in let dy := (yb - ya) / INR ny in
  let x0 := first_centre xa xb dt nx in let y0 := ya + dy / 2 in
  convention geo x0 (x0 + INR (nx - 1) * dx) (map (fun p => fst (fwd (proj p))) pts) (fst (fwd (proj p))) X -> snd (fwd (proj p)) = Y ->
  reach around x0 dx nx X -> in_rows y0 dy ny (X, Y) ->
  columns around nx i -> columns around nx (i + 1) -> (S j < ny)%nat ->
  between_nodes k x0 dx y0 dy X Y i j -> X = node_x k x0 dx i -> Y = node_y k y0 dy j ->
  (k = Zonal -> around = true \/ (0 < i)%Z) ->
  let depth := water D (s_mask s) around nx k j (column nx i) in
  let st := clock TIME tau in let co := corrected CORRECTIONS m in
  w = flagged (per_depth (velocity t) depth
        (height (a_f A (st_tide st, delta co st)) (argument A co (st_tide st) (delta co st)) names
           (map (fun c => tide depth (pair_of (f c j (column nx i)), false)) (seq 0 (List.length names))))).
Proof.
  intros proj clock A B freq gam fwd geo around t k s names td src D f xa xb ya yb dt other corr minor m TIME CORRECTIONS MINOR T x y ts v pts n p tau w X Y i j
    Tf Hk Em HT Hn Ev Sh Hp nx ny dx dy x0 y0 Hc Hy Hr Hrow Ci Ci1 Hj Bt EX EY HZ depth st co.
  destruct (loaded fwd geo around t k s names td src D f xa xb ya yb dt other corr minor Tf Hk) as (g & m' & E & E1 & E2 & E3 & Ex & G1 & G2 & M).
  rewrite Em in E. apply Ok_inj in E as <-.
  rewrite (elevations_ext proj clock A B freq gam m (otis_model fwd geo t g (constants_of s names f) other names corr minor)) in Ev by assumption.
  destruct Tf as (St & Nn & Ho & Hpt & Hf & Hb & Hd & Lx & Ly & He).
  pose proof (C78_node proj clock A B freq gam fwd geo around t k x0 dx nx y0 dy ny g (constants_of s names f) other names corr minor TIME CORRECTIONS MINOR T x y ts v pts n p tau w X Y i j
    M Hk HT Hn (constants_length _ _ _) Nn Ev Sh Hp Hc Hy Hr Hrow Ci Ci1 Hj Bt EX EY HZ) as Ew. cbv zeta in Ew.
  assert (Hi : (column nx i < s_nx s)%nat) by (apply column_lt; unfold nx; lia).
  rewrite G1, G2 in Ew. unfold nx, ny in *. rewrite water_table in Ew by (assumption || lia).
  rewrite tides_table in Ew by (assumption || lia || (eapply field_patterns_of; eauto)).
  replace (corrected CORRECTIONS (otis_model fwd geo t g (constants_of s names f) other names corr minor)) with co in Ew; [exact Ew|].
  unfold co, corrected. rewrite E2. reflexivity.
Qed.
Print Assumptions C81_node.

(** Between nodes with the same constituents, the weighted mean of the tides of the four
    nodes around the point. *)
Theorem C81_heights : forall proj clock A B freq gam fwd geo around t k s names td src D f xa xb ya yb dt other corr minor m TIME CORRECTIONS MINOR T x y ts v pts n p tau w X Y i j,
  tide_files geo around k s names td src D f xa xb ya yb dt -> kind_of t = Some k ->
  otis_files fwd geo t (grid_bytes s) src other corr minor = Ok m ->
  In (lower TIME) time_names -> (forall c, In c names -> a_known A c = true) ->
  elevations proj clock A B freq gam m true "bilinear" TIME CORRECTIONS false MINOR (Some T) x y ts = Ok v ->
  shows T x y ts v pts n tau w -> nth_error pts n = Some p ->
  let nx := s_nx s in let ny := s_ny s in let dx := (xb - xa) / INR nx in let dy := (yb - ya) / INR ny in
  let x0 := first_centre xa xb dt nx in let y0 := ya + dy / 2 in
  convention geo x0 (x0 + INR (nx - 1) * dx) (map (fun p => fst (fwd (proj p))) pts) (fst (fwd (proj p))) X -> snd (fwd (proj p)) = Y ->
  reach around x0 dx nx X -> in_rows y0 dy ny (X, Y) ->
  columns around nx i -> columns around nx (i + 1) -> (S j < ny)%nat ->
  between_nodes k x0 dx y0 dy X Y i j -> ~ at_node k x0 dx y0 dy X Y i j ->
  (k = Zonal -> around = true \/ (0 < i)%Z) ->
  let wet := water D (s_mask s) around nx k in
  let at_ := fun j i => map (fun c => tide (wet j i) (pair_of (f c j i), false)) (seq 0 (List.length names)) in
  (forall j' i', (j' = j \/ j' = S j) -> (i' = i \/ i' = i + 1)%Z -> all_or_none (at_ j' (column nx i'))) ->
  let depth := mean (corners k x0 dx y0 dy nx X Y i j wet) in
  let st := clock TIME tau in let co := corrected CORRECTIONS m in
  w = flagged (per_depth (velocity t) depth
        (mean (corners k x0 dx y0 dy nx X Y i j
           (fun j i => height (a_f A (st_tide st, delta co st)) (argument A co (st_tide st) (delta co st)) names (at_ j i))))).
Proof.
  intros proj clock A B freq gam fwd geo around t k s names td src D f xa xb ya yb dt other corr minor m TIME CORRECTIONS MINOR T x y ts v pts n p tau w X Y i j
    Tf Hk Em HT Hn Ev Sh Hp nx ny dx dy x0 y0 Hc Hy Hr Hrow Ci Ci1 Hj Bt NA HZ wet at_ Hall depth st co.
  destruct (loaded fwd geo around t k s names td src D f xa xb ya yb dt other corr minor Tf Hk) as (g & m' & E & E1 & E2 & E3 & Ex & G1 & G2 & M).
  rewrite Em in E. apply Ok_inj in E as <-.
  rewrite (elevations_ext proj clock A B freq gam m (otis_model fwd geo t g (constants_of s names f) other names corr minor)) in Ev by assumption.
  destruct Tf as (St & Nn & Ho & Hpt & Hf & Hb & Hd & Lx & Ly & He).
  assert (Hi : forall i', (column nx i' < s_nx s)%nat) by (intros; apply column_lt; unfold nx; lia).
  assert (Ew' : forall j' i', (j' = j \/ j' = S j) -> water (ExtractSpec.entry 0 (ghz g)) (ExtractSpec.entry 0%Z (gmz g)) around nx k j' (column nx i') = wet j' (column nx i')).
  { intros j' i' Hj'. rewrite G1, G2. apply water_table; [|apply Hi]. unfold ny in Hj. destruct Hj' as [-> | ->]; lia. }
  assert (Et : forall j' i', (j' = j \/ j' = S j) -> map (fun hc => tide (water (ExtractSpec.entry 0 (ghz g)) (ExtractSpec.entry 0%Z (gmz g)) around nx k j' (column nx i')) (ExtractSpec.entry (None, true) hc j' (column nx i'))) (constants_of s names f)
     = at_ j' (column nx i')).
  { intros j' i' Hj'. rewrite Ew' by assumption. unfold at_. apply tides_table; [eapply field_patterns_of; eauto| |apply Hi]. unfold ny in Hj. destruct Hj' as [-> | ->]; lia. }
  pose proof (C78_heights proj clock A B freq gam fwd geo around t k x0 dx nx y0 dy ny g (constants_of s names f) other names corr minor TIME CORRECTIONS MINOR T x y ts v pts n p tau w X Y i j
    M Hk HT Hn (constants_length _ _ _) Nn Ev Sh Hp Hc Hy Hr Hrow Ci Ci1 Hj Bt NA HZ) as Ew. cbv zeta in Ew.
  rewrite Ew.
  - replace (corrected CORRECTIONS (otis_model fwd geo t g (constants_of s names f) other names corr minor)) with co by (unfold co, corrected; rewrite E2; reflexivity).
    fold st. f_equal. f_equal.
    + unfold depth. f_equal. apply corners_ext. intros; now apply Ew'.
    + f_equal. apply corners_ext. intros j' i' Hj' Hi'. now rewrite Et.
  - intros j' i' Hj' Hi'. rewrite Et by assumption. now apply Hall.
Qed.
Print Assumptions C81_heights.

(** A well-formed request gets an answer, unless a point lies on the last column. *)
Theorem C81_returns : forall proj clock A B freq gam fwd geo around t k s names td src D f xa xb ya yb dt other corr minor m TIME CORRECTIONS MINOR T x y ts pts,
  tide_files geo around k s names td src D f xa xb ya yb dt -> kind_of t = Some k ->
  otis_files fwd geo t (grid_bytes s) src other corr minor = Ok m ->
  In (lower TIME) time_names -> (forall c, In c names -> a_known A c = true) ->
  asks T x y ts pts -> pts <> [] -> ts <> [] ->
  let nx := s_nx s in let dx := (xb - xa) / INR nx in let x0 := first_centre xa xb dt nx in
  (forall p X, In p pts -> convention geo x0 (x0 + INR (nx - 1) * dx) (map (fun p => fst (fwd (proj p))) pts) (fst (fwd (proj p))) X ->
    X <> node_x k x0 dx (last_column around nx)) ->
  exists v, elevations proj clock A B freq gam m true "bilinear" TIME CORRECTIONS false MINOR (Some T) x y ts = Ok v /\ arranged T x y ts pts v /\
    forall n tau, (n < List.length pts)%nat -> paired T ts n tau -> exists w, shows T x y ts v pts n tau w.
Proof.
  intros proj clock A B freq gam fwd geo around t k s names td src D f xa xb ya yb dt other corr minor m TIME CORRECTIONS MINOR T x y ts pts
    Tf Hk Em HT Hn HA Np Nt nx dx x0 Hc.
  destruct (loaded fwd geo around t k s names td src D f xa xb ya yb dt other corr minor Tf Hk) as (g & m' & E & E1 & E2 & E3 & Ex & G1 & G2 & M).
  rewrite Em in E. apply Ok_inj in E as <-.
  rewrite (elevations_ext proj clock A B freq gam m (otis_model fwd geo t g (constants_of s names f) other names corr minor)) by assumption.
  eapply C78_returns; eauto using constants_length.
Qed.
Print Assumptions C81_returns.

(** Points outside the grid are masked. *)
Theorem C81_outside : forall proj clock A B freq gam fwd geo around t k s names td src D f xa xb ya yb dt other corr minor m TIME CORRECTIONS MINOR T x y ts v pts n p tau w X,
  tide_files geo around k s names td src D f xa xb ya yb dt -> kind_of t = Some k ->
  otis_files fwd geo t (grid_bytes s) src other corr minor = Ok m ->
  In (lower TIME) time_names -> (forall c, In c names -> a_known A c = true) ->
  elevations proj clock A B freq gam m true "bilinear" TIME CORRECTIONS false MINOR (Some T) x y ts = Ok v ->
  shows T x y ts v pts n tau w -> nth_error pts n = Some p ->
  let nx := s_nx s in let ny := s_ny s in let dx := (xb - xa) / INR nx in let dy := (yb - ya) / INR ny in
  let x0 := first_centre xa xb dt nx in let y0 := ya + dy / 2 in
  convention geo x0 (x0 + INR (nx - 1) * dx) (map (fun p => fst (fwd (proj p))) pts) (fst (fwd (proj p))) X ->
  ~ in_rows y0 dy ny (fwd (proj p)) \/ ~ reach around x0 dx nx X -> w = (None, true).
Proof.
  intros proj clock A B freq gam fwd geo around t k s names td src D f xa xb ya yb dt other corr minor m TIME CORRECTIONS MINOR T x y ts v pts n p tau w X
    Tf Hk Em HT Hn Ev Sh Hp nx ny dx dy x0 y0 Hc Ho.
  destruct (loaded fwd geo around t k s names td src D f xa xb ya yb dt other corr minor Tf Hk) as (g & m' & E & E1 & E2 & E3 & Ex & G1 & G2 & M).
  rewrite Em in E. apply Ok_inj in E as <-.
  rewrite (elevations_ext proj clock A B freq gam m (otis_model fwd geo t g (constants_of s names f) other names corr minor)) in Ev by assumption.
  destruct Tf as (St & Nn & _).
  exact (C78_outside proj clock A B freq gam fwd geo around t k x0 dx nx y0 dy ny g (constants_of s names f) other names corr minor TIME CORRECTIONS MINOR T x y ts v pts n p tau w X
    M Hk HT Hn (constants_length _ _ _) Nn Ev Sh Hp Hc Ho).
Qed.
Print Assumptions C81_outside.
