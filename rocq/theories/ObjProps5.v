(** C61: the files asked for; C62: the built-in models can all be selected. *)
From Coq Require Import String Ascii List QArith Bool Arith Lia.
From Verif Require Import PyBase StrBase ValueBase DatabaseData ParseModel ObjModel ObjSpec ObjProps ObjProps2 ObjProps3.
Import ListNotations.
Open Scope nat_scope.
Open Scope string_scope.

(** ** C61: the request for constants, given that every attribute is there *)
Lemma ask_ok (K : Type) e type scale (o : obj K) q : ask e type scale o = Ok q ->
  exists f r mf files ff ty,
    attrs o "format" = Some (VStr f) /\ reader_of (VStr f) = Some r /\ attrs o "model_file" = Some mf /\
    (match type with Some t => ty = t | None => attrs o "type" = Some ty end) /\
    files_for r mf ty = Ok files /\ file_format o = Ok ff /\
    attrs o "grid_file" = Some (q_grid q) /\ attrs o "projection" = Some (q_projection q) /\
    attrs o "version" = Some (q_version q) /\ attrs o "compressed" = Some (q_compressed q) /\
    q_reader q = r /\ q_type q = ty /\ q_format q = ff /\
    (match scale with Some s => q_scale q = s | None => attrs o "scale" = Some (q_scale q) end) /\
    q_files q = match r, e with FES, true => mf | _, _ => files end.
Proof.
  unfold ask. intros H.
  destruct (match type with Some t => Ok t | None => get o "type" end) as [ty|] eqn:TY; [|discriminate H]. cbn [bind] in H.
  destruct (match scale with Some t => Ok t | None => get o "scale" end) as [sc|] eqn:SC; [|discriminate H]. cbn [bind] in H.
  unfold get in H at 1. destruct (attrs o "format") as [f|] eqn:F; [|discriminate H]. cbn [bind] in H.
  destruct (reader_of f) as [r|] eqn:RF; [|discriminate H].
  unfold get in H. destruct (attrs o "model_file") as [mf|]; [|discriminate H]. cbn [bind] in H.
  destruct (files_for r mf ty) as [files|] eqn:FF; [|discriminate H]. cbn [bind] in H.
  destruct (attrs o "grid_file") as [g|]; [|discriminate H]. cbn [bind] in H.
  destruct (attrs o "projection") as [pr|]; [|discriminate H]. cbn [bind] in H.
  destruct (file_format o) as [ff|]; [|discriminate H]. cbn [bind] in H.
  destruct (attrs o "version") as [ver|]; [|discriminate H]. cbn [bind] in H.
  destruct (attrs o "compressed") as [z|]; [|discriminate H]. cbn [bind] in H. injection H as <-.
  assert (exists s, f = VStr s) as [s ->].
  { destruct f; try discriminate RF. eauto. }
  exists s, r, mf, files, ff, ty. cbn. repeat split; auto.
  - destruct type; [congruence|]. unfold get in TY. destruct (attrs o "type"); congruence.
  - destruct scale; [congruence|]. unfold get in SC. destruct (attrs o "scale"); congruence.
Qed.

Definition component (t c : string) : Prop := (t = "u" \/ t = "U") /\ c = "u" \/ (t = "v" \/ t = "V") /\ c = "v".
Lemma lower_component t c : component t c -> lower t = c.
Proof. intros [[[-> | ->] ->]|[[-> | ->] ->]]; reflexivity. Qed.

(** the readers and the formats *)
Definition reader_table : list (string * reader) :=
  [("OTIS", OTIS); ("ATLAS-compact", OTIS); ("TMD3", OTIS); ("ATLAS-netcdf", ATLAS); ("GOT-ascii", GOT); ("GOT-netcdf", GOT);
   ("FES-ascii", FES); ("FES-netcdf", FES)].
Lemma reader_spec f r : reader_of (VStr f) = Some r <-> In (f, r) reader_table.
Proof.
  unfold reader_of, is_fes, is_str, reader_table. split.
  - intros H.
    destruct (String.eqb_spec f "OTIS") as [->|]; [injection H as <-; cbn; auto|].
    destruct (String.eqb_spec f "ATLAS-compact") as [->|]; [injection H as <-; cbn; auto|].
    destruct (String.eqb_spec f "TMD3") as [->|]; [injection H as <-; cbn; auto|]. cbn [orb] in H.
    destruct (String.eqb_spec f "ATLAS-netcdf") as [->|]; [injection H as <-; cbn; auto 8|].
    destruct (String.eqb_spec f "GOT-ascii") as [->|]; [injection H as <-; cbn; auto 8|].
    destruct (String.eqb_spec f "GOT-netcdf") as [->|]; [injection H as <-; cbn; auto 8|]. cbn [orb] in H.
    destruct (String.eqb_spec f "FES-ascii") as [->|]; [injection H as <-; cbn; auto 9|].
    destruct (String.eqb_spec f "FES-netcdf") as [->|]; [injection H as <-; cbn; auto 10|]. discriminate H.
  - cbn. intros H. repeat (destruct H as [H|H]; [injection H as <- <-; reflexivity|]). destruct H.
Qed.

(** One file, or a list of them: that is what is read, by the reader of the
    format, with the grid, projection, version, compression and scale of the
    object. *)
Theorem C61_elevation :
  forall (K : Type) e type scale (o : obj K) q mf,
    ask e type scale o = Ok q -> attrs o "model_file" = Some mf -> (forall d, mf <> VDict d) ->
    q_files q = mf /\ (exists f, attrs o "format" = Some (VStr f) /\ In (f, q_reader q) reader_table) /\
    attrs o "grid_file" = Some (q_grid q) /\ attrs o "projection" = Some (q_projection q) /\
    attrs o "version" = Some (q_version q) /\ attrs o "compressed" = Some (q_compressed q) /\
    (scale = None -> attrs o "scale" = Some (q_scale q)) /\ (forall s, scale = Some s -> q_scale q = s) /\
    (type = None -> attrs o "type" = Some (q_type q)) /\ (forall t, type = Some t -> q_type q = t).
Proof.
  intros K e type scale o q mf H MF ND.
  destruct (ask_ok K e type scale o q H) as (f & r & mf' & files & ff & ty & F & R & MF' & T & FF & _ & A1 & A2 & A3 & A4 & Q1 & Q2 & _ & SC & QF).
  assert (mf' = mf) by congruence. subst mf'.
  assert (files = mf).
  { unfold files_for in FF. destruct r, mf; try (injection FF as <-; reflexivity); exfalso; eapply ND; reflexivity. }
  subst files. split; [rewrite QF; destruct r, e; reflexivity|].
  split; [exists f; split; [exact F|]; rewrite Q1; now apply reader_spec|].
  repeat (split; [assumption|]). split; [|split; [|split]].
  - intros ->. exact SC.
  - intros s ->. exact SC.
  - intros ->. rewrite Q2. exact T.
  - intros t ->. congruence.
Qed.
Print Assumptions C61_elevation.

(** Currents: the files of the component asked for, in either letter case; OTIS
    files hold both components and are listed under u. *)
Theorem C61_currents_partial :
  forall (K : Type) e scale (o : obj K) q d f t c v,
    ask e (Some (VStr t)) scale o = Ok q -> attrs o "model_file" = Some (VDict d) -> NoDup (map fst d) ->
    attrs o "format" = Some (VStr f) -> component t c -> In (c, v) d ->
    (In f ["OTIS"; "ATLAS-compact"; "TMD3"] -> exists w, In ("u", w) d /\ q_files q = w) /\
    (f = "ATLAS-netcdf" -> q_files q = v) /\
    (In f ["FES-ascii"; "FES-netcdf"] -> e = false -> q_files q = v).
Proof.
  intros K e scale o q d f t c v H MF ND F CP I.
  destruct (ask_ok K e _ scale o q H) as (f' & r & mf' & files & ff & ty & F' & R & MF' & T & FF & _ & _ & _ & _ & _ & _ & Q2 & _ & SC & QF).
  assert (f' = f) by congruence. assert (mf' = VDict d) by congruence. subst f' mf' ty. clear F'.
  apply reader_spec in R. pose proof (in_dict d c v ND I) as G. pose proof (lower_component t c CP) as LC.
  split; [|split].
  - intros IF. assert (r = OTIS).
    { cbn in R, IF. intuition congruence. }
    subst r. cbn [files_for] in FF. destruct (dict_get "u" d) as [w|] eqn:GU; [|discriminate FF]. injection FF as <-.
    apply dict_get_some in GU. eauto.
  - intros ->. assert (r = ATLAS) by (cbn in R; intuition congruence). subst r. cbn [files_for] in FF.
    rewrite LC, G in FF. injection FF as <-. exact QF.
  - intros IF ->. assert (r = FES) by (cbn in R, IF; intuition congruence). subst r. cbn [files_for] in FF.
    rewrite LC, G in FF. injection FF as <-. exact QF.
Qed.
Print Assumptions C61_currents_partial.

(** A component that is not there is an error. *)
Theorem C61_no_component :
  forall (K : Type) e scale (o : obj K) d f t c,
    attrs o "model_file" = Some (VDict d) -> attrs o "format" = Some (VStr f) -> attrs o "scale" <> None ->
    component t c -> ~ In c (map fst d) -> In f ["ATLAS-netcdf"; "FES-ascii"; "FES-netcdf"] ->
    ask e (Some (VStr t)) scale o = Err KeyError.
Proof.
  intros K e scale o d f t c MF F SC CP NI IF. apply dict_get_none in NI. pose proof (lower_component t c CP) as LC.
  unfold ask, get. rewrite F, MF. destruct (attrs o "scale"); [|congruence].
  assert (R : reader_of (VStr f) = Some ATLAS \/ reader_of (VStr f) = Some FES).
  { rewrite !reader_spec. cbn in IF |- *. intuition subst; auto 10. }
  destruct R as [R|R]; destruct scale; cbn [bind]; rewrite R; cbn [files_for]; rewrite LC, NI; reflexivity.
Qed.
Print Assumptions C61_no_component.

(** ** Finding: extracting the constants of FES currents asks for all the files
    at once, whatever the component: the dictionary is passed where a list of
    files is expected. *)
Theorem C61_fes_currents_refuted :
  forall (K : Type) scale (o : obj K) q d f t,
    ask true (Some (VStr t)) scale o = Ok q -> attrs o "model_file" = Some (VDict d) ->
    attrs o "format" = Some (VStr f) -> In f ["FES-ascii"; "FES-netcdf"] -> q_files q = VDict d.
Proof.
  intros K scale o q d f t H MF F IF.
  destruct (ask_ok K true _ scale o q H) as (f' & r & mf' & files & ff & ty & F' & R & MF' & T & FF & _ & _ & _ & _ & _ & _ & Q2 & _ & SC & QF).
  assert (f' = f) by congruence. assert (mf' = VDict d) by congruence. subst f' mf'. apply reader_spec in R.
  assert (r = FES) by (cbn in R, IF; intuition congruence). subst r. exact QF.
Qed.
Print Assumptions C61_fes_currents_refuted.

Example C61_fes_instance :
  let o := fst (current (C := unit) "/" (fun _ => true) [] "FES2014" (fresh (Some "/d") false true)) in
  (exists q l, ask false (Some (VStr "V")) None o = Ok q /\ q_files q = VList (VPath "/d/fes2014/northward_velocity/2n2.nc" :: l)) /\
  (exists q d, ask true (Some (VStr "V")) None o = Ok q /\ q_files q = VDict d).
Proof. split; do 2 eexists; vm_compute; split; reflexivity. Qed.

(** ** C62: selecting succeeds for every definition with files and a format that
    are in order *)
Section Runs.
  Context {C : Type}.
  Implicit Types o : obj C.
  Variable cwd : string.
  Variable file_exists : string -> bool.

  Definition on_disk dir gz v : Prop := forall p, (placed_in dir gz v = VPath p \/ exists l, placed_in dir gz v = VList l /\ In (VPath p) l) ->
    file_exists p = true.

  Lemma find_runs dir gz ver v : listed v -> (ver = true -> on_disk dir gz v) ->
    find_path file_exists (VPath dir) gz ver v = Ok (placed_in dir gz v).
  Proof.
    intros LV OD. destruct (find_listed file_exists dir gz ver v LV) as [[E _]|(E & -> & NE)]; [exact E|].
    exfalso. apply NE. specialize (OD eq_refl). destruct LV as [s Hs|l Hl]; cbn [all_exist].
    - apply OD. left. symmetry. now apply join_placed.
    - intros s I. apply OD. right. cbn [placed_in]. eexists. split; [reflexivity|].
      rewrite Forall_forall in Hl. destruct (Hl _ I) as (s0 & Hs & ES). injection ES as <-. rewrite (join_placed dir gz s Hs).
      now apply in_map.
  Qed.

  Lemma paths_parse l : Forall (fun v => exists p, v = VPath p) l -> exists cs, mapM parse_file l = Ok cs.
  Proof.
    induction 1 as [|x l (p & ->) H (cs & IH)]; [exists []; reflexivity|]. cbn [mapM parse_file bind]. rewrite IH. cbn [bind]. eauto.
  Qed.
  Lemma placed_paths dir gz l : Forall (fun v => exists s, s <> "" /\ v = VStr s) l ->
    Forall (fun v => exists p, v = VPath p) (map (placed_in dir gz) l).
  Proof.
    induction 1 as [|x l (s & Hs & ->) H IH]; [constructor|]. cbn [map]. constructor; [|assumption].
    rewrite <- (join_placed dir gz s Hs). eauto.
  Qed.

  Lemma elevation_runs extra m o db d dir z ver mf f :
    load_database extra = Ok db -> dict_get m (db_elevation db) = Some d -> NoDup (map fst d) ->
    (forall x, In x (map fst d) -> ~ In x (["directory"; "compressed"; "verify"] ++ properties)%list) ->
    attrs o "directory" = Some (VPath dir) -> attrs o "compressed" = Some z -> attrs o "verify" = Some ver ->
    In ("model_file", mf) d -> listed mf -> In ("format", VStr f) d -> known_format (VStr f) = true ->
    (forall g, In ("grid_file", g) d -> listed g) -> (~ In "grid_file" (map fst d) -> attrs o "grid_file" = Some VNone) ->
    (truthy ver = true -> on_disk dir (if truthy z then ".gz" else "") mf) ->
    (truthy ver = true -> forall g, In ("grid_file", g) d -> on_disk dir (if truthy z then ".gz" else "") g) ->
    exists o', elevation cwd file_exists extra m o = (o', Ok tt).
  Proof.
    intros L G ND NP D Z V IM LM IF KF LG NG OM OG.
    unfold elevation. rewrite (andthen_run _ _ _ _ _ (default_some cwd o dir D)).
    rewrite L. cbn [bind]. unfold definition_of. cbn [bind]. rewrite G. unfold lift. unfold andthen at 1.
    destruct (from_dict_run d o ND) as (o1 & FD & C1 & F1).
    { intros k I J. apply (NP k I). apply in_or_app. now right. }
    rewrite (andthen_run _ _ _ _ _ FD).
    assert (N : forall k, In k ["directory"; "compressed"; "verify"] -> attrs o1 k = attrs o k).
    { intros k I. rewrite F1. destruct (dict_get k d) eqn:E; [|reflexivity]. exfalso. apply dict_get_some in E.
      apply (NP k); [apply in_map_iff; now exists (k, v)|]. apply in_or_app. now left. }
    assert (R : exists o2, resolve_grid cwd file_exists o1 = (o2, Ok tt) /\ forall k, k <> "grid_file" -> attrs o2 k = attrs o1 k).
    { unfold resolve_grid. destruct (attrs o1 "grid_file") as [g|] eqn:EG; [|eauto].
      destruct (truthy g) eqn:TG; [|eauto]. rewrite F1 in EG. destruct (dict_get "grid_file" d) as [g'|] eqn:EG'.
      - injection EG as ->. apply dict_get_some in EG'.
        assert (P : pathfinder cwd file_exists g o1 = (o1, Ok (placed_in dir (if truthy z then ".gz" else "") g))).
        { rewrite (pathfinder_run cwd file_exists o1 dir z ver g);
            [|rewrite N by (cbn; auto); assumption|rewrite N by (cbn; auto); assumption|rewrite N by (cbn; auto); assumption].
          f_equal. apply find_runs; auto. }
        rewrite (andthen_run _ _ _ _ _ P). unfold setattr. change (mem_str "grid_file" properties) with false. cbn iota.
        eexists. split; [reflexivity|]. intros k NK. cbn [set_attr attrs]. destruct (String.eqb_spec k "grid_file"); congruence.
      - apply dict_get_none in EG'. rewrite (NG EG') in EG. injection EG as <-. discriminate TG. }
    destruct R as (o2 & R & A2). rewrite (andthen_run _ _ _ _ _ R).
    assert (M : getattr "model_file" o2 = (o2, Ok mf)).
    { unfold getattr, get. rewrite A2, F1 by discriminate. now rewrite (in_dict d _ _ ND IM). }
    rewrite (andthen_run _ _ _ _ _ M).
    assert (P : pathfinder cwd file_exists mf o2 = (o2, Ok (placed_in dir (if truthy z then ".gz" else "") mf))).
    { rewrite (pathfinder_run cwd file_exists o2 dir z ver mf);
        [|rewrite A2, N by (cbn; auto; discriminate); assumption|rewrite A2, N by (cbn; auto; discriminate); assumption
         |rewrite A2, N by (cbn; auto; discriminate); assumption].
      f_equal. apply find_runs; auto. }
    rewrite (andthen_run _ _ _ _ _ P). set (p := placed_in dir _ mf) in *.
    set (o3 := set_attr o2 "model_file" p).
    assert (S3 : setattr "model_file" p o2 = (o3, Ok tt)) by reflexivity. rewrite (andthen_run _ _ _ _ _ S3).
    assert (E3 : attrs o3 "format" = Some (VStr f)).
    { change (attrs o2 "format" = Some (VStr f)). rewrite A2, F1 by discriminate. now rewrite (in_dict d _ _ ND IF). }
    assert (E4 : exists o4, constituents_if_fes o3 = (o4, Ok tt)).
    { unfold constituents_if_fes, andthen at 1, getattr, get. rewrite E3. destruct (is_fes (VStr f)); [|eexists; reflexivity].
      unfold parse_constituents, andthen at 1, getattr, get. change (attrs o3 "model_file") with (Some p). cbn iota.
      destruct LM as [s Hs|l Hl].
      - unfold p. rewrite <- (join_placed dir _ s Hs). eexists. reflexivity.
      - unfold p. cbn [placed_in]. destruct (paths_parse _ (placed_paths dir (if truthy z then ".gz" else "") l Hl)) as (cs & E).
        unfold andthen, lift. rewrite E. eexists. reflexivity. }
    destruct E4 as (o4 & E4). rewrite (andthen_run _ _ _ _ _ E4). destruct (constituents_ok _ _ _ E4) as (_ & K4 & _).
    unfold validate_format, andthen at 1, getattr, get. rewrite K4 by discriminate. rewrite E3. unfold andthen, setattr.
    change (mem_str "format" properties) with false. cbn iota.
    assert (RF : remap_format (VStr f) = VStr f).
    { destruct (String.eqb_spec f "ATLAS") as [->|N1]; [vm_compute in KF; discriminate KF|].
      destruct (String.eqb_spec f "netcdf") as [->|N2]; [vm_compute in KF; discriminate KF|].
      destruct (String.eqb_spec f "FES") as [->|N3]; [vm_compute in KF; discriminate KF|].
      destruct (String.eqb_spec f "GOT") as [->|N4]; [vm_compute in KF; discriminate KF|].
      unfold remap_format. cbn [fold_left is_str fst snd].
      apply String.eqb_neq in N1, N2, N3, N4. rewrite N1. cbn [is_str]. rewrite N2. cbn [is_str]. rewrite N3. cbn [is_str]. now rewrite N4. }
    rewrite RF, KF. eexists. reflexivity.
  Qed.
End Runs.

(** what is checked of the built-in elevation definitions *)
Definition listed_b (v : val) : bool :=
  match v with
  | VStr s => negb (String.eqb s "")
  | VList l => forallb (fun x => match x with VStr s => negb (String.eqb s "") | _ => false end) l
  | _ => false
  end.
Lemma listed_b_spec v : listed_b v = true -> listed v.
Proof.
  destruct v; try discriminate; cbn.
  - intros H. constructor. destruct (String.eqb_spec s ""); [discriminate H|assumption].
  - intros H. constructor. rewrite forallb_forall in H. apply Forall_forall. intros x I. specialize (H x I).
    destruct x; try discriminate H. exists s. split; [|reflexivity]. destruct (String.eqb_spec s ""); [discriminate H|assumption].
Qed.
Fixpoint nodup_b (l : list string) : bool := match l with [] => true | x :: l' => (negb (mem_str x l') && nodup_b l')%bool end.
Lemma nodup_b_spec l : nodup_b l = true -> NoDup l.
Proof.
  induction l as [|x l IH]; cbn; [constructor|]. intros H. apply andb_true_iff in H as [H1 H2]. constructor; [|auto].
  intros I. apply mem_str_spec in I. rewrite I in H1. discriminate H1.
Qed.
Definition in_order (d : list (string * val)) : bool :=
  (nodup_b (map fst d) &&
   forallb (fun x => negb (mem_str x (["directory"; "compressed"; "verify"] ++ properties)%list)) (map fst d) &&
   match dict_get "model_file" d with Some v => listed_b v | None => false end &&
   match dict_get "grid_file" d with Some v => listed_b v | None => true end &&
   match dict_get "format" d with Some (VStr s) => known_format (VStr s) | _ => false end)%bool.

Lemma in_order_spec d : in_order d = true ->
  NoDup (map fst d) /\ (forall x, In x (map fst d) -> ~ In x (["directory"; "compressed"; "verify"] ++ properties)%list) /\
  (exists mf, In ("model_file", mf) d /\ listed mf) /\ (forall g, In ("grid_file", g) d -> listed g) /\
  (exists f, In ("format", VStr f) d /\ known_format (VStr f) = true).
Proof.
  unfold in_order. intros H. apply andb_true_iff in H as [H H5]. apply andb_true_iff in H as [H H4].
  apply andb_true_iff in H as [H H3]. apply andb_true_iff in H as [H1 H2]. pose proof (nodup_b_spec _ H1) as ND.
  split; [assumption|]. split; [|split; [|split]].
  - intros x I J. rewrite forallb_forall in H2. specialize (H2 x I). apply mem_str_spec in J. rewrite J in H2. discriminate H2.
  - destruct (dict_get "model_file" d) as [v|] eqn:E; [|discriminate H3]. exists v. split; [now apply dict_get_some|now apply listed_b_spec].
  - intros g I. rewrite (in_dict d _ _ ND I) in H4. now apply listed_b_spec.
  - destruct (dict_get "format" d) as [[]|] eqn:E; try discriminate H5. exists s. split; [now apply dict_get_some|assumption].
Qed.
Lemma builtin_in_order : forallb (fun m => in_order (snd m)) builtin_elevation = true.
Proof. vm_compute. reflexivity. Qed.
Lemma builtin_names : NoDup (map fst builtin_elevation).
Proof. apply nodup_b_spec. vm_compute. reflexivity. Qed.

Lemma get_builtin m d : In (m, d) builtin_elevation -> dict_get m builtin_elevation = Some d.
Proof.
  intros I. destruct (dict_get m builtin_elevation) as [d'|] eqn:E.
  - apply dict_get_some in E. f_equal.
    assert (U : forall (l : list (string * list (string * val))), NoDup (map fst l) -> In (m, d) l -> In (m, d') l -> d' = d).
    { clear. induction l as [|[k v] l IH]; intros ND I1 I2; [destruct I1|]. cbn in ND. inversion ND as [|? ? NI ND']; subst.
      destruct I1 as [E1|I1], I2 as [E2|I2].
      - congruence.
      - injection E1 as -> ->. exfalso. apply NI. apply in_map_iff. now exists (m, d').
      - injection E2 as -> ->. exfalso. apply NI. apply in_map_iff. now exists (m, d).
      - auto. }
    apply (U _ builtin_names I E).
  - apply dict_get_none in E. exfalso. apply E. apply in_map_iff. now exists (m, d).
Qed.

(** ** C62: every built-in elevation model can be selected, in any directory: not
    verifying the files, or if they are there. *)
Theorem C62_elevation :
  forall (K : Type) cwd file_exists m d dir compressed verify,
    In (m, d) builtin_elevation ->
    (verify = true -> forall k v p, In (k, v) d -> k = "model_file" \/ k = "grid_file" ->
       placed_in dir (suffix compressed) v = VPath p \/
       (exists l, placed_in dir (suffix compressed) v = VList l /\ In (VPath p) l) -> file_exists p = true) ->
    exists o', elevation cwd file_exists [] m (fresh (C := K) (Some dir) compressed verify) = (o', Ok tt).
Proof.
  intros K cwd file_exists m d dir compressed verify I OD.
  pose proof builtin_in_order as B. rewrite forallb_forall in B. specialize (B _ I). cbn [snd] in B.
  destruct (in_order_spec d B) as (ND & NP & (mf & IM & LM) & LG & (f & IF & KF)).
  assert (GZ : (if truthy (VBool compressed) then ".gz" else "") = suffix compressed) by (destruct compressed; reflexivity).
  apply (elevation_runs cwd file_exists [] m (fresh (C := K) (Some dir) compressed verify) {| db_current := builtin_current; db_elevation := builtin_elevation |} d dir (VBool compressed) (VBool verify) mf f); auto.
  - apply get_builtin. exact I.
  - intros T. rewrite GZ. intros p P. apply (OD T "model_file" mf p IM); auto.
  - intros T g IG. rewrite GZ. intros p P. apply (OD T "grid_file" g p IG); auto.
Qed.
Print Assumptions C62_elevation.

(** ** C62: and the constituents of the FES type models are those written in the
    names of the files. *)
Lemma has_slash_app a b : has_slash (a ++ b) = (has_slash a || has_slash b)%bool.
Proof. induction a as [|c a IH]; [reflexivity|]. cbn. destruct (ascii_dec c "/"); [reflexivity|exact IH]. Qed.
Lemma base_name_app a b : base_name (a ++ "/" ++ b) = base_name b.
Proof.
  induction a as [|c a IH].
  - change (("" ++ "/" ++ b)%string) with (String "/" b). cbn [base_name has_slash]. destruct (ascii_dec "/" "/"); [reflexivity|congruence].
  - change ((String c a ++ "/" ++ b)%string) with (String c (a ++ "/" ++ b)).
    cbn [base_name]. cbn [has_slash]. rewrite has_slash_app. change ("/" ++ b)%string with (String "/" b).
    assert (E : has_slash (String "/" b) = true) by (cbn [has_slash]; destruct (ascii_dec "/" "/"); [reflexivity|congruence]).
    rewrite E, orb_true_r. destruct (ascii_dec c "/"); exact IH.
Qed.

Definition fes_files (d : list (string * val)) : option (list string) :=
  match dict_get "format" d, dict_get "model_file" d with
  | Some (VStr f), Some (VList l) =>
      if String.eqb f "FES-netcdf" then Some (flat_map (fun v => match v with VStr s => [s] | _ => [] end) l) else None
  | _, _ => None
  end.
Definition names_agree (s : string) : bool :=
  (match parse (base_name s) with Ok c => String.eqb c (written_constituent (file_name s)) | _ => false end &&
   match parse (base_name (s ++ ".gz")) with Ok c => String.eqb c (written_constituent (file_name s)) | _ => false end &&
   negb (prefix "/" s))%bool.
Lemma builtin_agree : forallb (fun m => match fes_files (snd m) with Some l => forallb names_agree l | None => true end) builtin_elevation = true.
Proof. vm_compute. reflexivity. Qed.

Theorem C62_constituents :
  forall (K : Type) cwd file_exists m d dir compressed verify (o : obj K) files,
    In (m, d) builtin_elevation -> In ("format", VStr "FES-netcdf") d -> In ("model_file", VList files) d ->
    elevation cwd file_exists [] m (fresh (Some dir) compressed verify) = (o, Ok tt) ->
    attrs o "constituents" =
      Some (VList (map (fun v => match v with VStr s => VStr (written_constituent (file_name s)) | v => v end) files)).
Proof.
  intros K cwd file_exists m d dir compressed verify o files I IF IM H.
  pose proof builtin_in_order as B. rewrite forallb_forall in B. specialize (B _ I). cbn [snd] in B.
  destruct (in_order_spec d B) as (ND & NP & (mf & IM' & LM) & LG & (f & IF' & KF)). clear B.
  assert (mf = VList files) by (pose proof (in_dict d _ _ ND IM); pose proof (in_dict d _ _ ND IM'); congruence). subst mf.
  assert (DF : definition_of (do db <- load_database [] ;; Ok (db_elevation db)) m = Ok d).
  { change (definition_of (Ok builtin_elevation) m = Ok d). unfold definition_of. cbn [bind]. now rewrite (get_builtin m d I). }
  assert (RS : forall x, In x reserved -> ~ In x (map fst d)).
  { intros x J1 J2. apply (NP x J2). apply in_or_app. now left. }
  destruct (elevation_ok cwd file_exists [] m (fresh (Some dir) compressed verify) o d dir (VBool compressed) (VBool verify) H DF ND RS
              (or_introl eq_refl) eq_refl eq_refl)
    as (mf & p & f2 & o5 & o6 & MF & FP & FF & KF2 & _ & B1 & B2 & B3 & _ & _ & _ & A7 & _).
  rewrite (in_dict d _ _ ND IM) in MF. injection MF as <-. rewrite (in_dict d _ _ ND IF) in FF. injection FF as <-.
  assert (GZ : (if truthy (VBool compressed) then ".gz" else "") = suffix compressed) by (destruct compressed; reflexivity).
  rewrite GZ in FP.
  destruct (find_listed file_exists dir (suffix compressed) (truthy (VBool verify)) (VList files) LM) as [[E _]|[E _]]; [|congruence].
  assert (p = placed_in dir (suffix compressed) (VList files)) by congruence. subst p.
  unfold constituents_if_fes in B3. apply andthen_ok in B3 as (f3 & o7 & G3 & B3). apply getattr_ok in G3 as [-> G3].
  assert (f3 = VStr "FES-netcdf") by congruence. subst f3. change (is_fes (VStr "FES-netcdf")) with true in B3. cbn iota in B3.
  unfold parse_constituents in B3. apply andthen_ok in B3 as (mf3 & o7 & G7 & B3). apply getattr_ok in G7 as [-> G7].
  rewrite B1 in G7. injection G7 as <-. cbn [placed_in] in B3.
  apply andthen_ok in B3 as (cs & o7 & G8 & B3). apply lift_ok in G8 as [-> G8]. apply setattr_ok in B3 as (_ & _ & B3).
  rewrite A7, B3. change (String.eqb "constituents" "constituents") with true. cbn iota. do 2 f_equal.
  pose proof builtin_agree as BA. rewrite forallb_forall in BA. specialize (BA _ I). cbn [snd] in BA.
  unfold fes_files in BA. rewrite (in_dict d _ _ ND IF), (in_dict d _ _ ND IM) in BA. change (String.eqb "FES-netcdf" "FES-netcdf") with true in BA.
  cbn iota in BA. inversion LM as [|? Hl E2]; subst. clear - BA Hl G8. revert cs G8. induction Hl as [|x l (s & Hs & ->) Hl IH]; intros cs G8.
  - injection G8 as <-. reflexivity.
  - cbn [flat_map app forallb] in BA. apply andb_true_iff in BA as [BA1 BA2].
    cbn [map mapM] in G8. unfold names_agree in BA1. apply andb_true_iff in BA1 as [BA1 NS]. apply andb_true_iff in BA1 as [P1 P2].
    assert (PF : parse_file (placed_in dir (suffix compressed) (VStr s)) = Ok (VStr (written_constituent (file_name s)))).
    { assert (PL : placed_in dir (suffix compressed) (VStr s) = VPath (dir ++ "/" ++ s ++ suffix compressed)).
      { rewrite <- (join_placed dir _ s Hs). f_equal. unfold join. destruct s as [|c s]; [congruence|].
        destruct c as [[] [] [] [] [] [] [] []]; try reflexivity. exfalso. destruct s; vm_compute in NS; discriminate NS. }
      rewrite PL. cbn [parse_file]. rewrite base_name_app. destruct compressed; cbn [suffix].
      - destruct (parse (base_name (s ++ ".gz"))) as [c|]; [|discriminate P2]. apply String.eqb_eq in P2. congruence.
      - assert (AE : forall t, (t ++ "")%string = t) by (induction t as [|c t IHt]; [reflexivity|cbn; now rewrite IHt]).
        rewrite AE. destruct (parse (base_name s)) as [c|]; [|discriminate P1]. apply String.eqb_eq in P1. congruence. }
    rewrite PF in G8. cbn [bind] in G8. destruct (mapM parse_file (map (placed_in dir (suffix compressed)) l)) as [cs'|]; [|discriminate G8].
    cbn [bind] in G8. injection G8 as <-. cbn [map]. f_equal. apply (IH BA2 cs' eq_refl).
Qed.
Print Assumptions C62_constituents.

Example C62_instance : forall dir,
  attrs (fst (elevation (C := unit) "/" (fun _ => true) [] "HAMTIDE11" (fresh (Some dir) true true))) "constituents" =
  Some (VList [VStr "2n2"; VStr "k1"; VStr "k2"; VStr "m2"; VStr "n2"; VStr "o1"; VStr "p1"; VStr "q1"; VStr "s2"]).
Proof.
  intros dir.
  destruct (dict_get "HAMTIDE11" builtin_elevation) as [d|] eqn:E; [|vm_compute in E; discriminate E].
  destruct (C62_elevation unit "/" (fun _ => true) "HAMTIDE11" d dir true true) as [o' R]; [now apply dict_get_some|auto|].
  rewrite R. cbn [fst].
  assert (F : dict_get "format" d = Some (VStr "FES-netcdf")) by (vm_compute in E; injection E as <-; vm_compute; reflexivity).
  destruct (dict_get "model_file" d) as [mf|] eqn:M; [|vm_compute in E; injection E as <-; vm_compute in M; discriminate M].
  assert (exists l, mf = VList l) as [l ->] by (vm_compute in E; injection E as <-; vm_compute in M; injection M as <-; eauto).
  rewrite (C62_constituents unit "/" (fun _ => true) "HAMTIDE11" d dir true true o' l);
    [|now apply dict_get_some|now apply dict_get_some|now apply dict_get_some|exact R].
  vm_compute in E. injection E as <-. vm_compute in M. injection M as <-. vm_compute. reflexivity.
Qed.

(** ** C62: currents *)
Section RunsCurrent.
  Context {C : Type}.
  Implicit Types o : obj C.
  Variable cwd : string.
  Variable file_exists : string -> bool.

  Lemma each_runs dir z ver (keys : list (string * val)) : forall pre o,
    attrs o "directory" = Some (VPath dir) -> attrs o "compressed" = Some z -> attrs o "verify" = Some ver ->
    attrs o "model_file" = Some (VDict (pre ++ keys)%list) -> NoDup (map fst (pre ++ keys)%list) ->
    Forall (fun kv => listed (snd kv)) keys ->
    (truthy ver = true -> Forall (fun kv => on_disk file_exists dir (if truthy z then ".gz" else "") (snd kv)) keys) ->
    exists o', resolve_each cwd file_exists keys o = (o', Ok tt).
  Proof.
    induction keys as [|[k v] keys IH]; intros pre o D Z V MF ND LK OK.
    - eexists. reflexivity.
    - inversion LK as [|? ? L1 L2]; subst. cbn [snd] in L1. cbn [resolve_each].
      assert (P : pathfinder cwd file_exists v o = (o, Ok (placed_in dir (if truthy z then ".gz" else "") v))).
      { rewrite (pathfinder_run cwd file_exists o dir z ver v D Z V). f_equal. apply find_runs; [assumption|].
        intros T. specialize (OK T). inversion OK; assumption. }
      rewrite (andthen_run _ _ _ _ _ P).
      assert (G : getattr "model_file" o = (o, Ok (VDict (pre ++ (k, v) :: keys)%list))) by (unfold getattr, get; now rewrite MF).
      rewrite (andthen_run _ _ _ _ _ G).
      assert (NK : ~ In k (map fst pre)).
      { rewrite map_app in ND. cbn in ND. apply NoDup_remove_2 in ND. intros I. apply ND. apply in_or_app. now left. }
      cbn iota. rewrite (dict_set_middle pre keys k v _ NK).
      set (p := placed_in _ _ v). set (o1 := set_attr o "model_file" (VDict (pre ++ (k, p) :: keys)%list)).
      assert (S1 : setattr "model_file" (VDict (pre ++ (k, p) :: keys)%list) o = (o1, Ok tt)) by reflexivity.
      rewrite (andthen_run _ _ _ _ _ S1).
      apply (IH (pre ++ [(k, p)])%list o1); auto.
      + unfold o1. cbn [set_attr attrs]. change (String.eqb "model_file" "model_file") with true. cbn iota. rewrite <- app_assoc. reflexivity.
      + rewrite <- app_assoc. rewrite !map_app in *. cbn in *. exact ND.
      + intros T. specialize (OK T). inversion OK; assumption.
  Qed.

  Lemma current_runs extra m o db d dir z ver files f :
    load_database extra = Ok db -> dict_get m (db_current db) = Some d -> NoDup (map fst d) ->
    (forall x, In x (map fst d) -> ~ In x (["directory"; "compressed"; "verify"] ++ properties)%list) ->
    attrs o "directory" = Some (VPath dir) -> attrs o "compressed" = Some z -> attrs o "verify" = Some ver ->
    In ("model_file", VDict files) d -> Forall (fun kv => listed (snd kv)) files -> NoDup (map fst files) -> In "u" (map fst files) ->
    In ("format", VStr f) d -> known_format (VStr f) = true ->
    (forall g, In ("grid_file", g) d -> listed g) -> (~ In "grid_file" (map fst d) -> attrs o "grid_file" = Some VNone) ->
    (truthy ver = true -> Forall (fun kv => on_disk file_exists dir (if truthy z then ".gz" else "") (snd kv)) files) ->
    (truthy ver = true -> forall g, In ("grid_file", g) d -> on_disk file_exists dir (if truthy z then ".gz" else "") g) ->
    exists o', current cwd file_exists extra m o = (o', Ok tt).
  Proof.
    intros L G ND NP D Z V IM LM NF IU IF KF LG NG OM OG.
    unfold current. rewrite (andthen_run _ _ _ _ _ (default_some cwd o dir D)).
    rewrite L. cbn [bind]. unfold definition_of. cbn [bind]. rewrite G. unfold lift. unfold andthen at 1.
    destruct (from_dict_run d o ND) as (o1 & FD & C1 & F1).
    { intros k I J. apply (NP k I). apply in_or_app. now right. }
    rewrite (andthen_run _ _ _ _ _ FD).
    assert (N : forall k, In k ["directory"; "compressed"; "verify"] -> attrs o1 k = attrs o k).
    { intros k I. rewrite F1. destruct (dict_get k d) eqn:E; [|reflexivity]. exfalso. apply dict_get_some in E.
      apply (NP k); [apply in_map_iff; now exists (k, v)|]. apply in_or_app. now left. }
    assert (R : exists o2, resolve_grid cwd file_exists o1 = (o2, Ok tt) /\ forall k, k <> "grid_file" -> attrs o2 k = attrs o1 k).
    { unfold resolve_grid. destruct (attrs o1 "grid_file") as [g|] eqn:EG; [|eauto].
      destruct (truthy g) eqn:TG; [|eauto]. rewrite F1 in EG. destruct (dict_get "grid_file" d) as [g'|] eqn:EG'.
      - injection EG as ->. apply dict_get_some in EG'.
        assert (P : pathfinder cwd file_exists g o1 = (o1, Ok (placed_in dir (if truthy z then ".gz" else "") g))).
        { rewrite (pathfinder_run cwd file_exists o1 dir z ver g);
            [|rewrite N by (cbn; auto); assumption|rewrite N by (cbn; auto); assumption|rewrite N by (cbn; auto); assumption].
          f_equal. apply find_runs; auto. }
        rewrite (andthen_run _ _ _ _ _ P). unfold setattr. change (mem_str "grid_file" properties) with false. cbn iota.
        eexists. split; [reflexivity|]. intros k NK. cbn [set_attr attrs]. destruct (String.eqb_spec k "grid_file"); congruence.
      - apply dict_get_none in EG'. rewrite (NG EG') in EG. injection EG as <-. discriminate TG. }
    destruct R as (o2 & R & A2). rewrite (andthen_run _ _ _ _ _ R).
    assert (M2 : attrs o2 "model_file" = Some (VDict files)).
    { rewrite A2, F1 by discriminate. now rewrite (in_dict d _ _ ND IM). }
    assert (M : getattr "model_file" o2 = (o2, Ok (VDict files))) by (unfold getattr, get; now rewrite M2).
    rewrite (andthen_run _ _ _ _ _ M). cbn iota.
    assert (D2 : attrs o2 "directory" = Some (VPath dir)) by (rewrite A2, N by (cbn; auto; discriminate); assumption).
    assert (Z2 : attrs o2 "compressed" = Some z) by (rewrite A2, N by (cbn; auto; discriminate); assumption).
    assert (V2 : attrs o2 "verify" = Some ver) by (rewrite A2, N by (cbn; auto; discriminate); assumption).
    destruct (each_runs dir z ver files [] o2 D2 Z2 V2 M2 NF LM OM) as (o3 & E3). rewrite (andthen_run _ _ _ _ _ E3).
    destruct (each_ok cwd file_exists dir z ver files [] o2 o3 E3 D2 Z2 V2 M2 NF) as (ps & M3 & _ & K3 & PS). cbn [app] in M3.
    assert (F3 : attrs o3 "format" = Some (VStr f)).
    { rewrite K3, A2, F1 by discriminate. now rewrite (in_dict d _ _ ND IF). }
    assert (E4 : exists o4, constituents_if_fes o3 = (o4, Ok tt)).
    { unfold constituents_if_fes, andthen at 1, getattr, get. rewrite F3. destruct (is_fes (VStr f)); [|eexists; reflexivity].
      unfold parse_constituents, andthen at 1, getattr, get. rewrite M3. cbn iota.
      assert (U : exists w, listed w /\ dict_get "u" ps = Some (placed_in dir (if truthy z then ".gz" else "") w)).
      { clear - PS LM IU. induction PS as [|[k v] [k' p] fs ps [E1 E2] PS IH]; [destruct IU|]. cbn [fst snd] in *. subst k'.
        inversion LM as [|? ? L1 L2]; subst. cbn [snd] in L1. rewrite dict_get_cons. destruct (String.eqb_spec "u" k) as [<-|NE].
        - exists v. split; [assumption|]. destruct (find_listed file_exists dir (if truthy z then ".gz" else "") (truthy ver) v L1) as [[E _]|[E _]]; congruence.
        - cbn in IU. destruct IU as [E|IU]; [congruence|]. auto. }
      destruct U as (w & LW & ->). destruct LW as [s Hs|l Hl].
      - rewrite <- (join_placed dir _ s Hs). eexists. reflexivity.
      - cbn [placed_in]. destruct (paths_parse _ (placed_paths dir (if truthy z then ".gz" else "") l Hl)) as (cs & E).
        unfold andthen, lift. rewrite E. eexists. reflexivity. }
    destruct E4 as (o4 & E4). rewrite (andthen_run _ _ _ _ _ E4). destruct (constituents_ok _ _ _ E4) as (_ & K4 & _).
    unfold validate_format, andthen at 1, getattr, get. rewrite K4 by discriminate. rewrite F3. unfold andthen, setattr.
    change (mem_str "format" properties) with false. cbn iota.
    assert (RF : remap_format (VStr f) = VStr f).
    { destruct (String.eqb_spec f "ATLAS") as [->|N1]; [vm_compute in KF; discriminate KF|].
      destruct (String.eqb_spec f "netcdf") as [->|N2]; [vm_compute in KF; discriminate KF|].
      destruct (String.eqb_spec f "FES") as [->|N3]; [vm_compute in KF; discriminate KF|].
      destruct (String.eqb_spec f "GOT") as [->|N4]; [vm_compute in KF; discriminate KF|].
      unfold remap_format. cbn [fold_left is_str fst snd].
      apply String.eqb_neq in N1, N2, N3, N4. rewrite N1. cbn [is_str]. rewrite N2. cbn [is_str]. rewrite N3. cbn [is_str]. now rewrite N4. }
    rewrite RF, KF. eexists. reflexivity.
  Qed.
End RunsCurrent.

Definition current_in_order (d : list (string * val)) : bool :=
  (nodup_b (map fst d) &&
   forallb (fun x => negb (mem_str x (["directory"; "compressed"; "verify"] ++ properties)%list)) (map fst d) &&
   match dict_get "model_file" d with
   | Some (VDict fs) => (forallb (fun kv => listed_b (snd kv)) fs && nodup_b (map fst fs) && mem_str "u" (map fst fs))%bool
   | _ => false
   end &&
   match dict_get "grid_file" d with Some v => listed_b v | None => true end &&
   match dict_get "format" d with Some (VStr s) => known_format (VStr s) | _ => false end)%bool.
Lemma builtin_current_in_order : (forallb (fun m => current_in_order (snd m)) builtin_current && nodup_b (map fst builtin_current))%bool = true.
Proof. vm_compute. reflexivity. Qed.

Theorem C62_current :
  forall (K : Type) cwd file_exists m d files dir compressed verify,
    In (m, d) builtin_current -> In ("model_file", VDict files) d ->
    (verify = true -> forall k v p, In (k, v) (("", match dict_get "grid_file" d with Some g => g | None => VNone end) :: files) ->
       placed_in dir (suffix compressed) v = VPath p \/
       (exists l, placed_in dir (suffix compressed) v = VList l /\ In (VPath p) l) -> file_exists p = true) ->
    exists o', current cwd file_exists [] m (fresh (C := K) (Some dir) compressed verify) = (o', Ok tt).
Proof.
  intros K cwd file_exists m d files dir compressed verify I IM OD.
  pose proof builtin_current_in_order as B. apply andb_true_iff in B as [B NB]. apply nodup_b_spec in NB.
  rewrite forallb_forall in B. specialize (B _ I). cbn [snd] in B. unfold current_in_order in B.
  apply andb_true_iff in B as [H H5]. apply andb_true_iff in H as [H H4].
  apply andb_true_iff in H as [H H3]. apply andb_true_iff in H as [H1 H2]. pose proof (nodup_b_spec _ H1) as ND.
  rewrite (in_dict d _ _ ND IM) in H3. apply andb_true_iff in H3 as [H3 H6]. apply andb_true_iff in H3 as [H3 H7].
  destruct (dict_get "format" d) as [[]|] eqn:EF; try discriminate H5. apply dict_get_some in EF.
  assert (GZ : (if truthy (VBool compressed) then ".gz" else "") = suffix compressed) by (destruct compressed; reflexivity).
  apply (current_runs cwd file_exists [] m (fresh (C := K) (Some dir) compressed verify) {| db_current := builtin_current; db_elevation := builtin_elevation |} d dir (VBool compressed) (VBool verify) files s); auto.
  - clear - I NB. cbn [db_current]. revert I NB. generalize builtin_current. intros l. induction l as [|[k v] l IH]; intros I ND; [destruct I|].
    cbn in ND. inversion ND as [|? ? NI ND']; subst. rewrite dict_get_cons. destruct I as [E|I].
    + injection E as -> ->. now rewrite String.eqb_refl.
    + destruct (String.eqb_spec m k) as [->|]; [|auto]. exfalso. apply NI. apply in_map_iff. now exists (k, d).
  - intros x J1 J2. rewrite forallb_forall in H2. specialize (H2 x J1). apply mem_str_spec in J2. rewrite J2 in H2. discriminate H2.
  - rewrite forallb_forall in H3. apply Forall_forall. intros kv J. apply listed_b_spec. now apply H3.
  - now apply nodup_b_spec.
  - now apply mem_str_spec.
  - intros g J. rewrite (in_dict d _ _ ND J) in H4. now apply listed_b_spec.
  - intros T. apply Forall_forall. intros [k v] J. cbn [snd]. rewrite GZ. intros p P. apply (OD T k v p); [now right|exact P].
  - intros T g J. rewrite GZ. intros p P. apply (OD T "" g p); [|exact P]. left. now rewrite (in_dict d _ _ ND J).
Qed.
Print Assumptions C62_current.

(** ** C62: the corrections and the file format of every accepted format. *)
Theorem C62_corrections :
  forall (K : Type) (o : obj K) f c g,
    In (f, (c, g)) [("OTIS", ("OTIS", "OTIS")); ("ATLAS-compact", ("ATLAS", "ATLAS")); ("TMD3", ("TMD3", "TMD3"));
                    ("ATLAS-netcdf", ("ATLAS", "netcdf")); ("GOT-ascii", ("perth3", "ascii")); ("GOT-netcdf", ("GOT", "netcdf"));
                    ("FES-ascii", ("FES", "ascii")); ("FES-netcdf", ("FES", "netcdf"))] ->
    attrs o "format" = Some (VStr f) -> corrections o = Ok c /\ file_format o = Ok g.
Proof.
  intros K o f c g I F. unfold corrections, file_format. rewrite F.
  repeat (destruct I as [I|I]; [injection I as <- <- <-; vm_compute; auto|]). destruct I.
Qed.
Print Assumptions C62_corrections.
