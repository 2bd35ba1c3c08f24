(** C63: definition files. *)
From Coq Require Import String Ascii List QArith Bool Arith Lia.
From Verif Require Import PyBase StrBase ValueBase DatabaseData ObjModel DefModel ObjSpec ObjProps ObjProps2 ObjProps3 ObjProps4 ObjProps5.
Import ListNotations.
Open Scope nat_scope.
Open Scope string_scope.

Section Runs.
  Context {C : Type}.
  Implicit Types o : obj C.

  Lemma assert_run k o v : attrs o k = Some v -> truthy v = true -> assert_attr k o = (o, Ok tt).
  Proof. intros H T. unfold assert_attr, andthen, getattr, get. rewrite H, T. reflexivity. Qed.
  Lemma getattr_run k o v : attrs o k = Some v -> getattr k o = (o, Ok v).
  Proof. intros H. unfold getattr, get. now rewrite H. Qed.
  Lemma setattr_run k v o : ~ In k properties -> setattr k v o = (set_attr o k v, Ok tt).
  Proof.
    intros N. unfold setattr. destruct (mem_str k properties) eqn:E; [|reflexivity]. apply mem_str_spec in E. contradiction.
  Qed.
  Lemma set_same o k v : attrs (set_attr o k v) k = Some v.
  Proof. cbn. now rewrite String.eqb_refl. Qed.
  Lemma set_other o k v x : x <> k -> attrs (set_attr o k v) x = attrs o x.
  Proof. intros N. cbn. apply String.eqb_neq in N. now rewrite N. Qed.
End Runs.

Ltac fresh_attr := first [rewrite set_same | rewrite set_other by discriminate].

(** ** The whole of reading a definition, for the object it is read into: the
    directory is none, the formats are full names. *)
Section Read.
  Context {C : Type}.
  Variable glob : string -> string -> res (list string).
  Variable expand resolve : string -> string.
  Implicit Types o n : obj C.

  Lemma read_run n d f ty mf g dir pg pm : NoDup (map fst d) -> (forall x, In x (map fst d) -> ~ In x ("directory" :: properties)) ->
    attrs n "directory" = Some dir -> In ("format", VStr f) d -> In f formats_of_database ->
    In ("type", ty) d -> truthy ty = true -> In ("model_file", mf) d -> truthy mf = true ->
    (exists v, In ("name", v) d /\ truthy v = true) ->
    (In f ["OTIS"; "ATLAS-compact"; "TMD3"; "ATLAS-netcdf"] -> In ("grid_file", g) d /\ truthy g = true /\ grid_path expand resolve dir g = Ok pg) ->
    model_paths glob expand (is_otis (VStr f)) ty dir mf = Ok pm ->
    (In f ["OTIS"; "ATLAS-compact"; "TMD3"] -> exists v, In ("projection", v) d /\ truthy v = true) ->
    (In f ["ATLAS-netcdf"; "GOT-ascii"; "GOT-netcdf"; "FES-netcdf"] -> exists v, In ("scale", v) d /\ truthy v = true) ->
    (f = "FES-netcdf" -> (exists v, In ("version", v) d /\ truthy v = true) /\ (exists v, In ("constituents", v) d /\ v <> VNone)) ->
    exists o, parse_definition glob expand resolve d n = (o, Ok tt) /\
      attrs o "model_file" = Some pm /\
      (In f ["OTIS"; "ATLAS-compact"; "TMD3"; "ATLAS-netcdf"] -> attrs o "grid_file" = Some pg) /\
      (forall k, k <> "model_file" -> (k = "grid_file" -> ~ In f ["OTIS"; "ATLAS-compact"; "TMD3"; "ATLAS-netcdf"]) ->
         attrs o k = match dict_get k d with Some v => Some v | None => attrs n k end).
  Proof.
    intros ND NP DN IF FF IT TT IM TM (nm & INM & TNM) GR PM PJ SC VS.
    destruct (from_dict_run d n ND) as (o1 & FD & C1 & F1).
    { intros k I J. apply (NP k I). now right. }
    assert (A : forall k v, In (k, v) d -> attrs o1 k = Some v).
    { intros k v I. rewrite F1. now rewrite (in_dict d k v ND I). }
    unfold parse_definition. rewrite (andthen_run _ _ _ _ _ FD).
    rewrite (andthen_run _ _ _ _ _ (assert_run "name" o1 nm (A _ _ INM) TNM)).
    destruct (C45_validate C o1 f (A _ _ IF)) as (o2 & long & V & SF & AF & K2 & _).
    assert (long = f).
    { destruct SF as [SF|[_ SF]]; [|assumption]. cbn in SF, FF. exfalso.
      destruct SF as [SF|[SF|[SF|[SF|[]]]]]; injection SF as <- <-; intuition discriminate. }
    subst long. apply mem_str_spec in FF. rewrite FF in V. apply mem_str_spec in FF.
    rewrite (andthen_run _ _ _ _ _ V).
    assert (A2 : forall k v, k <> "format" -> In (k, v) d -> attrs o2 k = Some v).
    { intros k v N I. rewrite K2 by assumption. auto. }
    rewrite (andthen_run _ _ _ _ _ (assert_run "type" o2 ty (A2 "type" ty ltac:(discriminate) IT) TT)).
    rewrite (andthen_run _ _ _ _ _ (assert_run "model_file" o2 mf (A2 "model_file" mf ltac:(discriminate) IM) TM)).
    rewrite (andthen_run _ _ _ _ _ (getattr_run "format" o2 _ AF)).
    rewrite (andthen_run _ _ _ _ _ (getattr_run "type" o2 _ (A2 "type" ty ltac:(discriminate) IT))).
    assert (D2 : attrs o2 "directory" = Some dir).
    { rewrite K2 by discriminate. rewrite F1. destruct (dict_get "directory" d) eqn:E; [|assumption]. exfalso.
      apply dict_get_some in E. apply (NP "directory"); [apply in_map_iff; now exists ("directory", v)|now left]. }
    rewrite (andthen_run _ _ _ _ _ (getattr_run "directory" o2 _ D2)).
    assert (AT : forall k v, In k ["name"; "type"; "projection"; "scale"; "version"; "constituents"] -> In (k, v) d -> forall b c,
       attrs (set_attr (set_attr o2 "grid_file" b) "model_file" c) k = Some v /\ attrs (set_attr o2 "model_file" c) k = Some v).
    { intros k v I J b c. assert (NK : k <> "format" /\ k <> "grid_file" /\ k <> "model_file") by (cbn in I; intuition congruence).
      rewrite !set_other by tauto. split; apply A2; tauto. }
    (* the grid file *)
    set (grid := is_otis (VStr f) || is_str (VStr f) "ATLAS-netcdf").
    assert (GB : grid = mem_str f ["OTIS"; "ATLAS-compact"; "TMD3"; "ATLAS-netcdf"]).
    { unfold grid, is_otis, is_str, mem_str. cbn [existsb]. rewrite orb_false_r, !orb_assoc. reflexivity. }
    set (o3 := if grid then set_attr o2 "grid_file" pg else o2).
    assert (S3 : (if grid then andthen (assert_attr "grid_file") (fun _ => andthen (getattr "grid_file") (fun g0 =>
                    andthen (lift (grid_path expand resolve dir g0)) (fun p => setattr "grid_file" p))) else ret tt) o2 = (o3, Ok tt)).
    { unfold o3. destruct grid; [|reflexivity]. symmetry in GB. apply mem_str_spec in GB. destruct (GR GB) as (IG & TG & PG).
      rewrite (andthen_run _ _ _ _ _ (assert_run "grid_file" o2 g (A2 "grid_file" g ltac:(discriminate) IG) TG)).
      rewrite (andthen_run _ _ _ _ _ (getattr_run "grid_file" o2 _ (A2 "grid_file" g ltac:(discriminate) IG))).
      unfold andthen, lift. rewrite PG. reflexivity. }
    rewrite (andthen_run _ _ _ _ _ S3).
    (* the model files *)
    assert (MB : (grid || is_fes (VStr f) || is_str (VStr f) "GOT-ascii" || is_str (VStr f) "GOT-netcdf")%bool = true).
    { unfold grid. cbn in FF. destruct FF as [<-|[<-|[<-|[<-|[<-|[<-|[<-|[]]]]]]]]; reflexivity. }
    assert (M3 : attrs o3 "model_file" = Some mf).
    { unfold o3. destruct grid; rewrite ?set_other by discriminate; apply A2; auto; discriminate. }
    set (o4 := set_attr o3 "model_file" pm).
    assert (S4 : (if (grid || is_fes (VStr f) || is_str (VStr f) "GOT-ascii" || is_str (VStr f) "GOT-netcdf")%bool
       then andthen (getattr "model_file") (fun mf0 => andthen (lift (model_paths glob expand (is_otis (VStr f)) ty dir mf0)) (fun p => setattr "model_file" p))
       else ret tt) o3 = (o4, Ok tt)).
    { rewrite MB. rewrite (andthen_run _ _ _ _ _ (getattr_run "model_file" o3 _ M3)). unfold andthen, lift. rewrite PM. reflexivity. }
    rewrite (andthen_run _ _ _ _ _ S4).
    assert (A4 : forall k v, In k ["name"; "type"; "projection"; "scale"; "version"; "constituents"] -> In (k, v) d -> attrs o4 k = Some v).
    { intros k v I J. unfold o4, o3. destruct grid; apply (AT k v I J VNone pm) || apply (AT k v I J pg pm). }
    assert (S5 : (if is_otis (VStr f) then assert_attr "projection" else ret tt) o4 = (o4, Ok tt)).
    { destruct (is_otis (VStr f)) eqn:E; [|reflexivity]. destruct PJ as (v & I & T).
      - unfold is_otis, is_str in E. cbn. destruct (String.eqb_spec f "OTIS"); [auto|]. destruct (String.eqb_spec f "ATLAS-compact"); [auto|].
        destruct (String.eqb_spec f "TMD3"); [auto|discriminate E].
      - apply (assert_run "projection" o4 v); [apply A4; [cbn; auto|assumption]|assumption]. }
    rewrite (andthen_run _ _ _ _ _ S5).
    assert (S6 : (if (is_str (VStr f) "ATLAS-netcdf" || is_str (VStr f) "GOT-ascii" || is_str (VStr f) "GOT-netcdf" || is_fes (VStr f))%bool
                  then assert_attr "scale" else ret tt) o4 = (o4, Ok tt)).
    { match goal with |- (if ?b then _ else _) _ = _ => destruct b eqn:E; [|reflexivity] end. destruct SC as (v & I & T).
      - cbn in FF |- *. destruct FF as [<-|[<-|[<-|[<-|[<-|[<-|[<-|[]]]]]]]]; try discriminate E; auto.
      - apply (assert_run "scale" o4 v); [apply A4; [cbn; auto 8|assumption]|assumption]. }
    rewrite (andthen_run _ _ _ _ _ S6).
    exists o4. split; [|split; [|split]].
    - destruct (is_fes (VStr f)) eqn:E; [|reflexivity].
      assert (f = "FES-netcdf") by (cbn in FF; destruct FF as [<-|[<-|[<-|[<-|[<-|[<-|[<-|[]]]]]]]]; try discriminate E; reflexivity).
      destruct (VS H) as [(v & I & T) (c & IC & NC)].
      rewrite (andthen_run _ _ _ _ _ (assert_run "version" o4 v (A4 "version" v ltac:(cbn; auto 8) I) T)).
      rewrite (andthen_run _ _ _ _ _ (getattr_run "constituents" o4 c (A4 "constituents" c ltac:(cbn; auto 8) IC))).
      destruct c; try reflexivity. congruence.
    - unfold o4. now rewrite set_same.
    - intros I. apply mem_str_spec in I. rewrite <- GB in I. unfold o4, o3. rewrite I. rewrite set_other by discriminate. now rewrite set_same.
    - intros k N1 N2. unfold o4. rewrite set_other by assumption. unfold o3. destruct grid.
      + assert (k <> "grid_file") by (intros E; apply (N2 E); apply mem_str_spec; now symmetry). rewrite set_other by assumption.
        destruct (string_dec k "format") as [->|N]; [rewrite AF; now rewrite (in_dict d _ _ ND IF)|]. now rewrite K2, F1 by assumption.
      + destruct (string_dec k "format") as [->|N]; [rewrite AF; now rewrite (in_dict d _ _ ND IF)|]. now rewrite K2, F1 by assumption.
  Qed.
End Read.

(** ** C63: a model written to a definition file and read back without a
    directory is the same model. *)
Definition paths (l : list val) : Prop := l <> [] /\ Forall (fun v => exists p, v = VPath p) l.

(** the files of a model that come back: lists of files; a single file for the
    elevations of an OTIS model *)
Definition files_in_lists (f : string) (ty mf : val) : Prop :=
  (ty = VStr "z" /\ (exists l, mf = VList l /\ paths l)) \/
  (ty = VStr "z" /\ In f ["OTIS"; "ATLAS-compact"; "TMD3"] /\ exists p, mf = VPath p /\ p <> "") \/
  (ty = VList [VStr "u"; VStr "v"] /\
   exists d, mf = VDict d /\ d <> [] /\ Forall (fun kv => exists l, snd kv = VList l /\ paths l) d).

Lemma each_path_back expand l : (forall p, In (VPath p) l -> expand p = p) -> Forall (fun v => exists p, v = VPath p) l ->
  mapM (as_path expand) (map as_text l) = Ok l.
Proof.
  intros E H. induction H as [|x l (p & ->) H IH]; [reflexivity|]. cbn [map mapM as_text as_path bind].
  rewrite IH by (intros q I; apply E; now right). cbn [bind]. rewrite (E p) by now left. reflexivity.
Qed.
Lemma paths_regular l : paths l -> regular (VList l).
Proof. intros [N H]. cbn. split; [assumption|]. left. now apply Forall_forall. Qed.

Theorem C63_round_trip_partial :
  forall (K : Type) glob expand resolve (o n : obj K) f ty mf d,
    attrs o "format" = Some (VStr f) -> In f formats_of_database ->
    attrs o "type" = Some ty -> attrs o "model_file" = Some mf -> files_in_lists f ty mf ->
    (forall p, mf = VPath p \/ (exists l, mf = VList l /\ In (VPath p) l) \/
               (exists m k l, mf = VDict m /\ In (k, VList l) m /\ In (VPath p) l) \/ attrs o "grid_file" = Some (VPath p) -> expand p = p) ->
    (In f ["OTIS"; "ATLAS-compact"; "TMD3"; "ATLAS-netcdf"] -> exists p, attrs o "grid_file" = Some (VPath p) /\ p <> "") ->
    (~ In f ["OTIS"; "ATLAS-compact"; "TMD3"; "ATLAS-netcdf"] -> attrs o "grid_file" = Some VNone) ->
    (exists v, attrs o "name" = Some v /\ truthy v = true) ->
    (In f ["OTIS"; "ATLAS-compact"; "TMD3"] -> exists v, attrs o "projection" = Some v /\ truthy v = true) ->
    (In f ["ATLAS-netcdf"; "GOT-ascii"; "GOT-netcdf"; "FES-netcdf"] -> exists v, attrs o "scale" = Some v /\ truthy v = true) ->
    (f = "FES-netcdf" -> (exists v, attrs o "version" = Some v /\ truthy v = true) /\ (exists v, attrs o "constituents" = Some v /\ v <> VNone)) ->
    (forall k v, In k default_fields -> k <> "model_file" -> k <> "grid_file" -> attrs o k = Some v -> regular v /\ no_path v) ->
    attrs n "directory" = Some VNone -> (forall k, In k default_fields -> attrs n k = Some VNone) ->
    (forall k, In k default_fields -> attrs o k <> None) ->
    serialize (to_dict default_fields o) = Ok d ->
    exists o', parse_definition glob expand resolve d n = (o', Ok tt) /\
      forall k, In k default_fields -> attrs o' k = attrs o k.
Proof.
  intros K glob expand resolve o n f ty mf d F FF TY MF FL EX GP GN (nm & NM & TNM) PJ SC VS RG DN NN HA SD.
  destruct (to_dict_spec default_fields o) as [ND0 G0]. revert SD ND0 G0. generalize (to_dict default_fields o). intros d0 SD ND0 G0.
  assert (IN0 : forall k v, In (k, v) d0 -> In k default_fields /\ attrs o k = Some v /\ v <> VNone).
  { intros k v I. pose proof (in_dict d0 k v ND0 I) as G. rewrite G0 in G. destruct (mem_str k default_fields) eqn:E; [|discriminate G].
    apply mem_str_spec in E. split; [assumption|]. destruct (attrs o k) as [[]|]; try discriminate G; injection G as <-; split; congruence. }
  assert (TTY : truthy ty = true).
  { destruct FL as [[-> _]|[[-> _]|[-> _]]]; reflexivity. }
  assert (TMF : truthy (as_text mf) = true /\ regular mf /\ mf <> VNone).
  { destruct FL as [(_ & l & -> & P)|[(_ & _ & p & -> & NP)|(_ & m & -> & N & P)]].
    - split; [|split; [now apply paths_regular|discriminate]]. destruct P as [N P]. destruct l; [congruence|reflexivity].
    - split; [|split; [exact I|discriminate]]. cbn. destruct p; [congruence|reflexivity].
    - split; [destruct m; [congruence|reflexivity]|]. split; [|discriminate]. cbn.
      clear N EX MF. induction P as [|[k v] m (l & E & P1) P IH]; [exact I|]. cbn [fold_right snd] in *. subst v. split; [|exact IH].
      now apply paths_regular. }
  destruct TMF as (TMF & RMF & NMF).
  assert (GR : attrs o "grid_file" = Some VNone \/ exists p, attrs o "grid_file" = Some (VPath p) /\ p <> "").
  { destruct (mem_str f ["OTIS"; "ATLAS-compact"; "TMD3"; "ATLAS-netcdf"]) eqn:E.
    - apply mem_str_spec in E. right. auto.
    - left. apply GN. intros I. apply mem_str_spec in I. congruence. }
  assert (RD : Forall (fun kv => regular (snd kv)) d0).
  { apply Forall_forall. intros [k v] I. cbn [snd]. destruct (IN0 k v I) as (IK & AK & _).
    destruct (string_dec k "model_file") as [->|N1]; [congruence|].
    destruct (string_dec k "grid_file") as [->|N2].
    - destruct GR as [G|(p & G & _)]; rewrite G in AK; injection AK as <-; exact Logic.I.
    - apply (RG k v IK N1 N2 AK). }
  destruct (C45_serialize d0 RD) as [SE _]. rewrite SE in SD. injection SD as <-.
  set (d := map (fun kv => (fst kv, as_text (snd kv))) d0).
  assert (KD : map fst d = map fst d0).
  { unfold d. rewrite map_map. reflexivity. }
  assert (ND : NoDup (map fst d)) by now rewrite KD.
  assert (ID : forall k v, In k default_fields -> attrs o k = Some v -> v <> VNone -> In (k, as_text v) d).
  { intros k v IK AK NV. unfold d. apply in_map_iff. exists (k, v). split; [reflexivity|]. apply dict_get_some. rewrite G0.
    apply mem_str_spec in IK. rewrite IK, AK. destruct v; congruence. }
  assert (PL : forall k v, In k default_fields -> k <> "model_file" -> k <> "grid_file" -> attrs o k = Some v -> as_text v = v).
  { intros k v IK N1 N2 AK. apply as_text_id. apply (RG k v IK N1 N2 AK). }
  assert (TR : forall k v, In k default_fields -> k <> "model_file" -> k <> "grid_file" -> attrs o k = Some v -> truthy v = true -> In (k, v) d).
  { intros k v IK N1 N2 AK T. rewrite <- (PL k v IK N1 N2 AK). apply ID; auto. intros ->. discriminate T. }
  assert (NF : VStr f <> VNone) by discriminate.
  assert (TF : In ("format", VStr f) d).
  { change (VStr f) with (as_text (VStr f)). apply ID; auto. cbn; auto. }
  assert (ITY : In ("type", ty) d) by (apply TR; auto; cbn; auto; discriminate).
  set (pg := match attrs o "grid_file" with Some v => v | None => VNone end).
  assert (PM : model_paths glob expand (is_otis (VStr f)) ty VNone (as_text mf) = Ok mf).
  { unfold model_paths. destruct FL as [(-> & l & -> & P)|[(-> & IO & p & -> & NP)|(-> & m & -> & N & P)]].
    - cbn [is_uv is_str]. change (String.eqb "z" "z") with true. cbn iota. cbn [as_text].
      assert (E : each_path expand (VList (map as_text l)) = Ok (VList l)).
      { cbn [each_path]. rewrite each_path_back; [reflexivity| |apply P]. intros p I. apply EX. right. left. eauto. }
      destruct (is_otis (VStr f)); exact E.
    - cbn [is_uv is_str]. change (String.eqb "z" "z") with true. cbn iota. cbn [as_text].
      assert (is_otis (VStr f) = true) as -> by (cbn in IO; destruct IO as [<-|[<-|[<-|[]]]]; reflexivity).
      cbn [as_path]. rewrite (EX p) by auto. reflexivity.
    - cbn [is_uv]. change ((String.eqb "u" "u" && String.eqb "v" "v")%bool) with true. cbn iota. cbn [as_text].
      assert (E : over_items (each_path expand) (VDict (map (fun kv => (fst kv, as_text (snd kv))) m)) = Ok (VDict m)).
      { cbn [over_items].
        assert (E : mapM (fun x => do y <- each_path expand (snd x) ;; Ok (fst x, y)) (map (fun kv => (fst kv, as_text (snd kv))) m) = Ok m).
        { assert (EX' : forall p k l, In (k, VList l) m -> In (VPath p) l -> expand p = p).
          { intros p k l I1 I2. apply EX. right. right. left. exists m, k, l. auto. }
          clear - P EX'. induction P as [|[k v] m (l & E & P1) P IH]; [reflexivity|]. cbn [snd] in E. subst v.
          cbn [map mapM fst snd as_text each_path bind]. rewrite each_path_back; [|intros p I; apply (EX' p k l); [now left|assumption]|apply P1].
          cbn [bind]. rewrite IH by (intros p k' l' I1 I2; apply (EX' p k' l'); [now right|assumption]). reflexivity. }
        rewrite E. reflexivity. }
      destruct (is_otis (VStr f)); exact E. }
  destruct (read_run glob expand resolve n d f ty (as_text mf) (as_text pg) VNone pg mf) as (o' & R & AM & AG & AK); auto.
  - intros x I J. rewrite KD in I. apply in_map_iff in I as ([k v] & E & I). cbn in E. subst x. destruct (IN0 k v I) as (IK & _ & _).
    assert (B : forallb (fun k => negb (mem_str k ("directory" :: properties))) default_fields = true) by reflexivity.
    rewrite forallb_forall in B. specialize (B k IK). apply mem_str_spec in J. rewrite J in B. discriminate B.
  - apply ID; auto. cbn; auto 10.
  - exists nm. split; [|assumption]. apply TR; auto; [cbn; auto|discriminate|discriminate].
  - intros IG. destruct (GP IG) as (p & AP & NP). unfold pg. rewrite AP. cbn [as_text grid_path]. split; [|split].
    + change (VStr p) with (as_text (VPath p)). apply ID; [cbn; auto 10|assumption|discriminate].
    + destruct p; [congruence|reflexivity].
    + cbn [as_path]. rewrite (EX p); auto.
  - intros IP. destruct (PJ IP) as (v & AV & T). exists v. split; [|assumption]. apply TR; auto; [cbn; auto 10|discriminate|discriminate].
  - intros IP. destruct (SC IP) as (v & AV & T). exists v. split; [|assumption]. apply TR; auto; [cbn; auto 10|discriminate|discriminate].
  - intros IP. destruct (VS IP) as [(v & AV & T) (c & AC & NC)]. split.
    + exists v. split; [|assumption]. apply TR; auto; [cbn; auto 12|discriminate|discriminate].
    + exists c. split; [|assumption]. rewrite <- (PL "constituents" c); [apply ID; auto; cbn; auto 12|cbn; auto 12|discriminate|discriminate|assumption].
  - exists o'. split; [exact R|]. intros k IK. destruct (string_dec k "model_file") as [->|N1]; [congruence|].
    destruct (mem_str f ["OTIS"; "ATLAS-compact"; "TMD3"; "ATLAS-netcdf"]) eqn:E.
    + apply mem_str_spec in E. destruct (string_dec k "grid_file") as [->|N2].
      * rewrite (AG E). destruct (GP E) as (p & AP & _). unfold pg. now rewrite AP.
      * rewrite AK by (auto; congruence). destruct (attrs o k) as [v|] eqn:AV; [|exfalso; now apply (HA k IK)].
        destruct (dict_get k d) as [w|] eqn:GD.
        -- destruct v; try (rewrite <- (PL k _ IK N1 N2 AV); pose proof (in_dict d k _ ND (ID k _ IK AV ltac:(discriminate))); congruence).
           exfalso. apply dict_get_some in GD. unfold d in GD. apply in_map_iff in GD as ([k' v'] & E2 & I2). cbn in E2. injection E2 as -> _.
           destruct (IN0 k v' I2) as (_ & AV' & NV). congruence.
        -- rewrite (NN k IK). destruct v; try (pose proof (in_dict d k _ ND (ID k _ IK AV ltac:(discriminate))); congruence). reflexivity.
    + assert (NE : ~ In f ["OTIS"; "ATLAS-compact"; "TMD3"; "ATLAS-netcdf"]) by (intros I; apply mem_str_spec in I; congruence).
      rewrite AK by auto. destruct (attrs o k) as [v|] eqn:AV; [|exfalso; now apply (HA k IK)].
      destruct (string_dec k "grid_file") as [->|N2].
      * rewrite (GN NE) in AV. injection AV as <-. destruct (dict_get "grid_file" d) as [w|] eqn:GD; [|apply (NN _ IK)].
        exfalso. apply dict_get_some in GD. unfold d in GD. apply in_map_iff in GD as ([k' v'] & E2 & I2). cbn in E2. injection E2 as -> _.
        destruct (IN0 _ v' I2) as (_ & AV' & NV). rewrite (GN NE) in AV'. congruence.
      * destruct (dict_get k d) as [w|] eqn:GD.
        -- destruct v; try (rewrite <- (PL k _ IK N1 N2 AV); pose proof (in_dict d k _ ND (ID k _ IK AV ltac:(discriminate))); congruence).
           exfalso. apply dict_get_some in GD. unfold d in GD. apply in_map_iff in GD as ([k' v'] & E2 & I2). cbn in E2. injection E2 as -> _.
           destruct (IN0 k v' I2) as (_ & AV' & NV). congruence.
        -- rewrite (NN k IK). destruct v; try (pose proof (in_dict d k _ ND (ID k _ IK AV ltac:(discriminate))); congruence). reflexivity.
Qed.
Print Assumptions C63_round_trip_partial.

(** ** Findings: a single file comes back as a list of its characters, unless it
    is that of the elevations of an OTIS model; every current of an OTIS model is
    such a file. *)
Theorem C63_single_file_refuted :
  forall (K : Type) glob expand resolve (n o' : obj K) d f s,
    NoDup (map fst d) -> (forall x, In x (map fst d) -> ~ In x ("directory" :: properties)) ->
    attrs n "directory" = Some VNone -> In ("format", VStr f) d -> In f ["GOT-ascii"; "GOT-netcdf"] ->
    In ("type", VStr "z") d -> In ("model_file", VStr s) d -> s <> "" ->
    (exists v, In ("name", v) d /\ truthy v = true) -> (exists v, In ("scale", v) d /\ truthy v = true) ->
    parse_definition glob expand resolve d n = (o', Ok tt) ->
    attrs o' "model_file" = Some (VList (map (fun c => VPath (expand c)) (map (fun c => String c "") (list_ascii_of_string s)))).
Proof.
  intros K glob expand resolve n o' d f s ND NP DN IF FF IT IM NS NM SC R.
  destruct (read_run glob expand resolve n d f (VStr "z") (VStr s) VNone VNone VNone
    (VList (map (fun c => VPath (expand c)) (characters s)))) as (o2 & R2 & AM & _); auto.
  - cbn in FF |- *. intuition.
  - destruct s; [congruence|reflexivity].
  - intros I. exfalso. cbn in FF, I. intuition (subst; discriminate).
  - cbn in FF. destruct FF as [<-|[<-|[]]]; reflexivity.
  - intros I. exfalso. cbn in FF, I. intuition (subst; discriminate).
  - intros ->. exfalso. cbn in FF. intuition discriminate.
  - rewrite R in R2. injection R2 as <-. rewrite AM. do 3 f_equal.
    clear. induction s as [|c s IH]; [reflexivity|]. cbn. now rewrite IH.
Qed.
Print Assumptions C63_single_file_refuted.

Theorem C63_otis_current_refuted :
  forall (K : Type) glob expand resolve (n o' : obj K) d f s g,
    NoDup (map fst d) -> (forall x, In x (map fst d) -> ~ In x ("directory" :: properties)) ->
    attrs n "directory" = Some VNone -> In ("format", VStr f) d -> In f ["OTIS"; "ATLAS-compact"; "TMD3"] ->
    In ("type", VList [VStr "u"; VStr "v"]) d -> In ("model_file", VDict [("u", VStr s)]) d ->
    In ("grid_file", VStr g) d -> g <> "" ->
    (exists v, In ("name", v) d /\ truthy v = true) -> (exists v, In ("projection", v) d /\ truthy v = true) ->
    parse_definition glob expand resolve d n = (o', Ok tt) ->
    attrs o' "model_file" = Some (VDict [("u", VList (map (fun c => VPath (expand c)) (map (fun c => String c "") (list_ascii_of_string s))))]).
Proof.
  intros K glob expand resolve n o' d f s g ND NP DN IF FF IT IM IG NG NM PJ R.
  assert (CH : map (fun c => String c "") (list_ascii_of_string s) = characters s).
  { clear. induction s as [|c s IH]; [reflexivity|]. cbn. now rewrite IH. }
  rewrite CH.
  destruct (read_run glob expand resolve n d f (VList [VStr "u"; VStr "v"]) (VDict [("u", VStr s)]) (VStr g) VNone (VPath (expand g))
    (VDict [("u", VList (map (fun c => VPath (expand c)) (characters s)))])) as (o2 & R2 & AM & _); auto.
  - cbn in FF |- *. intuition.
  - intros _. split; [assumption|]. split; [destruct g; [congruence|reflexivity]|reflexivity].
  - cbn in FF. destruct FF as [<-|[<-|[<-|[]]]]; reflexivity.
  - intros I. exfalso. cbn in FF, I. intuition (subst; discriminate).
  - intros ->. exfalso. cbn in FF. intuition discriminate.
  - rewrite R in R2. injection R2 as <-. exact AM.
Qed.
Print Assumptions C63_otis_current_refuted.

(** ** C63: with a directory, the files are those found for the patterns, in the
    order of the patterns. *)
Theorem C63_patterns :
  forall (K : Type) glob expand resolve (n : obj K) d f pats found dir,
    NoDup (map fst d) -> (forall x, In x (map fst d) -> ~ In x ("directory" :: properties)) ->
    attrs n "directory" = Some (VPath dir) -> In ("format", VStr f) d -> In f ["GOT-ascii"; "GOT-netcdf"] ->
    In ("type", VStr "z") d -> In ("model_file", VList (map VStr pats)) d -> pats <> [] ->
    Forall2 (fun p l => glob dir p = Ok l) pats found ->
    (exists v, In ("name", v) d /\ truthy v = true) -> (exists v, In ("scale", v) d /\ truthy v = true) ->
    exists o', parse_definition glob expand resolve d n = (o', Ok tt) /\
      attrs o' "model_file" = Some (VList (map VPath (concat found))).
Proof.
  intros K glob expand resolve n d f pats found dir ND NP DN IF FF IT IM NE G NM SC.
  destruct (read_run glob expand resolve n d f (VStr "z") (VList (map VStr pats)) VNone (VPath dir) VNone
    (VList (map VPath (concat found)))) as (o2 & R2 & AM & _); auto.
  - cbn in FF |- *. intuition.
  - destruct pats; [congruence|reflexivity].
  - intros I. exfalso. cbn in FF, I. intuition (subst; discriminate).
  - unfold model_paths. cbn [is_uv is_str]. change (String.eqb "z" "z") with true. cbn iota. cbn [search].
    assert (E : mapM (fun x => match x with VStr s => glob dir s | _ => Err TypeError end) (map VStr pats) = Ok found).
    { clear - G. induction G as [|p l pats found E G IH]; [reflexivity|]. cbn [map mapM]. rewrite E. cbn [bind]. rewrite IH. reflexivity. }
    rewrite E. reflexivity.
  - intros I. exfalso. cbn in FF, I. intuition (subst; discriminate).
  - intros ->. exfalso. cbn in FF. intuition discriminate.
  - eauto.
Qed.
Print Assumptions C63_patterns.

(** Instances: GOT4.10 comes back from its file; CATS2008 currents do not. *)
Example C63_instance :
  let o := fst (elevation (C := unit) "/" (fun _ => true) [] "GOT4.10" (fresh (Some "/d") false true)) in
  match serialize (to_dict default_fields o) with
  | Ok d =>
      let r := parse_definition (fun _ _ => Ok []) (fun p => p) (fun p => p) d (fresh (C := unit) None false true) in
      snd r = Ok tt /\ map (attrs (fst r)) default_fields = map (attrs o) default_fields
  | Err _ => False
  end.
Proof. vm_compute. auto. Qed.
Example C63_current_instance :
  let o := fst (current (C := unit) "/" (fun _ => true) [] "CATS2008" (fresh (Some "/d") false true)) in
  match serialize (to_dict default_fields o) with
  | Ok d =>
      let r := parse_definition (fun _ _ => Ok []) (fun p => p) (fun p => p) d (fresh (C := unit) None false true) in
      snd r = Ok tt /\
      match attrs (fst r) "model_file" with
      | Some (VDict [(_, VList l)]) => firstn 4 l = [VPath "/"; VPath "d"; VPath "/"; VPath "C"]
      | _ => False
      end
  | Err _ => False
  end.
Proof. vm_compute. auto. Qed.
