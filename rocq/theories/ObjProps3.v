(** C43, continued: currents, selecting again, extracting twice. *)
From Coq Require Import String Ascii List QArith Bool Arith Lia.
From Verif Require Import PyBase StrBase ValueBase DatabaseData ParseModel ObjModel ObjSpec ObjProps ObjProps2.
Import ListNotations.
Open Scope nat_scope.
Open Scope string_scope.

Section Each.
  Context {C : Type}.
  Implicit Types o : obj C.
  Variable cwd : string.
  Variable file_exists : string -> bool.

  Lemma dict_set_middle {A : Type} (pre post : list (string * A)) k v p : ~ In k (map fst pre) ->
    dict_set k p (pre ++ (k, v) :: post)%list = (pre ++ (k, p) :: post)%list.
  Proof.
    induction pre as [|[k0 v0] pre IH]; cbn; intros N.
    - now rewrite String.eqb_refl.
    - destruct (String.eqb_spec k k0); [exfalso; auto|]. f_equal. apply IH. auto.
  Qed.

  Lemma each_ok dir z ver (keys : list (string * val)) : forall pre o o',
    resolve_each cwd file_exists keys o = (o', Ok tt) ->
    attrs o "directory" = Some (VPath dir) -> attrs o "compressed" = Some z -> attrs o "verify" = Some ver ->
    attrs o "model_file" = Some (VDict (pre ++ keys)%list) -> NoDup (map fst (pre ++ keys)%list) ->
    exists ps, attrs o' "model_file" = Some (VDict (pre ++ ps)%list) /\ cache o' = cache o /\
      (forall x, x <> "model_file" -> attrs o' x = attrs o x) /\
      Forall2 (fun kv kp => fst kv = fst kp /\
        find_path file_exists (VPath dir) (if truthy z then ".gz" else "") (truthy ver) (snd kv) = Ok (snd kp)) keys ps.
  Proof.
    induction keys as [|[k v] keys IH]; intros pre o o' H D Z V MF ND.
    - injection H as <-. exists []. auto.
    - cbn [resolve_each] in H. apply andthen_ok in H as (p & o1 & P & H).
      rewrite (pathfinder_run cwd file_exists o dir z ver v D Z V) in P. injection P as <- P.
      apply andthen_ok in H as (mf & o1 & G & H). apply getattr_ok in G as [-> G].
      assert (mf = VDict (pre ++ (k, v) :: keys)%list) by congruence. subst mf.
      apply andthen_ok in H as (u & o1 & S1 & H). apply setattr_ok in S1 as (_ & C1 & S1).
      assert (NK : ~ In k (map fst pre)).
      { rewrite map_app in ND. cbn in ND. apply NoDup_remove_2 in ND. intros I. apply ND. apply in_or_app. now left. }
      rewrite (dict_set_middle pre keys k v p NK) in S1.
      destruct (IH (pre ++ [(k, p)])%list o1 o' H) as (ps & M & C2 & O2 & F2).
      + rewrite S1. cbn. assumption.
      + rewrite S1. cbn. assumption.
      + rewrite S1. cbn. assumption.
      + rewrite S1. cbn. rewrite <- app_assoc. reflexivity.
      + rewrite <- app_assoc. rewrite !map_app in *. cbn in *. exact ND.
      + exists ((k, p) :: ps). rewrite <- app_assoc in M. split; [exact M|]. split; [congruence|]. split.
        * intros x N. rewrite O2 by assumption. rewrite S1. destruct (String.eqb_spec x "model_file"); congruence.
        * constructor; auto.
  Qed.

  Lemma current_ok extra m o o' d dir z ver :
    current cwd file_exists extra m o = (o', Ok tt) ->
    definition_of (do db <- load_database extra ;; Ok (db_current db)) m = Ok d ->
    NoDup (map fst d) -> (forall x, In x reserved -> ~ In x (map fst d)) ->
    (forall files, In ("model_file", VDict files) d -> NoDup (map fst files)) ->
    In "model_file" (map fst d) ->
    works_in cwd o dir -> attrs o "compressed" = Some z -> attrs o "verify" = Some ver ->
    exists files ps f,
      dict_get "model_file" d = Some (VDict files) /\
      Forall2 (fun kv kp => fst kv = fst kp /\
        find_path file_exists (VPath dir) (if truthy z then ".gz" else "") (truthy ver) (snd kv) = Ok (snd kp)) files ps /\
      match dict_get "format" d with Some v => Some v | None => attrs o "format" end = Some f /\
      known_format (remap_format f) = true /\ cache o' = cache o /\
      attrs o' "format" = Some (remap_format f) /\ attrs o' "model_file" = Some (VDict ps) /\
      attrs o' "directory" = Some (VPath dir) /\
      (forall x, ~ In x ["grid_file"; "directory"; "format"; "model_file"; "constituents"] ->
         attrs o' x = match dict_get x d with Some v => Some v | None => attrs o x end) /\
      match match dict_get "grid_file" d with Some v => Some v | None => attrs o "grid_file" end with
      | Some g => if truthy g then exists p, find_path file_exists (VPath dir) (if truthy z then ".gz" else "") (truthy ver) g = Ok p
                                    /\ attrs o' "grid_file" = Some p
                  else attrs o' "grid_file" = Some g
      | None => attrs o' "grid_file" = None
      end.
  Proof.
    intros H DF ND RS NF IM W Z V. unfold current in H.
    destruct (begin_ok cwd file_exists _ _ _ _ _ d dir z ver H DF ND RS W Z V) as (o4 & K & C4 & D4 & Z4 & V4 & F4 & G4). clear H.
    apply andthen_ok in K as (mf & o5 & G & K). apply getattr_ok in G as [-> G].
    apply andthen_ok in K as (u & o5 & S5 & K).
    rewrite F4 in G by discriminate. destruct (dict_get "model_file" d) as [v|] eqn:EM.
    2: { apply dict_get_none in EM. contradiction. }
    injection G as ->. destruct mf as [| | | | | |files]; try discriminate S5. destruct u.
    destruct (each_ok dir z ver files [] o4 o5 S5 D4 Z4 V4) as (ps & M5 & C5 & O5 & P5).
    { rewrite F4 by discriminate. rewrite EM. reflexivity. }
    { apply NF. apply dict_get_some. assumption. }
    apply andthen_ok in K as (u' & o6 & S6 & K). pose proof (constituents_ok _ _ _ S6) as (C6 & K6 & _).
    destruct u'. apply validate_ok in K as (f & Ef & KF & C7 & K7).
    assert (X : forall x, x <> "format" -> x <> "constituents" -> x <> "model_file" -> attrs o' x = attrs o4 x).
    { intros x N1 N2 N3. rewrite K7. destruct (String.eqb_spec x "format"); [congruence|].
      rewrite K6 by assumption. now rewrite O5. }
    exists files, ps, f. split; [reflexivity|]. split; [assumption|].
    split; [rewrite <- F4 by discriminate; rewrite K6 in Ef by discriminate; rewrite O5 in Ef by discriminate; exact Ef|].
    split; [assumption|]. split; [congruence|]. split; [now rewrite K7|].
    split; [rewrite K7; cbn; rewrite K6 by discriminate; exact M5|]. split; [rewrite X by discriminate; assumption|]. split.
    - intros x NI. cbn in NI. rewrite X by (intros ->; apply NI; auto 8). apply F4; intros ->; apply NI; auto 8.
    - rewrite X by discriminate. exact G4.
  Qed.
End Each.

(** ** C43: what selecting a current model gives, for an object with any history. *)
Theorem C43_current :
  forall (K : Type) cwd file_exists extra m (o o' : obj K) db d files dir compressed verify,
    current cwd file_exists extra m o = (o', Ok tt) ->
    load_database extra = Ok db -> dict_get m (db_current db) = Some d -> NoDup (map fst d) ->
    (forall k, In k ["directory"; "compressed"; "verify"] -> ~ In k (map fst d)) ->
    In ("model_file", VDict files) d -> NoDup (map fst files) -> Forall (fun kv => listed (snd kv)) files ->
    (attrs o "directory" = Some (VPath dir) \/ attrs o "directory" = Some VNone /\ dir = cwd) ->
    attrs o "compressed" = Some (VBool compressed) -> attrs o "verify" = Some (VBool verify) ->
    attrs o' "directory" = Some (VPath dir) /\
    attrs o' "model_file" = Some (VDict (map (fun kv => (fst kv, placed_in dir (suffix compressed) (snd kv))) files)) /\
    (forall v, In ("grid_file", v) d -> listed v -> v <> VList [] -> attrs o' "grid_file" = Some (placed_in dir (suffix compressed) v)) /\
    (forall f, In ("format", VStr f) d -> ~ In f (map fst short_forms) -> attrs o' "format" = Some (VStr f)) /\
    (forall f long, In ("format", VStr f) d -> In (f, long) short_forms -> attrs o' "format" = Some (VStr long)) /\
    (forall k v, In (k, v) d -> ~ In k ["model_file"; "grid_file"; "format"; "constituents"] -> attrs o' k = Some v).
Proof.
  intros K cwd file_exists extra m o o' db d files dir compressed verify H L G ND RS IM NF LF W Z V.
  assert (DF : definition_of (do db <- load_database extra ;; Ok (db_current db)) m = Ok d).
  { rewrite L. cbn [bind]. unfold definition_of. cbn [bind]. now rewrite G. }
  pose proof (in_dict d "model_file" _ ND IM) as EM.
  assert (NF' : forall fs, In ("model_file", VDict fs) d -> NoDup (map fst fs)).
  { intros fs I. apply (in_dict d "model_file" _ ND) in I. congruence. }
  assert (IM' : In "model_file" (map fst d)) by (apply in_map_iff; now exists ("model_file", VDict files)).
  destruct (current_ok cwd file_exists extra m o o' d dir _ _ H DF ND RS NF' IM' W Z V)
    as (fs & ps & f & M & FP & FF & KF & _ & A1 & A2 & A3 & A4 & A5).
  assert (fs = files) by congruence. subst fs.
  assert (GZ : (if truthy (VBool compressed) then ".gz" else "") = suffix compressed) by (destruct compressed; reflexivity).
  rewrite GZ in *.
  split; [assumption|]. split; [|split; [|split; [|split]]].
  - rewrite A2. do 2 f_equal. clear - FP LF. induction FP as [|[k v] [k' p] l l' [E1 E2] FP IH]; [reflexivity|].
    cbn [fst snd map] in *. inversion LF as [|? ? L1 L2]; subst. cbn [snd] in L1. rewrite <- IH by assumption. f_equal.
    destruct (find_listed file_exists dir (suffix compressed) (truthy (VBool verify)) v L1) as [[E _]|[E _]]; congruence.
  - intros v I LV NE. apply (in_dict d "grid_file" v ND) in I. rewrite I in A5.
    assert (T : truthy v = true).
    { destruct LV as [s Hs|l Hl]; cbn; [destruct s; [congruence|reflexivity]|destruct l; [congruence|reflexivity]]. }
    rewrite T in A5. destruct A5 as (q & E & A5). rewrite A5. f_equal.
    destruct (find_listed file_exists dir (suffix compressed) (truthy (VBool verify)) v LV) as [[E2 _]|[E2 _]]; congruence.
  - intros g I NS. apply (in_dict d "format" _ ND) in I. rewrite I in FF. injection FF as <-. rewrite A1. f_equal.
    unfold remap_format. cbn [fold_left is_str fst snd]. cbn in NS.
    destruct (String.eqb_spec g "ATLAS"); [exfalso; apply NS; auto|]. cbn [is_str].
    destruct (String.eqb_spec g "netcdf"); [exfalso; apply NS; auto|]. cbn [is_str].
    destruct (String.eqb_spec g "FES"); [exfalso; apply NS; auto|]. cbn [is_str].
    destruct (String.eqb_spec g "GOT"); [exfalso; apply NS; auto|]. reflexivity.
  - intros g long I IS. apply (in_dict d "format" _ ND) in I. rewrite I in FF. injection FF as <-. rewrite A1. f_equal.
    cbn in IS. destruct IS as [E|[E|[E|[E|[]]]]]; injection E as <- <-; reflexivity.
  - intros k v I NI. destruct (string_dec k "directory") as [->|N].
    + exfalso. apply (RS "directory"); [cbn; auto|]. apply in_map_iff. now exists ("directory", v).
    + rewrite A4; [now rewrite (in_dict d k v ND I)|]. cbn in *. intuition congruence.
Qed.
Print Assumptions C43_current.

(** ** A file that does not exist is reported, if the files are to be verified. *)
Theorem C43_missing_file :
  forall (K : Type) cwd file_exists extra m (o : obj K) db d file dir compressed,
    load_database extra = Ok db -> dict_get m (db_elevation db) = Some d -> NoDup (map fst d) ->
    (forall k, In k (map fst d) -> ~ In k (["directory"; "compressed"; "verify"; "grid_file"] ++ properties)%list) ->
    In ("model_file", VStr file) d -> file <> "" ->
    attrs o "directory" = Some (VPath dir) -> attrs o "compressed" = Some (VBool compressed) ->
    attrs o "verify" = Some (VBool true) -> attrs o "grid_file" = Some VNone ->
    (forall p, placed_in dir (suffix compressed) (VStr file) = VPath p -> file_exists p = false) ->
    snd (elevation cwd file_exists extra m o) = Err FileNotFoundError.
Proof.
  intros K cwd file_exists extra m o db d file dir compressed L G ND NP IM NE D Z V GR NX.
  unfold elevation. rewrite (andthen_run _ _ _ _ _ (default_some cwd o dir D)).
  rewrite L. cbn [bind]. unfold definition_of. cbn [bind]. rewrite G. unfold lift. unfold andthen at 1.
  destruct (from_dict_run d o ND) as (o1 & F & C1 & F1).
  { intros k I J. apply (NP k I). apply in_or_app. now right. }
  rewrite (andthen_run _ _ _ _ _ F).
  assert (N : forall k, In k ["directory"; "compressed"; "verify"; "grid_file"] -> attrs o1 k = attrs o k).
  { intros k I. rewrite F1. destruct (dict_get k d) eqn:E; [|reflexivity]. exfalso. apply dict_get_some in E.
    apply (NP k); [apply in_map_iff; now exists (k, v)|]. apply in_or_app. now left. }
  assert (R : resolve_grid cwd file_exists o1 = (o1, Ok tt)).
  { unfold resolve_grid. rewrite (N "grid_file") by (cbn; auto 8). rewrite GR. reflexivity. }
  rewrite (andthen_run _ _ _ _ _ R).
  assert (M : getattr "model_file" o1 = (o1, Ok (VStr file))).
  { unfold getattr, get. rewrite F1. now rewrite (in_dict d _ _ ND IM). }
  rewrite (andthen_run _ _ _ _ _ M).
  unfold andthen. rewrite (pathfinder_run cwd file_exists o1 dir (VBool compressed) (VBool true) (VStr file));
    [|rewrite N by (cbn; auto 8); assumption|rewrite N by (cbn; auto 8); assumption|rewrite N by (cbn; auto 8); assumption].
  assert (GZ : (if truthy (VBool compressed) then ".gz" else "") = suffix compressed) by (destruct compressed; reflexivity).
  rewrite GZ. cbn [truthy].
  assert (LV : listed (VStr file)) by now constructor.
  destruct (find_listed file_exists dir (suffix compressed) true (VStr file) LV) as [[E A]|[E _]]; rewrite E; [|reflexivity].
  exfalso. specialize (A eq_refl). cbn [all_exist] in A. rewrite (NX (join dir (file ++ suffix compressed))) in A; [discriminate A|].
  symmetry. apply join_placed. assumption.
Qed.
Print Assumptions C43_missing_file.

(** ** Finding: after a model with a grid file, a model without one cannot be
    selected: the grid file is searched again, and it is a path by now. *)
Theorem C43_reselect_refuted :
  forall (K : Type) cwd file_exists extra m (o : obj K) db d dir p z ver,
    load_database extra = Ok db -> dict_get m (db_elevation db) = Some d -> NoDup (map fst d) ->
    (forall k, In k (map fst d) -> ~ In k (["directory"; "compressed"; "verify"; "grid_file"] ++ properties)%list) ->
    attrs o "directory" = Some (VPath dir) -> attrs o "compressed" = Some z -> attrs o "verify" = Some ver ->
    attrs o "grid_file" = Some (VPath p) ->
    snd (elevation cwd file_exists extra m o) = Err NameError.
Proof.
  intros K cwd file_exists extra m o db d dir p z ver L G ND NP D Z V GR.
  unfold elevation. rewrite (andthen_run _ _ _ _ _ (default_some cwd o dir D)).
  rewrite L. cbn [bind]. unfold definition_of. cbn [bind]. rewrite G. unfold lift. unfold andthen at 1.
  destruct (from_dict_run d o ND) as (o1 & F & C1 & F1).
  { intros k I J. apply (NP k I). apply in_or_app. now right. }
  rewrite (andthen_run _ _ _ _ _ F).
  assert (N : forall k, In k ["directory"; "compressed"; "verify"; "grid_file"] -> attrs o1 k = attrs o k).
  { intros k I. rewrite F1. destruct (dict_get k d) eqn:E; [|reflexivity]. exfalso. apply dict_get_some in E.
    apply (NP k); [apply in_map_iff; now exists (k, v)|]. apply in_or_app. now left. }
  unfold andthen at 1. unfold resolve_grid. rewrite (N "grid_file") by (cbn; auto 8). rewrite GR. cbn [truthy].
  unfold andthen at 1. rewrite (pathfinder_run cwd file_exists o1 dir z ver (VPath p));
    [|rewrite N by (cbn; auto 8); assumption|rewrite N by (cbn; auto 8); assumption|rewrite N by (cbn; auto 8); assumption].
  reflexivity.
Qed.
Print Assumptions C43_reselect_refuted.

(** The pair of the documentation: CATS2008, then GOT4.10, on one object. *)
Example C43_reselect_instance : forall K cwd file_exists dir,
  let o := fst (elevation (C := K) cwd file_exists [] "CATS2008" (fresh (Some dir) false false)) in
  snd (elevation cwd file_exists [] "CATS2008" (fresh (C := K) (Some dir) false false)) = Ok tt /\
  snd (elevation cwd file_exists [] "GOT4.10" o) = Err NameError /\
  snd (elevation cwd file_exists [] "GOT4.10" (fresh (C := K) (Some dir) false false)) = Ok tt.
Proof. intros. repeat split; vm_compute; reflexivity. Qed.

(** ** Reading: extracting does not change the object, unless the node tide is
    appended to an FES model. *)
Theorem C43_extract_twice :
  forall (K A : Type) (read : request -> res (list A * list val)) node type scale append (o : obj K),
    (append = false \/ forall s, attrs o "format" = Some (VStr s) -> ~ In s ["FES-ascii"; "FES-netcdf"]) ->
    fst (extract A read node type scale append o) = o.
Proof.
  intros K A read node type scale append o H. unfold extract. unfold andthen at 1. unfold lift at 1.
  destruct (ask true type scale o) as [q|] eqn:Q; [|reflexivity]. unfold andthen at 1. unfold lift at 1.
  destruct (read q) as [r|]; [|reflexivity].
  assert (OUT : append = false \/ q_reader q <> FES).
  { destruct H as [H|H]; [now left|right]. unfold ask in Q.
    destruct (match type with Some t => Ok t | None => get o "type" end); [|discriminate Q]. cbn [bind] in Q.
    destruct (match scale with Some t => Ok t | None => get o "scale" end); [|discriminate Q]. cbn [bind] in Q.
    unfold get in Q at 1. destruct (attrs o "format") as [f|]; [|discriminate Q]. cbn [bind] in Q.
    destruct (reader_of f) as [rd|] eqn:RF; [|discriminate Q].
    assert (rd <> FES).
    { intros ->. unfold reader_of in RF.
      destruct ((is_str f "OTIS" || is_str f "ATLAS-compact" || is_str f "TMD3")%bool); [discriminate RF|].
      destruct (is_str f "ATLAS-netcdf"); [discriminate RF|].
      destruct ((is_str f "GOT-ascii" || is_str f "GOT-netcdf")%bool); [discriminate RF|].
      destruct (is_fes f) eqn:IF; [|discriminate RF]. unfold is_fes, is_str in IF. destruct f; try discriminate IF.
      apply (H s eq_refl). apply orb_true_iff in IF as [E|E]; apply String.eqb_eq in E; subst; cbn; auto. }
    repeat match type of Q with
    | bind ?x _ = _ => destruct x; [cbn [bind] in Q|discriminate Q]
    end.
    injection Q as <-. exact H0. }
  destruct (q_reader q); try (destruct (append && _)%bool; reflexivity).
  destruct OUT as [-> | OUT]; [|congruence]. unfold andthen, getattr, get. destruct (attrs o "constituents") as [[]|]; reflexivity.
Qed.
Print Assumptions C43_extract_twice.

(** ** Finding: with the node tide appended to an FES model, the second answer has
    more names than columns. *)
Theorem C43_append_node_refuted :
  forall (K A : Type) (read : request -> res (list A * list val)) node scale (o : obj K) f files cs cols names,
    attrs o "format" = Some (VStr f) -> In f ["FES-ascii"; "FES-netcdf"] ->
    attrs o "model_file" = Some (VList files) -> attrs o "constituents" = Some (VList cs) ->
    (forall k, In k ["type"; "scale"; "grid_file"; "projection"; "version"; "compressed"] -> attrs o k <> None) ->
    (forall q, read q = Ok (cols, names)) -> List.length cols = List.length cs -> ~ In (VStr "node") cs ->
    let '(o1, r1) := extract A read node None scale true o in
    let '(o2, r2) := extract A read node None scale true o1 in
    r1 = Ok (cols ++ [node], cs ++ [VStr "node"])%list /\ r2 = Ok (cols, cs ++ [VStr "node"])%list.
Proof.
  intros K A read node scale o f files cs cols names FM FI MF CS HA RD LEN NN.
  assert (Q : forall o' : obj K, (forall k, k <> "constituents" -> attrs o' k = attrs o k) ->
    exists q, ask true None scale o' = Ok q /\ q_reader q = FES).
  { intros o' E. unfold ask, get, file_format. rewrite !E by discriminate. rewrite FM, MF.
    assert (X : forall k, In k ["type"; "scale"; "grid_file"; "projection"; "version"; "compressed"] -> exists v, attrs o k = Some v).
    { intros k I. specialize (HA k I). destruct (attrs o k); [eauto|congruence]. }
    destruct (X "type") as [v1 ->]; [cbn; auto 8|]. destruct (X "scale") as [v2 ->]; [cbn; auto 8|].
    destruct (X "grid_file") as [v3 ->]; [cbn; auto 8|]. destruct (X "projection") as [v4 ->]; [cbn; auto 8|].
    destruct (X "version") as [v5 ->]; [cbn; auto 8|]. destruct (X "compressed") as [v6 ->]; [cbn; auto 8|].
    destruct FI as [<-|[<-|[]]]; destruct scale; eexists; split; reflexivity. }
  destruct (Q o (fun _ _ => eq_refl)) as (q & AQ & RQ).
  unfold extract at 1. unfold andthen at 1. unfold lift at 1. rewrite AQ. unfold andthen at 1. unfold lift at 1. rewrite RD, RQ.
  unfold andthen at 1. unfold getattr, get. rewrite CS.
  assert (EX : existsb (fun c => is_str c "node") cs = false).
  { apply not_true_is_false. intros E. apply existsb_exists in E as (c & I & E). destruct c; try discriminate E.
    cbn in E. apply String.eqb_eq in E. subst. auto. }
  rewrite EX. cbn [andb negb fst snd]. unfold andthen at 1. unfold setattr. cbn [mem_str properties String.eqb Ascii.eqb Bool.eqb].
  change (mem_str "constituents" properties) with false. cbn iota beta. unfold ret at 1.
  destruct (Q (set_attr o "constituents" (VList (cs ++ [VStr "node"])%list))) as (q2 & AQ2 & RQ2).
  { intros k N. cbn [set_attr attrs]. destruct (String.eqb_spec k "constituents"); congruence. }
  unfold extract. unfold andthen at 1. unfold lift at 1. rewrite AQ2. unfold andthen at 1. unfold lift at 1. rewrite RD, RQ2.
  unfold andthen at 1. unfold getattr, get. cbn [set_attr attrs]. change (String.eqb "constituents" "constituents") with true.
  cbn iota. rewrite existsb_app. cbn [existsb is_str]. change (String.eqb "node" "node") with true.
  rewrite !orb_true_r. cbn [andb negb]. unfold ret. cbn [fst]. auto.
Qed.
Print Assumptions C43_append_node_refuted.

(** ** Interpolating reads the constituents once, and afterwards gives the same
    answer again without changing the object. *)
Theorem C43_interpolate_twice :
  forall (K A : Type) (read_all : request -> res K) (interpolate_at : reader -> K -> A) type type' (o o1 : obj K) a,
    interpolate_constants A read_all interpolate_at type o = (o1, Ok a) ->
    (forall k, attrs o1 k = attrs o k) /\ interpolate_constants A read_all interpolate_at type' o1 = (o1, Ok a).
Proof.
  intros K A read_all interpolate_at type type' o o1 a H. unfold interpolate_constants in *.
  apply andthen_ok in H as (u & o2 & H1 & H2).
  assert (E : (forall k, attrs o2 k = attrs o k) /\ exists c, cache o2 = Some c).
  { destruct (cache o) as [c|] eqn:CO; [injection H1 as <- _; eauto|].
    apply andthen_ok in H1 as (c & o3 & R & H1). injection H1 as <- _. unfold read_constants in R.
    destruct (do q <- ask false type None o ;; read_all q); [|discriminate R]. injection R as <- _. cbn. eauto. }
  destruct E as [E (c & CE)].
  destruct (attrs o2 "format") as [f|] eqn:F; [|discriminate H2]. rewrite CE in H2.
  destruct (reader_of f) as [r|] eqn:RF; [|discriminate H2]. injection H2 as <- <-.
  split; [assumption|]. unfold andthen. rewrite CE, F. cbn iota beta. rewrite ?CE, RF. reflexivity.
Qed.
Print Assumptions C43_interpolate_twice.

(** ** Finding: and it goes on doing so after another model was selected. *)
Theorem C43_interpolate_stale_refuted :
  forall (K A : Type) (read_all : request -> res K) (interpolate_at : reader -> K -> A) cwd file_exists extra m type
         (o o' : obj K) c f r db d dir z ver,
    cache o = Some c -> elevation cwd file_exists extra m o = (o', Ok tt) ->
    load_database extra = Ok db -> dict_get m (db_elevation db) = Some d -> NoDup (map fst d) ->
    (forall x, In x ["directory"; "compressed"; "verify"] -> ~ In x (map fst d)) ->
    works_in cwd o dir -> attrs o "compressed" = Some z -> attrs o "verify" = Some ver ->
    attrs o' "format" = Some f -> reader_of f = Some r ->
    interpolate_constants A read_all interpolate_at type o' = (o', Ok (interpolate_at r c)).
Proof.
  intros K A read_all interpolate_at cwd file_exists extra m type o o' c f r db d dir z ver CO H L G ND RS W Z V F RF.
  assert (DF : definition_of (do db <- load_database extra ;; Ok (db_elevation db)) m = Ok d).
  { rewrite L. cbn [bind]. unfold definition_of. cbn [bind]. now rewrite G. }
  destruct (elevation_ok cwd file_exists extra m o o' d dir _ _ H DF ND RS W Z V)
    as (mf & p & f' & o5 & o6 & _ & _ & _ & _ & CE & _).
  rewrite CO in CE. unfold interpolate_constants, andthen. rewrite CE, F. cbn iota beta. rewrite ?CE, RF. reflexivity.
Qed.
Print Assumptions C43_interpolate_stale_refuted.

(** Instances of the hypotheses. *)
Example C43_elevation_instance : forall cwd dir,
  let o := fst (elevation (C := unit) cwd (fun _ => true) [] "TPXO9-atlas-v5-nc" (fresh (Some dir) true true)) in
  snd (elevation (C := unit) cwd (fun _ => true) [] "TPXO9-atlas-v5-nc" (fresh (Some dir) true true)) = Ok tt /\
  attrs o "grid_file" = Some (VPath (dir ++ "/" ++ "TPXO9_atlas_v5/grid_tpxo9_atlas_30_v5.nc.gz")) /\
  attrs o "format" = Some (VStr "ATLAS-netcdf").
Proof. intros. repeat split; vm_compute; reflexivity. Qed.
Example C43_current_instance : forall cwd dir,
  let o := fst (current (C := unit) cwd (fun _ => false) [] "CATS2008" (fresh (Some dir) false false)) in
  snd (current (C := unit) cwd (fun _ => false) [] "CATS2008" (fresh (Some dir) false false)) = Ok tt /\
  attrs o "model_file" = Some (VDict [("u", VPath (dir ++ "/" ++ "CATS2008/uv.CATS2008.out"))]).
Proof. intros. repeat split; vm_compute; reflexivity. Qed.
Example C43_missing_instance : forall dir,
  snd (elevation (C := unit) "/" (fun _ => false) [] "CATS2008-v2023" (fresh (Some dir) false true)) = Err FileNotFoundError.
Proof. intros. vm_compute. reflexivity. Qed.
