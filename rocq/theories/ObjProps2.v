(** C43: selecting models on an object, whatever was done with it before. *)
From Coq Require Import String Ascii List QArith Bool Arith Lia.
From Verif Require Import PyBase StrBase ValueBase DatabaseData ParseModel ObjModel ObjSpec ObjProps.
Import ListNotations.
Open Scope nat_scope.
Open Scope string_scope.

Section Steps.
  Context {C : Type}.
  Implicit Types o : obj C.

  Lemma andthen_ok {A B : Type} (m : obj C -> obj C * res A) (k : A -> obj C -> obj C * res B) o o' b :
    andthen m k o = (o', Ok b) -> exists a o1, m o = (o1, Ok a) /\ k a o1 = (o', Ok b).
  Proof. unfold andthen. destruct (m o) as [o1 [a|e]]; [eauto|discriminate]. Qed.
  Lemma andthen_run {A B : Type} (m : obj C -> obj C * res A) (k : A -> obj C -> obj C * res B) o o1 a :
    m o = (o1, Ok a) -> andthen m k o = k a o1.
  Proof. unfold andthen. now intros ->. Qed.

  Lemma getattr_ok k o o1 v : getattr k o = (o1, Ok v) -> o1 = o /\ attrs o k = Some v.
  Proof. unfold getattr, get. destruct (attrs o k); [|discriminate]. intros [= <- <-]. auto. Qed.
  Lemma setattr_ok k v o o1 u : setattr k v o = (o1, Ok u) ->
    mem_str k properties = false /\ cache o1 = cache o /\ forall k', attrs o1 k' = if String.eqb k' k then Some v else attrs o k'.
  Proof.
    unfold setattr. destruct (mem_str k properties); [discriminate|]. intros [= <- _]. auto.
  Qed.
  Lemma lift_ok {A : Type} (r : res A) o o1 a : lift r o = (o1, Ok a) -> o1 = o /\ r = Ok a.
  Proof. unfold lift. intros [= <- ->]. auto. Qed.

  Variable cwd : string.
  Variable file_exists : string -> bool.

  (** with a directory, pathfinder does not change the object *)
  Lemma default_none o : attrs o "directory" = Some VNone -> default_directory cwd o = (set_attr o "directory" (VPath cwd), Ok tt).
  Proof. intros H. unfold default_directory. unfold andthen, getattr, get. rewrite H. reflexivity. Qed.
  Lemma default_some o d : attrs o "directory" = Some (VPath d) -> default_directory cwd o = (o, Ok tt).
  Proof. intros H. unfold default_directory. unfold andthen, getattr, get. rewrite H. reflexivity. Qed.

  Lemma pathfinder_run o d z ver v : attrs o "directory" = Some (VPath d) -> attrs o "compressed" = Some z ->
    attrs o "verify" = Some ver ->
    pathfinder cwd file_exists v o = (o, find_path file_exists (VPath d) (if truthy z then ".gz" else "") (truthy ver) v).
  Proof.
    intros D Z V. unfold pathfinder. rewrite (andthen_run _ _ _ _ _ (default_some o d D)).
    unfold andthen, getattr, get, lift. rewrite D, Z, V. reflexivity.
  Qed.

  (** all listed files *)
  Definition all_exist (d gz : string) (v : val) : Prop :=
    match v with
    | VList l => forall s, In (VStr s) l -> file_exists (join d (s ++ gz)) = true
    | VStr s => file_exists (join d (s ++ gz)) = true
    | _ => True
    end.
  Lemma join_placed d gz s : s <> "" -> VPath (join d (s ++ gz)) = placed_in d gz (VStr s).
  Proof. destruct s as [|c s]; [congruence|]. intros _. destruct c as [[] [] [] [] [] [] [] []]; reflexivity. Qed.

  Lemma find_listed d gz ver v : listed v ->
    find_path file_exists (VPath d) gz ver v = Ok (placed_in d gz v) /\ (ver = true -> all_exist d gz v) \/
    find_path file_exists (VPath d) gz ver v = Err FileNotFoundError /\ ver = true /\ ~ all_exist d gz v.
  Proof.
    intros [s Hs|l Hl].
    - cbn [find_path all_exist]. rewrite <- (join_placed d gz s Hs).
      destruct ver; cbn [andb].
      + destruct (file_exists (join d (s ++ gz))); cbn [negb]; [left; auto|right; auto using diff_false_true].
      + left. split; [reflexivity|discriminate].
    - cbn [find_path placed_in].
      set (go := fix go (l : list val) : res (list val) := match l with
                       | [] => Ok []
                       | x :: l' => do y <- find_path file_exists (VPath d) gz ver x ;; do ys <- go l' ;; Ok (y :: ys)
                       end).
      assert (G : go l = Ok (map (placed_in d gz) l) /\ (ver = true -> all_exist d gz (VList l)) \/
                  go l = Err FileNotFoundError /\ ver = true /\ ~ all_exist d gz (VList l)).
      { induction Hl as [|x l (s & Hs & ->) Hl IH]; [left; split; [reflexivity|intros _ s []]|].
        cbn [go]. cbn [find_path]. rewrite (join_placed d gz s Hs).
        destruct (ver && negb (file_exists (join d (s ++ gz))))%bool eqn:E; cbn [bind].
        - right. apply andb_true_iff in E as [-> E]. split; [reflexivity|]. split; [reflexivity|].
          intros H. rewrite (H s) in E by now left. discriminate E.
        - destruct IH as [[-> IH]|(-> & -> & IH)]; cbn [bind].
          + left. split; [reflexivity|]. intros V s' [E'|I]; [|now apply (IH V)].
            injection E' as ->. rewrite V in E. cbn in E. now destruct (file_exists _).
          + right. split; [reflexivity|]. split; [reflexivity|]. intros H. apply IH. intros s' I. apply H. now right. }
      destruct G as [[-> G]|(-> & -> & G)]; cbn [bind]; [left|right; auto].
      assert (M : mapM (fun f => match f with VPath p => Ok (file_exists p) | _ => Err AttributeError end) (map (placed_in d gz) l)
                  = Ok (map (fun v => match v with VStr s => file_exists (join d (s ++ gz)) | _ => true end) l)).
      { clear G. induction Hl as [|x l (s & Hs & ->) Hl IH]; [reflexivity|]. cbn [map mapM].
        rewrite <- (join_placed d gz s Hs). cbn [bind]. rewrite IH. reflexivity. }
      rewrite M. cbn [bind]. split; [|assumption].
      destruct ver; [|reflexivity]. cbn [andb]. specialize (G eq_refl).
      assert (F : forallb id (map (fun v => match v with VStr s => file_exists (join d (s ++ gz)) | _ => true end) l) = true).
      { apply forallb_forall. intros b I. apply in_map_iff in I as (x & <- & I). destruct x; try reflexivity.
        apply (G s I). }
      rewrite F. reflexivity.
  Qed.

  Lemma from_dict_run d : forall o, NoDup (map fst d) -> (forall k, In k (map fst d) -> ~ In k properties) ->
    exists o1, from_dict d o = (o1, Ok tt) /\ cache o1 = cache o /\
      (forall k, attrs o1 k = match dict_get k d with Some v => Some v | None => attrs o k end).
  Proof.
    induction d as [|[k0 v0] d IH]; intros o ND NP.
    - exists o. repeat split.
    - cbn [from_dict]. cbn in ND. inversion ND as [|? ? NI ND']; subst.
      assert (P : mem_str k0 properties = false).
      { destruct (mem_str k0 properties) eqn:E; [|reflexivity]. apply mem_str_spec in E. exfalso. apply (NP k0); [now left|assumption]. }
      destruct (IH (set_attr o k0 v0) ND') as (o1 & H & C1 & H1); [intros k I; apply NP; now right|].
      exists o1. split; [|split].
      + unfold andthen, setattr. rewrite P. exact H.
      + rewrite C1. reflexivity.
      + intros k. rewrite H1, dict_get_cons. cbn [set_attr attrs].
        destruct (String.eqb_spec k k0) as [->|]; [|reflexivity].
        destruct (dict_get k0 d) eqn:E; [|reflexivity]. exfalso. apply NI. apply dict_get_some in E.
        apply in_map_iff. now exists (k0, v).
  Qed.

  Lemma from_dict_ok d : forall o o1 u, from_dict d o = (o1, Ok u) -> NoDup (map fst d) ->
    cache o1 = cache o /\ (forall k, attrs o1 k = match dict_get k d with Some v => Some v | None => attrs o k end).
  Proof.
    induction d as [|[k0 v0] d IH]; intros o o1 u H ND.
    - injection H as <- _. auto.
    - cbn [from_dict] in H. apply andthen_ok in H as (x & o2 & G & H).
      apply setattr_ok in G as (_ & C2 & G). cbn in ND. inversion ND as [|? ? NI ND']; subst.
      destruct (IH _ _ _ H ND') as [C1 H1]. split; [congruence|]. intros k. rewrite H1, dict_get_cons, G.
      destruct (String.eqb_spec k k0) as [->|]; [|reflexivity].
      destruct (dict_get k0 d) eqn:E; [|reflexivity]. exfalso. apply NI. apply dict_get_some in E.
      apply in_map_iff. now exists (k0, v).
  Qed.

  Lemma in_dict (d : list (string * val)) k v : NoDup (map fst d) -> In (k, v) d -> dict_get k d = Some v.
  Proof.
    induction d as [|[k0 v0] d IH]; intros ND I; [destruct I|]. rewrite dict_get_cons.
    cbn in ND. inversion ND as [|? ? NI ND2]; subst. destruct I as [E|I].
    - injection E as -> ->. now rewrite String.eqb_refl.
    - destruct (String.eqb_spec k k0) as [->|]; [|auto]. exfalso. apply NI. apply in_map_iff. now exists (k0, v).
  Qed.

  (** constituents depend on the files only *)
  Lemma constituents_ok o o1 u : constituents_if_fes o = (o1, Ok u) ->
    cache o1 = cache o /\ (forall k, k <> "constituents" -> attrs o1 k = attrs o k) /\
    (forall f, attrs o "format" = Some f -> is_fes f = false -> o1 = o).
  Proof.
    unfold constituents_if_fes. intros H. apply andthen_ok in H as (f & o2 & G & H). apply getattr_ok in G as [-> G].
    destruct (is_fes f) eqn:F.
    - unfold parse_constituents in H. apply andthen_ok in H as (mf & o2 & G2 & H). apply getattr_ok in G2 as [-> G2].
      assert (single : forall v o1, andthen (lift (parse_file v)) (fun c => setattr "constituents" (VList [c])) o = (o1, Ok u) ->
        cache o1 = cache o /\ (forall k, k <> "constituents" -> attrs o1 k = attrs o k)).
      { intros v o1' H'. apply andthen_ok in H' as (c & o3 & L & H'). apply lift_ok in L as [-> L].
        apply setattr_ok in H' as (_ & C1 & H'). split; [assumption|]. intros k N. rewrite H'.
        destruct (String.eqb_spec k "constituents"); congruence. }
      assert (many : forall l o1, andthen (lift (mapM parse_file l)) (fun cs => setattr "constituents" (VList cs)) o = (o1, Ok u) ->
        cache o1 = cache o /\ (forall k, k <> "constituents" -> attrs o1 k = attrs o k)).
      { intros v o1' H'. apply andthen_ok in H' as (c & o3 & L & H'). apply lift_ok in L as [-> L].
        apply setattr_ok in H' as (_ & C1 & H'). split; [assumption|]. intros k N. rewrite H'.
        destruct (String.eqb_spec k "constituents"); congruence. }
      assert (X : cache o1 = cache o /\ (forall k, k <> "constituents" -> attrs o1 k = attrs o k)).
      { destruct mf; try (apply (single _ _ H)); try (apply (many _ _ H)); try (injection H as <- _; auto; fail).
        destruct (dict_get "u" d) as [[]|]; try (apply (single _ _ H)); try (apply (many _ _ H)); try (injection H as <- _; auto; fail). }
      destruct X as [X1 X2]. split; [assumption|]. split; [assumption|]. intros f' E E2. congruence.
    - injection H as <- _. auto.
  Qed.
  Lemma constituents_same o o' p p' u u' : constituents_if_fes o = (p, Ok u) -> constituents_if_fes o' = (p', Ok u') ->
    attrs o "format" = attrs o' "format" -> attrs o "model_file" = attrs o' "model_file" ->
    (forall f, attrs o "format" = Some f -> is_fes f = true ->
       (exists s, attrs o "model_file" = Some (VStr s) \/ attrs o "model_file" = Some (VPath s)) \/
       (exists l, attrs o "model_file" = Some (VList l)) \/
       (exists d s, attrs o "model_file" = Some (VDict d) /\ (dict_get "u" d = Some (VStr s) \/ dict_get "u" d = Some (VPath s))) \/
       (exists d l, attrs o "model_file" = Some (VDict d) /\ dict_get "u" d = Some (VList l)) ->
       attrs p "constituents" = attrs p' "constituents").
  Proof.
    unfold constituents_if_fes. intros H H' EF EM f F FE SH.
    apply andthen_ok in H as (g & o2 & G & H). apply getattr_ok in G as [-> G].
    apply andthen_ok in H' as (g' & o2' & G' & H'). apply getattr_ok in G' as [-> G'].
    assert (g = f) by congruence. assert (g' = f) by congruence. subst g g'. rewrite FE in H, H'.
    unfold parse_constituents in H, H'.
    apply andthen_ok in H as (mf & o2 & G2 & H). apply getattr_ok in G2 as [-> G2].
    apply andthen_ok in H' as (mf' & o2' & G2' & H'). apply getattr_ok in G2' as [-> G2'].
    assert (mf' = mf) by congruence. subst mf'.
    assert (single : forall v, andthen (lift (parse_file v)) (fun c => setattr "constituents" (VList [c])) o = (p, Ok u) ->
      andthen (lift (parse_file v)) (fun c => setattr "constituents" (VList [c])) o' = (p', Ok u') ->
      attrs p "constituents" = attrs p' "constituents").
    { intros v K K'. apply andthen_ok in K as (c & o3 & L & K). apply lift_ok in L as [-> L].
      apply andthen_ok in K' as (c' & o3' & L' & K'). apply lift_ok in L' as [-> L'].
      apply setattr_ok in K as (_ & _ & K). apply setattr_ok in K' as (_ & _ & K'). rewrite K, K'. cbn. congruence. }
    assert (many : forall l, andthen (lift (mapM parse_file l)) (fun c => setattr "constituents" (VList c)) o = (p, Ok u) ->
      andthen (lift (mapM parse_file l)) (fun c => setattr "constituents" (VList c)) o' = (p', Ok u') ->
      attrs p "constituents" = attrs p' "constituents").
    { intros v K K'. apply andthen_ok in K as (c & o3 & L & K). apply lift_ok in L as [-> L].
      apply andthen_ok in K' as (c' & o3' & L' & K'). apply lift_ok in L' as [-> L'].
      apply setattr_ok in K as (_ & _ & K). apply setattr_ok in K' as (_ & _ & K'). rewrite K, K'. cbn. congruence. }
    destruct SH as [(s & [E|E])|[(l & E)|[(d & s & E & [E2|E2])|(d & l & E & E2)]]]; rewrite E in G2; injection G2 as <-;
      rewrite ?E2 in H, H'; eauto.
  Qed.

  Lemma validate_ok o o1 u : validate_format o = (o1, Ok u) ->
    exists f, attrs o "format" = Some f /\ known_format (remap_format f) = true /\ cache o1 = cache o /\
      forall k, attrs o1 k = if String.eqb k "format" then Some (remap_format f) else attrs o k.
  Proof.
    unfold validate_format. intros H. apply andthen_ok in H as (f & o2 & G & H). apply getattr_ok in G as [-> G].
    apply andthen_ok in H as (x & o2 & G2 & H). apply setattr_ok in G2 as (_ & C1 & G2).
    exists f. split; [assumption|]. destruct (known_format (remap_format f)); [|discriminate H].
    injection H as <- _. auto.
  Qed.
End Steps.

Section Select.
  Context {C : Type}.
  Implicit Types o : obj C.
  Variable cwd : string.
  Variable file_exists : string -> bool.

  (** the object works in directory [dir]: its own, or the working directory *)
  Definition works_in o (dir : string) : Prop :=
    attrs o "directory" = Some (VPath dir) \/ attrs o "directory" = Some VNone /\ dir = cwd.

  Definition reserved : list string := ["directory"; "compressed"; "verify"].

  Lemma default_works o dir : works_in o dir -> exists o1, default_directory cwd o = (o1, Ok tt) /\ cache o1 = cache o /\
    attrs o1 "directory" = Some (VPath dir) /\ forall k, k <> "directory" -> attrs o1 k = attrs o k.
  Proof.
    intros [D|[D ->]].
    - exists o. rewrite (default_some cwd o dir D). auto.
    - eexists. split; [apply (default_none cwd o D)|]. split; [reflexivity|]. split; [reflexivity|].
      intros k N. cbn [set_attr attrs]. destruct (String.eqb_spec k "directory"); congruence.
  Qed.

  Lemma begin_ok {B : Type} (r : res (list (string * val))) (k : unit -> obj C -> obj C * res B) o o' b d dir z ver :
    andthen (default_directory cwd) (fun _ => andthen (lift r) (fun d => andthen (from_dict d) (fun _ =>
      andthen (resolve_grid cwd file_exists) k))) o = (o', Ok b) ->
    r = Ok d -> NoDup (map fst d) -> (forall x, In x reserved -> ~ In x (map fst d)) ->
    works_in o dir -> attrs o "compressed" = Some z -> attrs o "verify" = Some ver ->
    exists o4, k tt o4 = (o', Ok b) /\ cache o4 = cache o /\ attrs o4 "directory" = Some (VPath dir) /\
      attrs o4 "compressed" = Some z /\ attrs o4 "verify" = Some ver /\
      (forall x, x <> "grid_file" -> x <> "directory" ->
         attrs o4 x = match dict_get x d with Some v => Some v | None => attrs o x end) /\
      match match dict_get "grid_file" d with Some v => Some v | None => attrs o "grid_file" end with
      | Some g => if truthy g then exists p, find_path file_exists (VPath dir) (if truthy z then ".gz" else "") (truthy ver) g = Ok p
                                    /\ attrs o4 "grid_file" = Some p
                  else attrs o4 "grid_file" = Some g
      | None => attrs o4 "grid_file" = None
      end.
  Proof.
    intros H -> ND RS W Z V. destruct (default_works o dir W) as (o1 & E1 & C1 & D1 & K1).
    rewrite (andthen_run _ _ _ _ _ E1) in H. unfold lift in H. unfold andthen at 1 in H.
    apply andthen_ok in H as (u & o2 & F & H). apply (from_dict_ok) in F as [C2 F]; [|assumption].
    assert (D2 : attrs o2 "directory" = Some (VPath dir)).
    { rewrite F. rewrite (proj2 (dict_get_none "directory" d)); [assumption|apply RS; cbn; auto]. }
    assert (Z2 : attrs o2 "compressed" = Some z).
    { rewrite F. rewrite (proj2 (dict_get_none "compressed" d)); [|apply RS; cbn; auto]. rewrite K1 by discriminate. assumption. }
    assert (V2 : attrs o2 "verify" = Some ver).
    { rewrite F. rewrite (proj2 (dict_get_none "verify" d)); [|apply RS; cbn; auto]. rewrite K1 by discriminate. assumption. }
    assert (G2 : attrs o2 "grid_file" = match dict_get "grid_file" d with Some v => Some v | None => attrs o "grid_file" end).
    { rewrite F, K1 by discriminate. reflexivity. }
    apply andthen_ok in H as (u' & o3 & R & H). exists o3. destruct u'. split; [assumption|].
    unfold resolve_grid in R. rewrite <- G2. destruct (attrs o2 "grid_file") as [g|] eqn:G.
    - destruct (truthy g).
      + apply andthen_ok in R as (p & o4 & P & R). rewrite (pathfinder_run cwd file_exists o2 dir z ver g D2 Z2 V2) in P.
        injection P as <- P. apply setattr_ok in R as (_ & C3 & R).
        split; [congruence|]. rewrite !R. cbn [String.eqb Ascii.eqb Bool.eqb].
        split; [assumption|]. split; [assumption|]. split; [assumption|]. split.
        * intros x N1 N2. rewrite R. destruct (String.eqb_spec x "grid_file"); [congruence|]. rewrite F, K1 by assumption. reflexivity.
        * exists p. auto.
      + injection R as <-. split; [congruence|]. repeat split; auto.
        intros x N1 N2. rewrite F, K1 by assumption. reflexivity.
    - injection R as <-. split; [congruence|]. repeat split; auto.
      intros x N1 N2. rewrite F, K1 by assumption. reflexivity.
  Qed.

  Lemma elevation_ok extra m o o' d dir z ver :
    elevation cwd file_exists extra m o = (o', Ok tt) ->
    definition_of (do db <- load_database extra ;; Ok (db_elevation db)) m = Ok d ->
    NoDup (map fst d) -> (forall x, In x reserved -> ~ In x (map fst d)) ->
    works_in o dir -> attrs o "compressed" = Some z -> attrs o "verify" = Some ver ->
    exists mf p f o5 o6,
      match dict_get "model_file" d with Some v => Some v | None => attrs o "model_file" end = Some mf /\
      find_path file_exists (VPath dir) (if truthy z then ".gz" else "") (truthy ver) mf = Ok p /\
      match dict_get "format" d with Some v => Some v | None => attrs o "format" end = Some f /\
      known_format (remap_format f) = true /\ cache o' = cache o /\
      attrs o5 "model_file" = Some p /\ attrs o5 "format" = Some f /\ constituents_if_fes o5 = (o6, Ok tt) /\
      attrs o' "format" = Some (remap_format f) /\ attrs o' "model_file" = Some p /\
      attrs o' "directory" = Some (VPath dir) /\ attrs o' "constituents" = attrs o6 "constituents" /\
      (is_fes f = false -> attrs o' "constituents" = match dict_get "constituents" d with Some v => Some v | None => attrs o "constituents" end) /\
      (forall x, ~ In x ["grid_file"; "directory"; "format"; "model_file"; "constituents"] ->
         attrs o' x = match dict_get x d with Some v => Some v | None => attrs o x end) /\
      match match dict_get "grid_file" d with Some v => Some v | None => attrs o "grid_file" end with
      | Some g => if truthy g then exists p, find_path file_exists (VPath dir) (if truthy z then ".gz" else "") (truthy ver) g = Ok p
                                    /\ attrs o' "grid_file" = Some p
                  else attrs o' "grid_file" = Some g
      | None => attrs o' "grid_file" = None
      end.
  Proof.
    intros H DF ND RS W Z V. unfold elevation in H.
    destruct (begin_ok _ _ _ _ _ d dir z ver H DF ND RS W Z V) as (o4 & K & C4 & D4 & Z4 & V4 & F4 & G4). clear H.
    apply andthen_ok in K as (mf & o5 & G & K). apply getattr_ok in G as [-> G].
    apply andthen_ok in K as (p & o5 & P & K). rewrite (pathfinder_run cwd file_exists o4 dir z ver mf D4 Z4 V4) in P.
    injection P as <- P.
    apply andthen_ok in K as (u & o5 & S5 & K). apply setattr_ok in S5 as (_ & C5 & S5).
    apply andthen_ok in K as (u' & o6 & S6 & K). pose proof (constituents_ok _ _ _ S6) as (C6 & K6 & F6).
    destruct u'. apply validate_ok in K as (f & Ef & KF & C7 & K7).
    assert (Ef4 : attrs o4 "format" = Some f).
    { rewrite K6 in Ef by discriminate. rewrite S5 in Ef. exact Ef. }
    exists mf, p, f, o5, o6.
    assert (X : forall x, x <> "format" -> x <> "constituents" -> x <> "model_file" -> attrs o' x = attrs o4 x).
    { intros x N1 N2 N3. rewrite K7. destruct (String.eqb_spec x "format"); [congruence|].
      rewrite K6 by assumption. rewrite S5. destruct (String.eqb_spec x "model_file"); congruence. }
    split; [rewrite <- F4 by discriminate; assumption|]. split; [assumption|].
    split; [rewrite <- F4 by discriminate; assumption|]. split; [assumption|]. split; [congruence|].
    split; [now rewrite S5|]. split; [rewrite S5; exact Ef4|]. split; [assumption|].
    split; [now rewrite K7|]. split; [rewrite K7; cbn; rewrite K6 by discriminate; now rewrite S5|].
    split; [rewrite X by discriminate; assumption|]. split; [rewrite K7; reflexivity|]. split; [|split].
    - intros FE. rewrite K7. cbn. rewrite (F6 f); [|rewrite S5; exact Ef4|assumption].
      rewrite S5. cbn. rewrite F4 by discriminate. reflexivity.
    - intros x NI. cbn in NI. rewrite X by (intros ->; apply NI; auto 8). apply F4; intros ->; apply NI; auto 8.
    - rewrite X by discriminate. exact G4.
  Qed.
End Select.

Definition suffix (compressed : bool) : string := if compressed then ".gz" else "".

(** ** C43: what selecting an elevation model gives, for an object with any
    history: the definition, with the files placed in the directory of the
    object. *)
Theorem C43_elevation :
  forall (K : Type) cwd file_exists extra m (o o' : obj K) db d dir compressed verify,
    elevation cwd file_exists extra m o = (o', Ok tt) ->
    load_database extra = Ok db -> dict_get m (db_elevation db) = Some d -> NoDup (map fst d) ->
    (forall k, In k ["directory"; "compressed"; "verify"] -> ~ In k (map fst d)) ->
    (attrs o "directory" = Some (VPath dir) \/ attrs o "directory" = Some VNone /\ dir = cwd) ->
    attrs o "compressed" = Some (VBool compressed) -> attrs o "verify" = Some (VBool verify) ->
    attrs o' "directory" = Some (VPath dir) /\
    (forall v, In ("model_file", v) d -> listed v -> attrs o' "model_file" = Some (placed_in dir (suffix compressed) v)) /\
    (forall v, In ("grid_file", v) d -> listed v -> v <> VList [] -> attrs o' "grid_file" = Some (placed_in dir (suffix compressed) v)) /\
    (forall f, In ("format", VStr f) d -> ~ In f (map fst short_forms) -> attrs o' "format" = Some (VStr f)) /\
    (forall f long, In ("format", VStr f) d -> In (f, long) short_forms -> attrs o' "format" = Some (VStr long)) /\
    (forall k v, In (k, v) d -> ~ In k ["model_file"; "grid_file"; "format"; "constituents"] -> attrs o' k = Some v).
Proof.
  intros K cwd file_exists extra m o o' db d dir compressed verify H L G ND RS W Z V.
  assert (DF : definition_of (do db <- load_database extra ;; Ok (db_elevation db)) m = Ok d).
  { rewrite L. cbn [bind]. unfold definition_of. cbn [bind]. now rewrite G. }
  destruct (elevation_ok cwd file_exists extra m o o' d dir _ _ H DF ND RS W Z V)
    as (mf & p & f & o5 & o6 & MF & FP & FF & KF & _ & _ & _ & _ & A1 & A2 & A3 & _ & _ & A4 & A5).
  assert (GZ : (if truthy (VBool compressed) then ".gz" else "") = suffix compressed) by (destruct compressed; reflexivity).
  rewrite GZ in *.
  split; [assumption|]. split; [|split; [|split; [|split]]].
  - intros v I LV. apply (in_dict d "model_file" v ND) in I. rewrite I in MF. injection MF as <-.
    destruct (find_listed file_exists dir (suffix compressed) (truthy (VBool verify)) v LV) as [[E _]|[E _]]; congruence.
  - intros v I LV NE. apply (in_dict d "grid_file" v ND) in I. rewrite I in A5.
    assert (T : truthy v = true).
    { destruct LV as [s Hs|l Hl]; cbn; [destruct s; [congruence|reflexivity]|destruct l; [congruence|reflexivity]]. }
    rewrite T in A5. destruct A5 as (q & E & A5). rewrite A5. f_equal.
    destruct (find_listed file_exists dir (suffix compressed) (truthy (VBool verify)) v LV) as [[E2 _]|[E2 _]]; congruence.
  - intros g I NS. apply (in_dict d "format" _ ND) in I. rewrite I in FF. injection FF as <-. rewrite A1. f_equal.
    unfold remap_format. cbn [fold_left is_str fst snd]. cbn in NS.
    destruct (String.eqb_spec g "ATLAS"); [exfalso; apply NS; auto|]. cbn [is_str].
    destruct (String.eqb_spec g "netcdf"); [exfalso; apply NS; auto|]. cbn [is_str].
    destruct (String.eqb_spec g "FES"); [exfalso; apply NS; auto|]. cbn [is_str].
    destruct (String.eqb_spec g "GOT"); [exfalso; apply NS; auto|]. reflexivity.
  - intros g long I IS. apply (in_dict d "format" _ ND) in I. rewrite I in FF. injection FF as <-. rewrite A1. f_equal.
    cbn in IS. destruct IS as [E|[E|[E|[E|[]]]]]; injection E as <- <-; reflexivity.
  - intros k v I NI. destruct (string_dec k "directory") as [->|N].
    + exfalso. apply (RS "directory"); [cbn; auto|]. apply in_map_iff. now exists ("directory", v).
    + rewrite A4; [now rewrite (in_dict d k v ND I)|]. cbn in *. intuition congruence.
Qed.
Print Assumptions C43_elevation.

(** ** C43: the attributes of the definition do not depend on the history of the
    object: two objects with the same directory and options agree on them after
    the selection. *)
Theorem C43_history_partial :
  forall (K : Type) cwd file_exists extra m (o1 o2 o1' o2' : obj K) db d dir z ver,
    elevation cwd file_exists extra m o1 = (o1', Ok tt) -> elevation cwd file_exists extra m o2 = (o2', Ok tt) ->
    load_database extra = Ok db -> dict_get m (db_elevation db) = Some d -> NoDup (map fst d) ->
    (forall k, In k ["directory"; "compressed"; "verify"] -> ~ In k (map fst d)) ->
    In "format" (map fst d) -> In "model_file" (map fst d) ->
    works_in cwd o1 dir -> works_in cwd o2 dir ->
    attrs o1 "compressed" = Some z -> attrs o2 "compressed" = Some z ->
    attrs o1 "verify" = Some ver -> attrs o2 "verify" = Some ver ->
    (forall k, In k (map fst d) -> k <> "constituents" -> attrs o1' k = attrs o2' k) /\
    (forall f files, In ("format", VStr f) d -> In f ["FES-ascii"; "FES-netcdf"] -> In ("model_file", VList files) d ->
       attrs o1' "constituents" = attrs o2' "constituents").
Proof.
  intros K cwd file_exists extra m o1 o2 o1' o2' db d dir z ver H1 H2 L G ND RS IF IM W1 W2 Z1 Z2 V1 V2.
  assert (DF : definition_of (do db <- load_database extra ;; Ok (db_elevation db)) m = Ok d).
  { rewrite L. cbn [bind]. unfold definition_of. cbn [bind]. now rewrite G. }
  destruct (elevation_ok cwd file_exists extra m o1 o1' d dir _ _ H1 DF ND RS W1 Z1 V1)
    as (mf & p & f & q5 & q6 & MF & FP & FF & KF & _ & B1 & B2 & B3 & A1 & A2 & A3 & A7 & A6 & A4 & A5).
  destruct (elevation_ok cwd file_exists extra m o2 o2' d dir _ _ H2 DF ND RS W2 Z2 V2)
    as (mf' & p' & f' & q5' & q6' & MF' & FP' & FF' & KF' & _ & B1' & B2' & B3' & A1' & A2' & A3' & A7' & A6' & A4' & A5').
  assert (D : forall k, In k (map fst d) -> exists v, dict_get k d = Some v).
  { intros k I. destruct (dict_get k d) eqn:E; [eauto|]. apply dict_get_none in E. contradiction. }
  destruct (D _ IF) as [vf Ef]. destruct (D _ IM) as [vm Em]. rewrite Ef in FF, FF'. rewrite Em in MF, MF'.
  assert (f' = f) by congruence. assert (mf' = mf) by congruence. subst f' mf'. assert (p' = p) by congruence. subst p'.
  split.
  - intros k I NC. destruct (D k I) as [v Ev].
    destruct (string_dec k "model_file") as [->|N1]; [congruence|].
    destruct (string_dec k "format") as [->|N2]; [congruence|].
    destruct (string_dec k "directory") as [->|N3]; [congruence|].
    destruct (string_dec k "grid_file") as [->|N4].
    + rewrite Ev in A5, A5'. destruct (truthy v); [|congruence].
      destruct A5 as (q & E & A5). destruct A5' as (q' & E' & A5'). congruence.
    + rewrite A4, A4' by (cbn; intuition congruence). rewrite Ev. reflexivity.
  - intros g files I IFES IMF. apply (in_dict d "format" _ ND) in I. apply (in_dict d "model_file" _ ND) in IMF.
    rewrite A7, A7'. apply (constituents_same q5 q5' q6 q6' tt tt B3 B3' ltac:(congruence) ltac:(congruence) f B2).
    + assert (f = VStr g) by congruence. subst f. cbn in IFES. destruct IFES as [<-|[<-|[]]]; reflexivity.
    + right. left. assert (mf = VList files) by congruence. subst mf. rewrite B1. cbn [find_path] in FP.
      destruct ((fix go (l : list val) : res (list val) := match l with
                       | [] => Ok []
                       | x :: l' => do y <- find_path file_exists (VPath dir) (if truthy z then ".gz" else "") (truthy ver) x ;;
                                    do ys <- go l' ;; Ok (y :: ys)
                       end) files) as [out|]; [|discriminate FP]. cbn [bind] in FP.
      destruct (mapM _ out); [|discriminate FP]. cbn [bind] in FP. destruct (_ && _)%bool; [discriminate FP|].
      injection FP as <-. eauto.
Qed.
Print Assumptions C43_history_partial.

(** ** Finding: everything else stays as it was. *)
Theorem C43_stale_refuted :
  forall (K : Type) cwd file_exists extra m (o o' : obj K) db d dir z ver,
    elevation cwd file_exists extra m o = (o', Ok tt) ->
    load_database extra = Ok db -> dict_get m (db_elevation db) = Some d -> NoDup (map fst d) ->
    (forall k, In k ["directory"; "compressed"; "verify"] -> ~ In k (map fst d)) ->
    works_in cwd o dir -> attrs o "compressed" = Some z -> attrs o "verify" = Some ver ->
    forall k, ~ In k (map fst d) -> ~ In k ["model_file"; "grid_file"; "format"; "constituents"; "directory"] ->
      attrs o' k = attrs o k.
Proof.
  intros K cwd file_exists extra m o o' db d dir z ver H L G ND RS W Z V k NI N.
  assert (DF : definition_of (do db <- load_database extra ;; Ok (db_elevation db)) m = Ok d).
  { rewrite L. cbn [bind]. unfold definition_of. cbn [bind]. now rewrite G. }
  destruct (elevation_ok cwd file_exists extra m o o' d dir _ _ H DF ND RS W Z V)
    as (mf & p & f & o5 & o6 & _ & _ & _ & _ & _ & _ & _ & _ & _ & _ & _ & _ & _ & A4 & _).
  rewrite A4 by (cbn in *; intuition). apply dict_get_none in NI. now rewrite NI.
Qed.
Print Assumptions C43_stale_refuted.

(** An instance: after GOT4.10 the scale and the version remain with CATS2008. *)
Theorem C43_stale_scale_refuted :
  forall (K : Type) cwd file_exists dir,
    let o1 := fst (elevation (C := K) cwd file_exists [] "GOT4.10" (fresh (Some dir) false false)) in
    let o2 := fst (elevation cwd file_exists [] "CATS2008" o1) in
    let o3 := fst (elevation cwd file_exists [] "CATS2008" (fresh (C := K) (Some dir) false false)) in
    snd (elevation cwd file_exists [] "CATS2008" o1) = Ok tt /\
    attrs o2 "scale" = Some (VNum (1 # 100)) /\ attrs o3 "scale" = Some VNone /\
    attrs o2 "version" = Some (VStr "4.10") /\ attrs o3 "version" = Some VNone.
Proof. intros. repeat split; vm_compute; reflexivity. Qed.
Print Assumptions C43_stale_scale_refuted.
