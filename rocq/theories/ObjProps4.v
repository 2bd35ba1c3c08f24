(** C45: models as dictionaries; C61: the files asked for; C62: the built-in
    models. *)
From Coq Require Import String Ascii List QArith Bool Arith Lia.
From Verif Require Import PyBase StrBase ValueBase DatabaseData ParseModel ObjModel ObjSpec ObjProps ObjProps2 ObjProps3.
Import ListNotations.
Open Scope nat_scope.
Open Scope string_scope.

Section Dict.
  Context {C : Type}.
  Implicit Types o : obj C.

  Lemma keys_set_nodup {A : Type} k (v : A) d : NoDup (map fst d) -> NoDup (map fst (dict_set k v d)).
  Proof.
    induction d as [|[k0 v0] d IH]; cbn; intros ND.
    - constructor; [tauto|constructor].
    - destruct (String.eqb_spec k k0) as [->|N]; [exact ND|]. inversion ND as [|? ? NI ND']; subst.
      cbn. constructor; [|auto]. rewrite keys_set. intros [->|I]; [congruence|contradiction].
  Qed.

  Lemma to_dict_gen fields o : forall d, NoDup (map fst d) ->
    let d' := fold_left (fun d k => match attrs o k with Some VNone | None => d | Some v => dict_set k v d end) fields d in
    NoDup (map fst d') /\
    forall k, dict_get k d' = if mem_str k fields then
                                match attrs o k with Some VNone | None => dict_get k d | Some v => Some v end
                              else dict_get k d.
  Proof.
    induction fields as [|x fields IH]; intros d ND; [split; [assumption|reflexivity]|].
    cbn [fold_left].
    set (d1 := match attrs o x with Some VNone | None => d | Some v => dict_set x v d end).
    assert (ND1 : NoDup (map fst d1)).
    { unfold d1. destruct (attrs o x) as [[]|]; try assumption; apply keys_set_nodup; assumption. }
    destruct (IH d1 ND1) as [N G]. split; [exact N|]. intros k. cbv zeta in G. rewrite G.
    assert (M : mem_str k (x :: fields) = (String.eqb k x || mem_str k fields)%bool).
    { unfold mem_str. cbn [existsb]. reflexivity. }
    rewrite M. destruct (String.eqb_spec k x) as [EK|NE]; cbn [orb].
    - rewrite EK. unfold d1. destruct (attrs o x) as [[]|]; rewrite ?dict_get_set, ?String.eqb_refl; destruct (mem_str x fields); reflexivity.
    - assert (E : dict_get k d1 = dict_get k d).
      { unfold d1. destruct (attrs o x) as [[]|]; rewrite ?dict_get_set; destruct (String.eqb_spec k x); congruence. }
      rewrite E. reflexivity.
  Qed.
  Lemma to_dict_spec fields o : NoDup (map fst (to_dict fields o)) /\
    forall k, dict_get k (to_dict fields o) = if mem_str k fields then
                                match attrs o k with Some VNone | None => None | Some v => Some v end else None.
  Proof. exact (to_dict_gen fields o [] (NoDup_nil _)). Qed.
End Dict.

(** ** C45: exporting and importing keeps every exported attribute; the others
    are those of the object imported to. *)
Theorem C45_round_trip :
  forall (K L : Type) fields (o : obj K) (n : obj L),
    (forall k, In k fields -> ~ In k properties) ->
    exists o', from_dict (to_dict fields o) n = (o', Ok tt) /\
      (forall k v, In k fields -> attrs o k = Some v -> v <> VNone -> attrs o' k = Some v) /\
      (forall k, (~ In k fields \/ attrs o k = None \/ attrs o k = Some VNone) -> attrs o' k = attrs n k).
Proof.
  intros K L fields o n NP. destruct (to_dict_spec fields o) as [ND G].
  destruct (from_dict_run (to_dict fields o) n ND) as (o' & R & _ & A).
  { intros k I J. apply (NP k); [|assumption]. destruct (mem_str k fields) eqn:E; [now apply mem_str_spec|].
    exfalso. specialize (G k). rewrite E in G. apply dict_get_none in G. contradiction. }
  exists o'. split; [exact R|]. split.
  - intros k v I H NN. rewrite A, G. apply mem_str_spec in I. rewrite I, H. destruct v; congruence.
  - intros k H. rewrite A, G. destruct (mem_str k fields) eqn:E; [|reflexivity].
    apply mem_str_spec in E. destruct H as [H|[H|H]]; [contradiction| |]; rewrite H; reflexivity.
Qed.
Print Assumptions C45_round_trip.

(** the default fields are such fields *)
Example C45_default_fields : forall k, In k default_fields -> ~ In k properties.
Proof. intros k I J. cbn in I, J. intuition subst; discriminate. Qed.

(** ** C45: serialized values are the values with paths as texts: every value
    whose lists are not empty, and all of paths or free of them. *)
Lemma serialize_regular : forall v, (forall x, no_path x -> as_text x = x) -> regular v ->
  serialize_val v = Ok (as_text v) /\ no_path (as_text v).
Proof.
  intros v0 NP. revert v0. fix IH 1. intros v. destruct v as [|b|x|s|p|l|d]; intros R; try (split; [reflexivity|exact I]).
  - cbn [regular] in R. destruct R as [NE R]. destruct l as [|x l]; [congruence|]. clear IH.
    destruct R as [R|R].
    + assert (E : forall l, (forall x, In x l -> exists p, x = VPath p) ->
        map (fun x => match x with VPath p => VStr p | x => x end) l = map as_text l /\ no_path (VList (map as_text l))).
      { clear. induction l as [|x l IH]; intros H; [split; [reflexivity|exact I]|]. destruct (H x) as [p ->]; [now left|].
        destruct IH as [E N]; [intros y I; apply H; now right|]. cbn [map]. rewrite E. split; [reflexivity|]. cbn in N |- *. auto. }
      destruct (E (x :: l) R) as [E1 E2]. destruct (R x) as [p ->]; [now left|].
      cbn [serialize_val as_text]. rewrite E1. split; [reflexivity|exact E2].
    + rewrite (NP (VList (x :: l)) R). split; [|exact R]. cbn [serialize_val]. destruct x; try reflexivity.
      cbn in R. destruct R as [[] _].
  - cbn [serialize_val as_text regular] in *.
    assert (E : (fix go (d : list (string * val)) : res (list (string * val)) :=
                    match d with
                    | [] => Ok []
                    | (k, x) :: d' => do y <- serialize_val x ;; do ys <- go d' ;; Ok ((k, y) :: ys)
                    end) d = Ok (map (fun kv => (fst kv, as_text (snd kv))) d) /\
                no_path (VDict (map (fun kv => (fst kv, as_text (snd kv))) d))).
    { revert d R. fix IHd 1. intros d R. destruct d as [|[k x] d]; [split; [reflexivity|exact I]|].
      cbn [fold_right snd] in R. destruct R as [R1 R2]. destruct (IH x R1) as [E1 N1]. destruct (IHd d R2) as [E2 N2].
      rewrite E1. cbn [bind]. rewrite E2. cbn [bind map fst snd]. split; [reflexivity|]. cbn in N2 |- *. auto. }
    destruct E as [E N]. rewrite E. cbn [bind]. split; [reflexivity|exact N].
Qed.
Lemma as_text_id : forall v, no_path v -> as_text v = v.
Proof.
  fix IH 1. intros v. destruct v as [|b|x|s|p|l|d]; intros R; try reflexivity.
  - destruct R.
  - cbn [as_text no_path] in *. f_equal. revert l R. fix IHl 1. intros l R. destruct l as [|x l]; [reflexivity|].
    cbn [fold_right map] in *. destruct R as [R1 R2]. rewrite (IH x R1), (IHl l R2). reflexivity.
  - cbn [as_text no_path] in *. f_equal. revert d R. fix IHd 1. intros d R. destruct d as [|[k x] d]; [reflexivity|].
    cbn [fold_right map fst snd] in *. destruct R as [R1 R2]. rewrite (IH x R1), (IHd d R2). reflexivity.
Qed.

Theorem C45_serialize :
  forall d, Forall (fun kv => regular (snd kv)) d ->
    serialize d = Ok (map (fun kv => (fst kv, as_text (snd kv))) d) /\
    Forall (fun kv => no_path (snd kv)) (map (fun kv => (fst kv, as_text (snd kv))) d).
Proof.
  intros d H. unfold serialize.
  assert (R : regular (VDict d)).
  { cbn [regular]. induction H as [|[k x] d H1 H2 IH]; [exact I|]. cbn. auto. }
  destruct (serialize_regular (VDict d) as_text_id R) as [E N]. rewrite E. cbn [bind as_text]. split; [reflexivity|].
  clear - N. cbn [as_text no_path] in N. induction d as [|[k x] d IH]; [constructor|]. cbn in N. destruct N as [N1 N2].
  cbn [map fst snd]. constructor; [exact N1|]. apply IH. exact N2.
Qed.
Print Assumptions C45_serialize.
Example C45_serialize_instance :
  serialize [("model_file", VDict [("u", VList [VPath "/a"; VPath "/b"]); ("v", VPath "/c")]); ("scale", VNum (1 # 100));
             ("type", VList [VStr "u"; VStr "v"])]
  = Ok [("model_file", VDict [("u", VList [VStr "/a"; VStr "/b"]); ("v", VStr "/c")]); ("scale", VNum (1 # 100));
        ("type", VList [VStr "u"; VStr "v"])].
Proof. reflexivity. Qed.

(** ** Findings: an empty list stops the export; a path after another kind of
    element, or inside a list of lists, is left in. *)
Theorem C45_empty_list_refuted :
  forall pre k post, Forall (fun kv => regular (snd kv)) pre ->
    serialize (pre ++ (k, VList []) :: post)%list = Err IndexError.
Proof.
  intros pre k post H. unfold serialize. cbn [serialize_val].
  assert (E : (fix go (d : list (string * val)) : res (list (string * val)) :=
                    match d with
                    | [] => Ok []
                    | (k, x) :: d' => do y <- serialize_val x ;; do ys <- go d' ;; Ok ((k, y) :: ys)
                    end) (pre ++ (k, VList []) :: post)%list = Err IndexError).
  { induction H as [|[k0 x] pre R H IH]; [reflexivity|]. cbn [app].
    destruct (serialize_regular x as_text_id R) as [E _]. rewrite E. cbn [bind]. rewrite IH. reflexivity. }
  rewrite E. reflexivity.
Qed.
Print Assumptions C45_empty_list_refuted.
Theorem C45_mixed_list_refuted :
  forall k x l p, (forall q, x <> VPath q) -> In (VPath p) l ->
    serialize [(k, VList (x :: l))] = Ok [(k, VList (x :: l))] /\ ~ no_path (VList (x :: l)).
Proof.
  intros k x l p NX I. split.
  - unfold serialize. cbn [serialize_val]. destruct x; try reflexivity. exfalso. now apply (NX p0).
  - cbn. intros [_ N]. induction l as [|y l IH]; [destruct I|]. cbn in N. destruct N as [N1 N2].
    destruct I as [->|I]; [destruct N1|auto].
Qed.
Print Assumptions C45_mixed_list_refuted.

(** ** C45: validating a format: what is accepted, and doing it twice. *)
Definition formats_of_database : list string :=
  ["OTIS"; "ATLAS-compact"; "TMD3"; "ATLAS-netcdf"; "GOT-ascii"; "GOT-netcdf"; "FES-netcdf"].

Lemma known_spec s : known_format (VStr s) = true <-> In s formats_of_database.
Proof.
  assert (E : known_format (VStr s) = mem_str s formats_of_database).
  { unfold known_format.
    assert (F : forall t, existsb (fun m : string * list (string * val) => match dict_get "format" (snd m), VStr s with
                        | Some (VStr g), VStr s => String.eqb g s
                        | _, _ => false
                        end) t = mem_str s (flat_map (fun m => match dict_get "format" (snd m) with Some (VStr g) => [g] | _ => [] end) t)).
    { induction t as [|m t IH]; [reflexivity|]. cbn [existsb flat_map]. rewrite IH. unfold mem_str. rewrite existsb_app. f_equal.
      destruct (dict_get "format" (snd m)) as [[]|]; try reflexivity. cbn. rewrite orb_false_r. apply String.eqb_sym. }
    rewrite F.
    set (L := flat_map _ _). vm_compute in L.
    assert (SUB : forallb (fun x => mem_str x formats_of_database) L = true) by (vm_compute; reflexivity).
    assert (SUP : forallb (fun x => mem_str x L) formats_of_database = true) by (vm_compute; reflexivity).
    rewrite forallb_forall in SUB, SUP.
    destruct (mem_str s L) eqn:E1.
    - apply mem_str_spec in E1. symmetry. now apply SUB.
    - destruct (mem_str s formats_of_database) eqn:E2; [|reflexivity]. apply mem_str_spec in E2. apply SUP in E2. congruence. }
  rewrite E. apply mem_str_spec.
Qed.

Lemma remap_spec s :
  (exists long, In (s, long) short_forms /\ remap_format (VStr s) = VStr long) \/
  (~ In s (map fst short_forms) /\ remap_format (VStr s) = VStr s).
Proof.
  unfold remap_format. cbn [fold_left is_str fst snd]. cbn [short_forms map fst In].
  destruct (String.eqb_spec s "ATLAS") as [->|N1]; [left; eexists; split; [left; reflexivity|reflexivity]|]. cbn [is_str].
  destruct (String.eqb_spec s "netcdf") as [->|N2]; [left; eexists; split; [right; left; reflexivity|reflexivity]|]. cbn [is_str].
  destruct (String.eqb_spec s "FES") as [->|N3]; [left; eexists; split; [right; right; left; reflexivity|reflexivity]|]. cbn [is_str].
  destruct (String.eqb_spec s "GOT") as [->|N4]; [left; eexists; split; [right; right; right; left; reflexivity|reflexivity]|].
  right. split; [intuition congruence|reflexivity].
Qed.

Theorem C45_validate :
  forall (K : Type) (o : obj K) s, attrs o "format" = Some (VStr s) ->
    exists o' long, validate_format o = (o', if mem_str long formats_of_database then Ok tt else Err AssertionError) /\
      (In (s, long) short_forms \/ ~ In s (map fst short_forms) /\ long = s) /\
      attrs o' "format" = Some (VStr long) /\ (forall k, k <> "format" -> attrs o' k = attrs o k) /\ cache o' = cache o.
Proof.
  intros K o s F. unfold validate_format, andthen, getattr, get. rewrite F. unfold setattr. change (mem_str "format" properties) with false.
  cbn iota beta.
  assert (X : exists long, remap_format (VStr s) = VStr long /\ (In (s, long) short_forms \/ ~ In s (map fst short_forms) /\ long = s)).
  { destruct (remap_spec s) as [(l & I & E)|[N E]]; eauto. }
  destruct X as (long & E & S2). exists (set_attr o "format" (VStr long)), long. rewrite E. split; [|split; [exact S2|split; [reflexivity|split; [|reflexivity]]]].
  - destruct (known_format (VStr long)) eqn:KF.
    + apply known_spec in KF. apply mem_str_spec in KF. rewrite KF. reflexivity.
    + destruct (mem_str long formats_of_database) eqn:M; [|reflexivity]. apply mem_str_spec in M. apply known_spec in M. congruence.
  - intros k N. cbn [set_attr attrs]. destruct (String.eqb_spec k "format"); congruence.
Qed.
Print Assumptions C45_validate.

Theorem C45_validate_twice :
  forall (K : Type) (o o' : obj K), validate_format o = (o', Ok tt) ->
    exists o'', validate_format o' = (o'', Ok tt) /\ (forall k, attrs o'' k = attrs o' k) /\ cache o'' = cache o'.
Proof.
  intros K o o' H. apply validate_ok in H as (f & F & KF & CE & A).
  pose proof (A "format") as AF. change (String.eqb "format" "format") with true in AF. cbn iota in AF.
  destruct f as [|b|x|s|p|l|d]; try discriminate KF.
  assert (R : remap_format (remap_format (VStr s)) = remap_format (VStr s)).
  { destruct (remap_spec s) as [(l & I & E)|[N E]]; rewrite E; [|exact E].
    cbn in I. destruct I as [I|[I|[I|[I|[]]]]]; injection I as <- <-; reflexivity. }
  exists (set_attr o' "format" (remap_format (VStr s))). split; [|split].
  - unfold validate_format, andthen, getattr, get. rewrite AF. unfold setattr. change (mem_str "format" properties) with false.
    cbn iota beta. rewrite R, KF. reflexivity.
  - intros k. cbn [set_attr attrs]. destruct (String.eqb_spec k "format") as [->|]; congruence.
  - reflexivity.
Qed.
Print Assumptions C45_validate_twice.

(** ** Finding: of the documented formats one is not accepted. *)
Theorem C45_documented_refuted :
  forall (K : Type) (o : obj K) s, In s documented_formats -> attrs o "format" = Some (VStr s) ->
    (snd (validate_format o) = Ok tt <-> s <> "FES-ascii") /\
    (s = "FES-ascii" -> snd (validate_format o) = Err AssertionError).
Proof.
  intros K o s I F. destruct (C45_validate K o s F) as (o' & long & E & S2 & _). rewrite E. cbn [snd].
  assert (long = s).
  { destruct S2 as [S2|[_ S2]]; [|assumption]. cbn in S2, I.
    destruct S2 as [S2|[S2|[S2|[S2|[]]]]]; injection S2 as <- <-; intuition discriminate. }
  subst long. cbn in I. destruct I as [<-|[<-|[<-|[<-|[<-|[<-|[<-|[<-|[]]]]]]]]]; cbn; split; try split; congruence.
Qed.
Print Assumptions C45_documented_refuted.
