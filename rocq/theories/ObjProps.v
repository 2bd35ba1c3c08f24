(** C43, C44, C45, C61, C62: the model object. *)
From Coq Require Import String Ascii List QArith Bool Arith Lia.
From Verif Require Import PyBase StrBase ValueBase DatabaseData ParseModel ParseSpec ObjModel ObjSpec.
Import ListNotations.
Open Scope nat_scope.
Open Scope string_scope.

Lemma mem_str_spec k l : mem_str k l = true <-> In k l.
Proof.
  unfold mem_str. rewrite existsb_exists. split.
  - intros (x & I & E). apply String.eqb_eq in E. now subst.
  - intros I. exists k. split; [assumption|apply String.eqb_refl].
Qed.

(** ** Dictionaries *)
Section Dict.
  Context {A : Type}.
  Implicit Types d e : list (string * A).
  Lemma dict_get_cons k k' v d : dict_get k ((k', v) :: d) = if String.eqb k k' then Some v else dict_get k d.
  Proof. unfold dict_get. cbn [find fst]. destruct (String.eqb k k'); reflexivity. Qed.
  Lemma dict_get_set k k' v d : dict_get k (dict_set k' v d) = if String.eqb k k' then Some v else dict_get k d.
  Proof.
    induction d as [|[k0 v0] d IH]; cbn [dict_set].
    - rewrite dict_get_cons. reflexivity.
    - cbn [fst]. destruct (String.eqb_spec k' k0) as [->|N].
      + rewrite !dict_get_cons. destruct (String.eqb k k0); reflexivity.
      + rewrite !dict_get_cons, IH. destruct (String.eqb_spec k k0) as [->|]; [|reflexivity].
        destruct (String.eqb_spec k0 k'); congruence.
  Qed.
  Lemma dict_get_some k v d : dict_get k d = Some v -> In (k, v) d.
  Proof.
    unfold dict_get. intros H. destruct (find _ d) as [[k' v']|] eqn:F; [|discriminate].
    apply find_some in F as [I E]. apply String.eqb_eq in E. cbn in *. congruence.
  Qed.
  Lemma dict_get_none k d : dict_get k d = None <-> ~ In k (map fst d).
  Proof.
    unfold dict_get. split.
    - intros H I. apply in_map_iff in I as ([k' v'] & E & I). cbn in E. subst k'.
      destruct (find _ d) eqn:F; [discriminate|]. pose proof (find_none _ _ F _ I) as X. cbn in X.
      now rewrite String.eqb_refl in X.
    - intros N. destruct (find _ d) as [[k' v']|] eqn:F; [|reflexivity]. exfalso. apply N.
      apply find_some in F as [I E]. apply String.eqb_eq in E. cbn in E. subst k'.
      apply in_map_iff. now exists (k, v').
  Qed.
  Lemma dict_get_update k e : forall d,
    dict_get k (dict_update d e) = match dict_get k (rev e) with Some v => Some v | None => dict_get k d end.
  Proof.
    unfold dict_update. induction e as [|[k' v'] e IH]; intros d; [reflexivity|].
    cbn [fold_left fst snd rev]. rewrite IH, dict_get_set.
    assert (X : forall l, dict_get k (l ++ [(k', v')])%list =
      match dict_get k l with Some v => Some v | None => if String.eqb k k' then Some v' else None end).
    { induction l as [|[k0 v0] l IHl]; cbn [app]; [now rewrite dict_get_cons|].
      rewrite !dict_get_cons, IHl. destruct (String.eqb k k0); reflexivity. }
    rewrite X. destruct (dict_get k (rev e)); [reflexivity|]. destruct (String.eqb k k'); reflexivity.
  Qed.
  Lemma keys_set k v d k' : In k' (map fst (dict_set k v d)) <-> k' = k \/ In k' (map fst d).
  Proof.
    induction d as [|[k0 v0] d IH]; cbn; [intuition|].
    destruct (String.eqb_spec k k0) as [->|N]; cbn; [intuition|]. rewrite IH. intuition.
  Qed.
  Lemma keys_update e : forall d k', In k' (map fst (dict_update d e)) <-> In k' (map fst e) \/ In k' (map fst d).
  Proof.
    unfold dict_update. induction e as [|[k v] e IH]; intros d k'; cbn; [intuition|].
    rewrite IH, keys_set. intuition.
  Qed.
End Dict.

(** ** C44: a table of the user takes the place of the built-in table. *)
Section Load.
  Implicit Types extra : list (list (string * list (string * list (string * val)))).
  Lemma fold_get extra : forall k d,
    dict_get k (fold_left dict_update extra d) =
    match find (fun v => match v with Some _ => true | None => false end) (map (fun e => dict_get k (rev e)) (rev extra)) with
    | Some v => v
    | None => dict_get k d
    end.
  Proof.
    induction extra as [|e extra IH]; intros k d; [reflexivity|].
    cbn [fold_left rev]. rewrite IH, map_app. cbn [map].
    assert (X : forall (l : list (option (list (string * list (string * val))))) x,
      find (fun v => match v with Some _ => true | None => false end) (l ++ [x])%list =
      match find (fun v => match v with Some _ => true | None => false end) l with
      | Some v => Some v | None => if match x with Some _ => true | None => false end then Some x else None end).
    { induction l as [|y l IHl]; intros x; cbn; [reflexivity|]. destruct y; [reflexivity|apply IHl]. }
    rewrite X. destruct (find _ _); [reflexivity|]. rewrite dict_get_update.
    destruct (dict_get k (rev e)); reflexivity.
  Qed.
  Lemma fold_keys extra : forall d k,
    In k (map fst (fold_left dict_update extra d)) <-> (exists e, In e extra /\ In k (map fst e)) \/ In k (map fst d).
  Proof.
    induction extra as [|e extra IH]; intros d k; cbn [fold_left].
    - split; [auto|]. intros [(e & [] & _)|H]; assumption.
    - rewrite IH, keys_update. split.
      + intros [(e' & I & K)|[K|K]]; [left; exists e'; cbn; auto|left; exists e; cbn; auto|auto].
      + intros [(e' & [<-|I] & K)|K]; [auto|left; eauto|auto].
  Qed.
End Load.

(** One extra database: each of its tables is used as it is, the other table is
    the built-in one. *)
Theorem C44_one_database :
  forall user, NoDup (map fst user) -> (forall k, In k (map fst user) -> In k ["current"; "elevation"]) ->
    exists db, load_database [user] = Ok db /\
      (forall t, In ("elevation", t) user -> db_elevation db = t) /\
      (~ In "elevation" (map fst user) -> db_elevation db = builtin_elevation) /\
      (forall t, In ("current", t) user -> db_current db = t) /\
      (~ In "current" (map fst user) -> db_current db = builtin_current).
Proof.
  intros user ND K.
  assert (G : forall k t, In (k, t) user -> dict_get k (rev user) = Some t).
  { intros k t I. assert (I' : In (k, t) (rev user)) by now apply in_rev in I.
    assert (ND' : NoDup (map fst (rev user))) by (rewrite map_rev; now apply NoDup_rev).
    clear -I' ND'. induction (rev user) as [|[k0 t0] l IH]; [destruct I'|]. rewrite dict_get_cons.
    cbn in ND'. inversion ND' as [|? ? NI ND2]; subst. destruct I' as [E|I].
    - injection E as -> ->. now rewrite String.eqb_refl.
    - destruct (String.eqb_spec k k0) as [->|]; [|auto]. exfalso. apply NI. apply in_map_iff. now exists (k0, t). }
  assert (N : forall k, ~ In k (map fst user) -> dict_get k (rev user) = None).
  { intros k NI. apply dict_get_none. rewrite map_rev, <- in_rev. assumption. }
  unfold load_database. cbn [fold_left].
  set (p := dict_update _ user).
  assert (F : forallb (fun kv => mem_str (fst kv) ["current"; "elevation"]) p = true).
  { apply forallb_forall. intros [k t] I. apply mem_str_spec. cbn [fst].
    assert (I2 : In k (map fst p)) by (apply in_map_iff; now exists (k, t)).
    unfold p in I2. apply keys_update in I2 as [I2|I2]; [auto|exact I2]. }
  rewrite F.
  assert (C : dict_get "current" p = match dict_get "current" (rev user) with Some v => Some v | None => Some builtin_current end).
  { unfold p. rewrite dict_get_update. reflexivity. }
  assert (E : dict_get "elevation" p = match dict_get "elevation" (rev user) with Some v => Some v | None => Some builtin_elevation end).
  { unfold p. rewrite dict_get_update. reflexivity. }
  rewrite C, E.
  destruct (dict_get "current" (rev user)) as [tc|] eqn:EC; destruct (dict_get "elevation" (rev user)) as [te|] eqn:EE;
    (eexists; split; [reflexivity|]); cbn [db_current db_elevation]; repeat split; intros;
    try (match goal with H : In (?k, ?t) user |- _ => apply G in H; congruence end);
    try (match goal with H : ~ In ?k _ |- _ => apply N in H; congruence end); reflexivity.
Qed.
Print Assumptions C44_one_database.

Theorem C44_none : load_database [] = Ok {| db_current := builtin_current; db_elevation := builtin_elevation |}.
Proof. vm_compute. reflexivity. Qed.
Print Assumptions C44_none.

(** ** C44: with several databases the last one that has a table gives it. *)
Theorem C44_last_database :
  forall extra db, load_database extra = Ok db ->
    (forall before user after t, extra = (before ++ user :: after)%list -> In ("elevation", t) user ->
       NoDup (map fst user) -> (forall e, In e after -> ~ In "elevation" (map fst e)) -> db_elevation db = t) /\
    (forall before user after t, extra = (before ++ user :: after)%list -> In ("current", t) user ->
       NoDup (map fst user) -> (forall e, In e after -> ~ In "current" (map fst e)) -> db_current db = t) /\
    ((forall e, In e extra -> ~ In "elevation" (map fst e)) -> db_elevation db = builtin_elevation) /\
    ((forall e, In e extra -> ~ In "current" (map fst e)) -> db_current db = builtin_current).
Proof.
  intros extra db L. unfold load_database in L.
  destruct (forallb _ _); [|discriminate].
  destruct (dict_get "current" _) as [c|] eqn:C; [|discriminate].
  destruct (dict_get "elevation" _) as [e|] eqn:E; [|discriminate]. apply Ok_inj in L as <-.
  rewrite fold_get in C, E. cbn [db_current db_elevation].
  assert (G : forall (k : string) (user : list (string * list (string * list (string * val)))) t,
    In (k, t) user -> NoDup (map fst user) -> dict_get k (rev user) = Some t).
  { intros k user t I ND. assert (I' : In (k, t) (rev user)) by now apply in_rev in I.
    assert (ND' : NoDup (map fst (rev user))) by (rewrite map_rev; now apply NoDup_rev).
    clear -I' ND'. induction (rev user) as [|[k0 t0] l IH]; [destruct I'|]. rewrite dict_get_cons.
    cbn in ND'. inversion ND' as [|? ? NI ND2]; subst. destruct I' as [E|I].
    - injection E as -> ->. now rewrite String.eqb_refl.
    - destruct (String.eqb_spec k k0) as [->|]; [|auto]. exfalso. apply NI. apply in_map_iff. now exists (k0, t). }
  assert (N : forall k (l : list (list (string * list (string * list (string * val))))) X,
    (forall e, In e l -> ~ In k (map fst e)) ->
    find (fun v => match v with Some _ => true | None => false end) (map (fun e => dict_get k (rev e)) (rev l) ++ X)%list
    = find (fun v => match v with Some _ => true | None => false end) X).
  { intros k l X H. assert (H' : forall e, In e (rev l) -> ~ In k (map fst e)) by (intros; apply H; now apply in_rev).
    clear H. induction (rev l) as [|e0 l0 IH]; [reflexivity|]. cbn [map app find].
    assert (Z : dict_get k (rev e0) = None).
    { apply dict_get_none. rewrite map_rev, <- in_rev. apply H'. now left. }
    rewrite Z. apply IH. intros; apply H'; now right. }
  assert (Q : forall k before user after t, extra = (before ++ user :: after)%list -> In (k, t) user ->
    NoDup (map fst user) -> (forall e, In e after -> ~ In k (map fst e)) ->
    find (fun v => match v with Some _ => true | None => false end) (map (fun e => dict_get k (rev e)) (rev extra))
    = Some (Some t)).
  { intros k before user after t -> I ND H. rewrite rev_app_distr. cbn [rev]. rewrite !map_app, <- app_assoc.
    rewrite (N k after _ H). cbn [map app find]. now rewrite (G k user t I ND). }
  assert (Z : forall k, (forall e, In e extra -> ~ In k (map fst e)) ->
    find (fun v => match v with Some _ => true | None => false end) (map (fun e => dict_get k (rev e)) (rev extra)) = None).
  { intros k H. pose proof (N k extra [] H) as X. rewrite app_nil_r in X. rewrite X. reflexivity. }
  repeat split.
  - intros before user after t X I ND H. rewrite (Q _ _ _ _ _ X I ND H) in E. congruence.
  - intros before user after t X I ND H. rewrite (Q _ _ _ _ _ X I ND H) in C. congruence.
  - intros H. rewrite (Z _ H) in E. cbn in E. congruence.
  - intros H. rewrite (Z _ H) in C. cbn in C. congruence.
Qed.
Print Assumptions C44_last_database.

(** ** Finding: every built-in model of a kind is lost as soon as the user adds
    one of that kind. *)
Theorem C44_builtin_lost_refuted :
  forall user, exists db, load_database [[("elevation", user)]] = Ok db /\
    forall m, In m (map fst builtin_elevation) -> ~ In m (map fst user) -> dict_get m (db_elevation db) = None.
Proof.
  intros user. destruct (C44_one_database [("elevation", user)]) as (db & L & E & _).
  - repeat constructor. intros [].
  - intros k [<-|[]]. cbn. auto.
  - exists db. split; [assumption|]. intros m _ N. rewrite (E user) by now left. now apply dict_get_none.
Qed.
Print Assumptions C44_builtin_lost_refuted.
Example C44_lost_case : In "GOT4.10" (map fst builtin_elevation) /\ ~ In "GOT4.10" (map fst [("mine", [("format", VStr "OTIS")])]).
Proof. split; [vm_compute; tauto|]. cbn. intros [E|[]]. discriminate E. Qed.

(** a database with anything else than the two tables cannot be loaded *)
Theorem C44_errors :
  forall extra, (exists e, load_database extra = Err e) <-> (exists d k, In d extra /\ In k (map fst d) /\ ~ In k ["current"; "elevation"]).
Proof.
  intros extra. unfold load_database. set (p := fold_left dict_update extra _).
  assert (KP : forall k, In k (map fst p) <-> (exists e, In e extra /\ In k (map fst e)) \/ In k ["current"; "elevation"]).
  { intros k. unfold p. rewrite fold_keys. reflexivity. }
  assert (GC : dict_get "current" p <> None) by (rewrite dict_get_none; intros H; apply H; apply KP; right; cbn; auto).
  assert (GE : dict_get "elevation" p <> None) by (rewrite dict_get_none; intros H; apply H; apply KP; right; cbn; auto).
  destruct (forallb _ p) eqn:F.
  - destruct (dict_get "current" p); [|congruence]. destruct (dict_get "elevation" p); [|congruence].
    split; [intros [e E]; discriminate E|]. intros (d & k & Id & Ik & N). exfalso.
    assert (I : In k (map fst p)) by (apply KP; left; eauto).
    apply in_map_iff in I as ([k' t] & E & I). cbn in E. subst k'. rewrite forallb_forall in F.
    specialize (F _ I). apply mem_str_spec in F. auto.
  - split; [|eauto]. intros _. assert (X : exists kv, In kv p /\ mem_str (fst kv) ["current"; "elevation"] = false).
    { clear -F. induction p as [|kv p IH]; [discriminate|]. cbn in F. apply andb_false_iff in F as [F|F].
      - exists kv. cbn; auto.
      - destruct (IH F) as (x & I & E). exists x. cbn; auto. }
    destruct X as ([k t] & I & E). cbn [fst] in E.
    assert (NI : ~ In k ["current"; "elevation"]) by (intros H; apply mem_str_spec in H; congruence).
    assert (I2 : In k (map fst p)) by (apply in_map_iff; now exists (k, t)).
    apply KP in I2 as [(d & Id & Ik)|H]; [|contradiction]. eauto.
Qed.
Print Assumptions C44_errors.
