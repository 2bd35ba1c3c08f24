(** C41: the container of constituents. *)
From Coq Require Import String Ascii List Arith ZArith Bool Lia.
From Verif Require Import PyBase StrBase ConstModel ConstSpec.
Import ListNotations.
Open Scope string_scope.

(** * Lookups *)
Lemma plain_special f : plain f -> special f = false.
Proof.
  intros [N P]. unfold special. rewrite P, orb_false_r. apply String.eqb_neq.
  intros ->. apply N. vm_compute. tauto.
Qed.
Lemma plain_property f : plain f -> mem_str f properties = false.
Proof. intros [N _]. apply mem_str_false. intros I. apply N. unfold class_names. cbn in I |- *. tauto. Qed.
Lemma plain_method f : plain f -> mem_str f methods = false.
Proof. intros [N _]. apply mem_str_false. intros I. apply N. unfold class_names. cbn in I |- *. tauto. Qed.

Section Proofs.
  Context {A : Type}.
  Implicit Types (s : cst A) (l : list (string * A)).

  Lemma getattr_plain s f : plain f ->
    getattr s f = match lookup f (attrs s) with Some a => Ok (Arr a) | None => Err AttributeError end.
  Proof.
    intros P. unfold getattr. rewrite plain_special, plain_property, plain_method by assumption.
    reflexivity.
  Qed.
  Lemma setattr_plain s f a : plain f ->
    setattr s f a = (Cst (fields s) ((f, a) :: attrs s) (index s), Ok tt).
  Proof. intros P. unfold setattr. now rewrite plain_special, plain_property. Qed.

  Lemma lookup_cons f g (a : A) l :
    lookup f ((g, a) :: l) = if string_dec f g then Some a else lookup f l.
  Proof. cbn. destruct (string_dec f g) as [->|N]; [now rewrite String.eqb_refl|].
    now rewrite (proj2 (String.eqb_neq f g)). Qed.

  Lemma lookup_filter f g (l : list (string * A)) :
    lookup f (filter (fun e => negb (String.eqb g (fst e))) l)
    = if string_dec f g then None else lookup f l.
  Proof.
    induction l as [|[m a] l IH]; cbn; [now destruct string_dec|].
    destruct (String.eqb g m) eqn:E; cbn.
    - apply String.eqb_eq in E; subst m. rewrite IH. destruct (string_dec f g) as [->|N]; auto.
      now rewrite (proj2 (String.eqb_neq f g)).
    - rewrite IH. destruct (string_dec f g) as [->|N]; auto. now rewrite E.
  Qed.

  (** * The ideal container *)
  Lemma value_of_in f l : (exists a, value_of f l = Some a) <-> In f (map fst l).
  Proof.
    induction l as [|[m a] l IH]; cbn; [split; [intros [? [=]]|tauto]|].
    destruct (string_dec f m) as [->|N]; [split; eauto|].
    rewrite IH. split; [auto|intros [->|]; [congruence|auto]].
  Qed.
  Lemma value_of_none f l : value_of f l = None <-> ~ In f (map fst l).
  Proof.
    rewrite <- value_of_in. destruct (value_of f l); split; intros H; try easy.
    - exfalso. apply H. eauto.
    - intros [? [=]].
  Qed.
  Lemma value_added f g a l : ~ In g (map fst l) ->
    value_of f (added g a l) = if string_dec f g then Some a else value_of f l.
  Proof.
    unfold added. induction l as [|[m b] l IH]; cbn; intros N; [reflexivity|].
    rewrite IH by tauto. destruct (string_dec f m) as [->|]; [|reflexivity].
    destruct (string_dec m g) as [->|]; [tauto|reflexivity].
  Qed.
  Lemma value_dropped f g l :
    value_of f (dropped g l) = if string_dec f g then None else value_of f l.
  Proof.
    unfold dropped. induction l as [|[m b] l IH]; cbn; [now destruct string_dec|].
    destruct (string_dec g m) as [->|N]; cbn.
    - rewrite IH. now destruct (string_dec f m).
    - rewrite IH. destruct (string_dec f m) as [->|]; [|reflexivity].
      destruct (string_dec m g) as [->|]; [tauto|reflexivity].
  Qed.
  Lemma value_replaced f g a l :
    value_of f (replaced g a l) =
    if string_dec f g then match value_of f l with Some _ => Some a | None => None end else value_of f l.
  Proof.
    unfold replaced. induction l as [|[m b] l IH]; cbn; [now destruct string_dec|].
    destruct (string_dec g m) as [->|N]; cbn.
    - rewrite IH. destruct (string_dec f m) as [->|]; reflexivity.
    - rewrite IH. destruct (string_dec f m) as [->|]; [|reflexivity].
      destruct (string_dec m g) as [->|]; [tauto|reflexivity].
  Qed.
  Lemma names_replaced g a l : map fst (replaced g a l) = map fst l.
  Proof. unfold replaced. rewrite map_map. apply map_ext. intros [m b]. cbn. destruct string_dec; cbn; congruence. Qed.
  Lemma names_added g a l : map fst (added g a l) = (map fst l ++ [g])%list.
  Proof. unfold added. now rewrite map_app. Qed.
  Lemma dropped_absent f l : ~ In f (map fst l) -> dropped f l = l.
  Proof.
    unfold dropped. induction l as [|[m b] l IH]; cbn; intros N; [reflexivity|].
    destruct (string_dec f m) as [->|]; [tauto|]. now rewrite IH by tauto.
  Qed.
  Lemma remove_names f l : NoDup (map fst l) -> In f (map fst l) ->
    list_remove f (map fst l) = Some (map fst (dropped f l)).
  Proof.
    induction l as [|[m b] l IH]; cbn; [tauto|]. intros ND I. inversion ND as [|? ? N ND']; subst.
    destruct (String.eqb f m) eqn:E.
    - apply String.eqb_eq in E; subst m. destruct (string_dec f f); [|tauto]. f_equal.
      change (filter _ l) with (dropped f l). now rewrite dropped_absent.
    - apply String.eqb_neq in E. destruct (string_dec f m); [tauto|]. cbn.
      change (filter _ l) with (dropped f l). rewrite IH; auto. destruct I; congruence.
  Qed.
  Lemma remove_absent f (l : list string) : ~ In f l -> list_remove f l = None.
  Proof.
    induction l as [|m l IH]; cbn; [reflexivity|]. intros N.
    rewrite (proj2 (String.eqb_neq f m)) by (intros ->; tauto). now rewrite IH by tauto.
  Qed.

  (** * Simulation *)
  Definition simulates s l (i : nat) : Prop :=
    fields s = map fst l /\ NoDup (map fst l) /\ index s = i /\
    (forall f, In f (map fst l) -> plain f) /\
    forall f, plain f -> lookup f (attrs s) = value_of f l.

  Lemma NoDup_snoc (x : string) (l : list string) : NoDup l -> ~ In x l -> NoDup (l ++ [x])%list.
  Proof.
    intros ND N. induction ND as [|y l Ny ND IH]; cbn; [now repeat constructor|].
    constructor.
    - rewrite in_app_iff. cbn in *. intros [|[->|[]]]; tauto.
    - apply IH. cbn in N; tauto.
  Qed.
  Lemma NoDup_dropped f l : NoDup (map fst l) -> NoDup (map fst (dropped f l)).
  Proof.
    unfold dropped. induction l as [|[m b] l IH]; cbn; [auto|]. intros ND.
    inversion ND as [|? ? N ND']; subst. destruct string_dec; cbn; [auto|].
    constructor; [|auto]. intros I. apply N. apply in_map_iff in I as [e [<- I]].
    apply filter_In in I. apply in_map. tauto.
  Qed.
  Lemma in_dropped f g l : In f (map fst (dropped g l)) -> In f (map fst l).
  Proof.
    intros I. apply in_map_iff in I as [e [<- I]]. apply filter_In in I. apply in_map. tauto.
  Qed.

  Lemma nth_error_names l n : nth_error (map fst l) n = option_map fst (nth_error l n).
  Proof. revert n. induction l as [|e l IH]; intros [|n]; cbn; auto. Qed.
  Lemma value_of_nth l n f a : NoDup (map fst l) -> nth_error l n = Some (f, a) -> value_of f l = Some a.
  Proof.
    revert n. induction l as [|[m b] l IH]; intros [|n] ND; cbn; try discriminate.
    - intros [= -> ->]. now destruct string_dec.
    - intros E. inversion ND; subst. destruct (string_dec f m) as [->|]; [|eauto].
      exfalso. apply nth_error_In in E. apply (in_map fst) in E. cbn in E. tauto.
  Qed.

  Lemma simulation s l i c : simulates s l i -> proper l c ->
    exists s', exec s c = (s', snd (ideal l i c)) /\
               simulates s' (fst (fst (ideal l i c))) (snd (fst (ideal l i c))).
  Proof.
    intros SIM P. pose proof SIM as (F & ND & X & PL & V). destruct c as [f a|f|f|f a|f|f a| | |]; cbn [proper] in P.
    - destruct P as [P N]. cbn [exec ideal fst snd]. unfold append. rewrite setattr_plain by assumption.
      cbn. eexists. split; [reflexivity|]. split; [|split; [|split; [|split]]]; cbn.
      + now rewrite names_added, F.
      + rewrite names_added. now apply NoDup_snoc.
      + assumption.
      + intros g. rewrite names_added, in_app_iff. cbn. intros [|[<-|[]]]; auto.
      + intros g Pg. change (lookup g ((f, a) :: attrs s) = value_of g (added f a l)).
        rewrite lookup_cons, value_added by assumption. now rewrite V.
    - cbn. unfold get. rewrite getattr_plain, V by assumption.
      exists s. split; [reflexivity|]. exact SIM.
    - cbn. unfold pop. rewrite F. destruct (value_of f l) as [a|] eqn:E.
      + assert (I : In f (map fst l)) by (apply value_of_in; eauto).
        rewrite (remove_names f l ND I). rewrite getattr_plain by assumption. cbn [attrs].
        rewrite V, E by assumption. unfold delattr.
        rewrite plain_special, plain_property by assumption. cbn [attrs fields index].
        rewrite V, E by assumption. cbn. eexists. split; [reflexivity|].
        split; [|split; [|split; [|split]]]; cbn.
        * reflexivity.
        * now apply NoDup_dropped.
        * assumption.
        * intros g I'. apply PL. eapply in_dropped; eassumption.
        * intros g Pg. rewrite lookup_filter, value_dropped. now rewrite V.
      + apply value_of_none in E. rewrite remove_absent by assumption.
        exists s. split; [reflexivity|]. exact SIM.
    - cbn. unfold update, hasattr. rewrite getattr_plain, V by assumption.
      destruct (value_of f l) as [b|] eqn:E; cbn.
      + rewrite setattr_plain by assumption. eexists. split; [reflexivity|].
        split; [|split; [|split; [|split]]]; cbn [fields index attrs].
        * now rewrite names_replaced.
        * now rewrite names_replaced.
        * assumption.
        * intros g. rewrite names_replaced. apply PL.
        * intros g Pg. rewrite lookup_cons, value_replaced, V by assumption.
          destruct (string_dec g f) as [->|]; [now rewrite E|reflexivity].
      + exists s. split; [reflexivity|]. exact SIM.
    - cbn. unfold getitem. rewrite getattr_plain, V by assumption.
      exists s. split; [reflexivity|]. exact SIM.
    - destruct P as [P I]. cbn. unfold setitem. rewrite setattr_plain by assumption.
      eexists. split; [reflexivity|]. apply value_of_in in I as [b E].
      split; [|split; [|split; [|split]]]; cbn [fields index attrs].
      + now rewrite names_replaced.
      + now rewrite names_replaced.
      + assumption.
      + intros g. rewrite names_replaced. apply PL.
      + intros g Pg. rewrite lookup_cons, value_replaced, V by assumption.
        destruct (string_dec g f) as [->|]; [now rewrite E|reflexivity].
    - cbn. exists s. unfold len. rewrite F, map_length. split; [reflexivity|].
      exact SIM.
    - cbn. eexists. split; [reflexivity|]. split; [|split; [|split; [|split]]]; cbn; auto.
    - cbn. unfold next. rewrite F, X, nth_error_names.
      destruct (nth_error l i) as [[f a]|] eqn:E; cbn.
      + assert (P' : plain f). { apply PL. apply nth_error_In in E. now apply (in_map fst) in E. }
        rewrite getattr_plain, V by assumption. rewrite (value_of_nth l i f a ND E).
        eexists. split; [reflexivity|]. split; [|split; [|split; [|split]]]; cbn; auto.
      + exists s. split; [reflexivity|]. exact SIM.
  Qed.

  Lemma run_simulation cs : forall s l i, simulates s l i -> proper_run l i cs ->
    exists s', run s cs = (s', snd (ideal_run l i cs)) /\
               simulates s' (fst (fst (ideal_run l i cs))) (snd (fst (ideal_run l i cs))).
  Proof.
    induction cs as [|c cs IH]; intros s l i SIM PR; cbn in *.
    - eauto.
    - destruct PR as [P PR]. destruct (simulation s l i c SIM P) as [s1 [E1 SIM1]].
      rewrite E1. destruct (ideal l i c) as [[l1 i1] a]; cbn in *.
      destruct (IH s1 l1 i1 SIM1 PR) as [s2 [E2 SIM2]]. rewrite E2.
      destruct (ideal_run l1 i1 cs) as [[l2 i2] r]; cbn in *. eauto.
  Qed.

  Lemma init_simulates : simulates init [] 0.
  Proof. split; [|split; [|split; [|split]]]; cbn; auto; [constructor|tauto]. Qed.
End Proofs.

(** ** C41: every history of proper calls, from the empty container on, gives
    exactly the answers of an ordered list of named values.  Afterwards the
    names listed are those of the ideal list, in its order, each listed once
    and each with the value last stored under it. *)
Theorem C41_refinement :
  forall (A : Type) (cs : list (call A)),
    proper_run [] 0 cs ->
    let '(s, answers) := run init cs in
    let '(l, _, expected) := ideal_run [] 0 cs in
    answers = expected /\
    fields s = map fst l /\ NoDup (fields s) /\
    (forall f a, value_of f l = Some a -> get s f = (s, Ok (Arr a))).
Proof.
  intros A cs PR. destruct (run_simulation cs init [] 0 init_simulates PR) as [s [E SIM]].
  rewrite E. destruct (ideal_run [] 0 cs) as [[l i] r]. cbn in *.
  destruct SIM as (F & ND & _ & PL & V). split; [reflexivity|]. split; [assumption|].
  split; [now rewrite F|]. intros f a E'.
  assert (P : plain f) by (apply PL, value_of_in; eauto).
  unfold get. now rewrite getattr_plain, V, E'.
Qed.
Print Assumptions C41_refinement.

Example C41_refinement_case :
  proper_run [] 0
    [CAppend "m2" 1; CAppend "s2" 2; CAppend "k1" 3; CUpdate "s2" 5; CPop "m2"; CSetItem "k1" 4;
     CPop "m2"; CUpdate "o1" 0; CIter; CNext; CNext; CNext] /\
  snd (run init
    [CAppend "m2" 1; CAppend "s2" 2; CAppend "k1" 3; CUpdate "s2" 5; CPop "m2"; CSetItem "k1" 4;
     CPop "m2"; CUpdate "o1" 0; CIter; CNext; CNext; CNext])
  = [Done (Ok tt); Done (Ok tt); Done (Ok tt); Done (Ok tt); Value (Ok (Arr 1)); Done (Ok tt);
     Value (Err ValueError); Done (Err KeyError); Done (Ok tt); Pair (Ok ("s2", Arr 5));
     Pair (Ok ("k1", Arr 4)); Pair (Err StopIteration)].
Proof.
  split; [|reflexivity].
  repeat match goal with |- proper_run _ _ _ => cbn | |- _ /\ _ => split | |- plain _ => split end;
    cbn; try tauto; try reflexivity;
    intros H; repeat destruct H as [H|H]; try discriminate H; try tauto.
Qed.

(** ** C41, in every state whatsoever: what has just been stored is what is
    read, and nothing else changes. *)
Theorem C41_get_last :
  forall (A : Type) (s : cst A) (f : string) (a : A), plain f ->
    (let '(s', r) := append s f a in
       r = Ok tt /\ fields s' = (fields s ++ [f])%list /\ get s' f = (s', Ok (Arr a)) /\
       forall g, g <> f -> snd (get s' g) = snd (get s g)) /\
    (let '(s', r) := setitem s f a in
       r = Ok tt /\ fields s' = fields s /\ getitem s' f = (s', Ok (Arr a)) /\
       forall g, g <> f -> snd (get s' g) = snd (get s g)) /\
    (let '(s', r) := update s f a in
       (r = Ok tt /\ fields s' = fields s /\ get s' f = (s', Ok (Arr a)) /\
        forall g, g <> f -> snd (get s' g) = snd (get s g)) \/
       (r = Err KeyError /\ s' = s /\ get s f = (s, Err AttributeError))).
Proof.
  intros A s f a P.
  assert (K : forall (s0 : cst A) g, g <> f ->
    getattr (Cst (fields s0) ((f, a) :: attrs s) (index s0)) g = getattr s g).
  { intros s0 g N. unfold getattr. cbn [attrs]. rewrite lookup_cons. now destruct string_dec. }
  assert (H : forall l i, getattr (Cst l ((f, a) :: attrs s) i) f = Ok (Arr a)).
  { intros l i. rewrite getattr_plain by assumption. cbn [attrs]. rewrite lookup_cons. now destruct string_dec. }
  split; [|split].
  - unfold append. rewrite setattr_plain by assumption. cbn. split; [reflexivity|]. split; [reflexivity|].
    split; [unfold get; now rewrite H|]. intros g N.
    apply (K (Cst (fields s ++ [f])%list [] (index s)) g N).
  - unfold setitem. rewrite setattr_plain by assumption. cbn. split; [reflexivity|]. split; [reflexivity|].
    split; [unfold getitem; now rewrite H|]. intros g N. apply (K s g N).
  - unfold update, hasattr. destruct (getattr s f) eqn:E; cbn.
    + rewrite setattr_plain by assumption. left. cbn. split; [reflexivity|]. split; [reflexivity|].
      split; [unfold get; now rewrite H|]. intros g N. apply (K s g N).
    + right. split; [reflexivity|]. split; [reflexivity|]. unfold get. rewrite E.
      rewrite getattr_plain in E by assumption. destruct (lookup f (attrs s)); congruence.
Qed.
Print Assumptions C41_get_last.

Example C41_get_last_case : plain "m2" /\
  snd (get (fst (append (Cst ["m2"] [("m2", 3)] 0) "m2" 4)) "m2") = Ok (Arr 4).
Proof. split; [split; [cbn; intuition discriminate|reflexivity]|reflexivity]. Qed.

(** ** C41: popping takes exactly the first listing of the name, gives its value and
    leaves the other values; a name that is not listed changes nothing. *)
Theorem C41_pop :
  forall (A : Type) (s : cst A) (f : string), plain f ->
    (~ In f (fields s) -> pop s f = (s, Err ValueError)) /\
    (forall before after, fields s = (before ++ f :: after)%list -> ~ In f before ->
       let '(s', r) := pop s f in
       fields s' = (before ++ after)%list /\ r = snd (get s f) /\
       (forall g, g <> f -> snd (get s' g) = snd (get s g)) /\
       snd (get s' f) = Err AttributeError).
Proof.
  intros A s f P. split.
  - intros N. unfold pop. now rewrite remove_absent.
  - intros before after E N.
    assert (R : list_remove f (fields s) = Some (before ++ after)%list).
    { rewrite E. clear E. induction before as [|b before IH]; cbn.
      - now rewrite String.eqb_refl.
      - rewrite (proj2 (String.eqb_neq f b)) by (intros ->; apply N; now left).
        rewrite IH; [reflexivity|]. intros I. apply N. now right. }
    unfold pop. rewrite R. unfold get. cbn [snd].
    rewrite (getattr_plain s f P), (getattr_plain _ f P). cbn [attrs].
    destruct (lookup f (attrs s)) as [a|] eqn:L.
    + unfold delattr. rewrite plain_special, plain_property by assumption. cbn [attrs fields index].
      rewrite L. cbn. split; [reflexivity|]. split; [reflexivity|]. split.
      * intros g Ng. unfold getattr. cbn [attrs]. rewrite lookup_filter. now destruct string_dec.
      * rewrite getattr_plain by assumption. cbn [attrs]. rewrite lookup_filter. now destruct string_dec.
    + cbn. split; [reflexivity|]. split; [reflexivity|]. split; [reflexivity|].
      rewrite getattr_plain by assumption. cbn [attrs]. now rewrite L.
Qed.
Print Assumptions C41_pop.

Example C41_pop_case :
  fields (Cst ["k1"; "m2"; "s2"] [("m2", 3); ("k1", 1); ("s2", 2)] 0) = (["k1"] ++ "m2" :: ["s2"])%list /\
  pop (Cst ["k1"; "m2"; "s2"] [("m2", 3); ("k1", 1); ("s2", 2)] 0) "m2"
  = (Cst ["k1"; "s2"] [("k1", 1); ("s2", 2)] 0, Ok (Arr 3)).
Proof. split; reflexivity. Qed.

(** ** C41: a loop over the container whose body leaves the container alone
    visits every listed name once, in order, with its value. *)
Theorem C41_iteration :
  forall (A : Type) (s : cst A) (values : list A) (fuel : nat),
    Forall plain (fields s) ->
    Forall2 (fun f a => get s f = (s, Ok (Arr a))) (fields s) values ->
    (List.length (fields s) < fuel)%nat ->
    exists s', for_each fuel (fun s => s) s
      = Some (map (fun p => (fst p, Arr (snd p))) (combine (fields s) values), s', Ok tt) /\
      fields s' = fields s /\ attrs s' = attrs s.
Proof.
  intros A s values fuel PL V L. unfold for_each, iter.
  assert (K : forall n i rest vals, (List.length rest < n)%nat ->
    skipn i (fields s) = rest -> Forall2 (fun f a => get s f = (s, Ok (Arr a))) rest vals ->
    exists s', for_loop n (fun s => s) (Cst (fields s) (attrs s) i)
      = Some (map (fun p => (fst p, Arr (snd p))) (combine rest vals), s', Ok tt) /\
      fields s' = fields s /\ attrs s' = attrs s).
  { induction n as [|n IH]; intros i rest vals Ln SK F2; [lia|]. cbn [for_loop]. unfold next. cbn [fields index].
    destruct F2 as [|f a rest' vals' E F2'].
    - rewrite (proj2 (nth_error_None _ _)).
      + eexists. split; [reflexivity|]. now split.
      + rewrite <- (firstn_skipn i (fields s)) at 1. rewrite SK, app_nil_r, firstn_length. lia.
    - assert (N : nth_error (fields s) i = Some f).
      { rewrite <- (firstn_skipn i (fields s)). assert (LI : (i < List.length (fields s))%nat).
        { destruct (le_lt_dec (List.length (fields s)) i) as [Hle|]; [|assumption].
          rewrite skipn_all2 in SK by assumption. discriminate. }
        rewrite nth_error_app2 by (rewrite firstn_length; lia).
        rewrite firstn_length, Nat.min_l, Nat.sub_diag by lia. now rewrite SK. }
      rewrite N. unfold get in E. injection E as E.
      assert (E' : getattr (Cst (fields s) (attrs s) i) f = Ok (Arr a)).
      { rewrite <- E. reflexivity. }
      rewrite E'. cbn.
      destruct (IH (S i) rest' vals') as (s' & R & Q).
      + cbn in Ln. lia.
      + assert (SS : skipn (S i) (fields s) = skipn 1 (skipn i (fields s))).
        { generalize (fields s) as l. intros l; revert l. clear. induction i as [|i IHi]; intros [|x l]; auto.
          exact (IHi l). }
        rewrite SS, SK. reflexivity.
      + assumption.
      + rewrite R. exists s'. split; [reflexivity|assumption]. }
  apply K; auto.
Qed.
Print Assumptions C41_iteration.

Example C41_iteration_case :
  Forall2 (fun f a => get (Cst ["k1"; "m2"] [("m2", 3); ("k1", 1)] 1) f
                      = (Cst ["k1"; "m2"] [("m2", 3); ("k1", 1)] 1, Ok (Arr a)))
    ["k1"; "m2"] [1; 3].
Proof. repeat constructor. Qed.

(** ** Findings *)
(** Appending a name twice and popping it once leaves a listed name without data. *)
Theorem C41_duplicate_refuted :
  forall (A : Type) (s : cst A) (f : string) (a b : A), plain f -> ~ In f (fields s) ->
    let s' := fst (pop (fst (append (fst (append s f a)) f b)) f) in
    In f (fields s') /\ snd (get s' f) = Err AttributeError /\
    snd (next (Cst (fields s') (attrs s') (List.length (fields s)))) = Err AttributeError.
Proof.
  intros A s f a b P N. cbv zeta.
  pose proof (C41_get_last A s f a P) as [H1 _].
  destruct (append s f a) as [s1 r1]. destruct H1 as (_ & F1 & _). cbn [fst].
  pose proof (C41_get_last A s1 f b P) as [H2 _].
  destruct (append s1 f b) as [s2 r2]. destruct H2 as (_ & F2 & _). cbn [fst].
  pose proof (C41_pop A s2 f P) as [_ H3]. rewrite F2, F1, <- app_assoc in H3.
  specialize (H3 (fields s) [f] eq_refl N).
  destruct (pop s2 f) as [s3 r3]. destruct H3 as (F3 & _ & _ & G). cbn [fst].
  split; [rewrite F3; apply in_or_app; right; now left|]. split; [assumption|].
  unfold next. cbn [fields index]. rewrite F3 at 1. rewrite nth_error_app2, Nat.sub_diag by lia. cbn.
  unfold get in G. cbn in G. unfold getattr in *. cbn [attrs] in *. now rewrite G.
Qed.
Print Assumptions C41_duplicate_refuted.

(** An item assigned under a name that is not listed is stored, but neither counted,
    nor visited, nor poppable. *)
Theorem C41_setitem_unlisted_refuted :
  forall (A : Type) (s : cst A) (f : string) (a : A), plain f -> ~ In f (fields s) ->
    let s' := fst (setitem s f a) in
    snd (get s' f) = Ok (Arr a) /\ len s' = len s /\ ~ In f (fields s') /\
    snd (pop s' f) = Err ValueError /\ snd (update s' f a) = Ok tt.
Proof.
  intros A s f a P N. cbv zeta. unfold setitem. rewrite setattr_plain by assumption. cbn [fst].
  assert (G : getattr (Cst (fields s) ((f, a) :: attrs s) (index s)) f = Ok (Arr a)).
  { rewrite getattr_plain by assumption. cbn. now rewrite String.eqb_refl. }
  split; [unfold get; now rewrite G|]. split; [reflexivity|]. split; [assumption|]. split.
  - unfold pop. cbn [fields]. now rewrite remove_absent.
  - unfold update, hasattr. rewrite G. cbn. now rewrite setattr_plain.
Qed.
Print Assumptions C41_setitem_unlisted_refuted.

(** [update] takes any attribute of the class for a constituent: no KeyError for a
    method name in an empty container. *)
Theorem C41_update_method_refuted :
  forall (A : Type) (a : A),
    snd (update init "get" a) = Ok tt /\ snd (update init "m2" a) = Err KeyError.
Proof. intros A a. split; reflexivity. Qed.
Print Assumptions C41_update_method_refuted.

(** A failed append leaves the name listed: the property wins over the value. *)
Theorem C41_property_name_refuted :
  forall (A : Type) (a : A),
    append (@init A) "shape" a = (Cst ["shape"] [] 0, Err AttributeError).
Proof. reflexivity. Qed.
Print Assumptions C41_property_name_refuted.

(** The position is shared by all loops over one container: a loop whose body
    loops over the same container stops after its first element. *)
Theorem C41_nested_iteration_refuted :
  forall (A : Type) (s : cst A) (f g : string) (rest : list string) (values : list A) (a : A) (fuel : nat),
    fields s = f :: g :: rest -> Forall plain (fields s) ->
    Forall2 (fun f a => get s f = (s, Ok (Arr a))) (fields s) (a :: values) ->
    (List.length (fields s) < fuel)%nat ->
    exists s', for_each fuel
        (fun s => match for_each fuel (fun s => s) s with Some (_, s', _) => s' | None => s end) s
      = Some ([(f, Arr a)], s', Ok tt).
Proof.
  intros A s f g rest values a fuel F PL V L.
  assert (INNER : forall i, exists s', for_each fuel (fun s => s) (Cst (fields s) (attrs s) i)
    = Some (map (fun p => (fst p, Arr (snd p))) (combine (fields s) (a :: values)), s', Ok tt) /\
    fields s' = fields s /\ attrs s' = attrs s).
  { intros i. apply (C41_iteration A (Cst (fields s) (attrs s) i) (a :: values) fuel PL); [|assumption].
    cbn [fields]. set (t := Cst (fields s) (attrs s) i).
    assert (K : forall l vs, Forall2 (fun f a => get s f = (s, Ok (Arr a))) l vs ->
      Forall2 (fun f a => get t f = (t, Ok (Arr a))) l vs).
    { intros l vs V'. induction V' as [|g0 b l' vs' E V' IH]; constructor; [|exact IH].
      unfold get in *. injection E as E. rewrite <- E. reflexivity. }
    now apply K. }
  destruct fuel as [|[|fuel]]; [lia|rewrite F in L; cbn in L; lia|].
  assert (E : getattr (iter s) f = Ok (Arr a)).
  { rewrite F in V. inversion V as [|? ? ? ? H _]; subst. unfold get in H. now injection H. }
  set (body := fun s0 : cst A => match for_each (S (S fuel)) (fun s => s) s0 with
    Some (_, s', _) => s' | None => s0 end).
  destruct (INNER 1%nat) as (s2 & R & F2 & A2).
  assert (X : nth_error (fields s2) (index s2) = None).
  { clear -R. unfold for_each in R. revert R. generalize (iter (Cst (fields s) (attrs s) 1)) as t.
    generalize (map (fun p => (fst p, Arr (snd p))) (combine (fields s) (a :: values))) as out.
    generalize (S (S fuel)) as n.
    induction n as [|n IH]; intros out t; [discriminate|]. cbn [for_loop]. unfold next.
    destruct (nth_error (fields t) (index t)) eqn:N.
    - destruct (getattr t s0) as [o|e] eqn:G.
      + destruct (for_loop n _ _) as [[[xs s3] r3]|] eqn:FL; [|discriminate].
        intros [= _ E3 E4]. subst s3 r3. eapply IH. eassumption.
      + unfold getattr in G. destruct (special s0); [injection G as <-; discriminate|].
        destruct (mem_str s0 properties); [discriminate|]. destruct (lookup s0 (attrs t)); [discriminate|].
        destruct (mem_str s0 methods); [discriminate|]. injection G as <-. discriminate.
    - intros [= _ E3]. now subst t. }
  assert (B : body (Cst (fields (iter s)) (attrs (iter s)) 1) = s2).
  { unfold body. change (Cst (fields (iter s)) (attrs (iter s)) 1) with (Cst (fields s) (attrs s) 1).
    now rewrite R. }
  exists s2. unfold for_each.
  assert (N1 : next (iter s) = (Cst (fields (iter s)) (attrs (iter s)) 1, Ok (f, Arr a))).
  { unfold next. replace (nth_error (fields (iter s)) (index (iter s))) with (Some f).
    - now rewrite E.
    - cbn. now rewrite F. }
  change (match next (iter s) with
    | (s1, Err StopIteration) => Some ([], s1, Ok tt)
    | (s1, Err e) => Some ([], s1, Err e)
    | (s1, Ok x) => match for_loop (S fuel) body (body s1) with
        | Some (xs, s0, r) => Some (x :: xs, s0, r) | None => None end
    end = Some ([(f, Arr a)], s2, Ok tt)).
  rewrite N1.
  rewrite B. cbn [for_loop]. unfold next. now rewrite X.
Qed.
Print Assumptions C41_nested_iteration_refuted.

Example C41_nested_case :
  let s := Cst ["k1"; "m2"; "s2"] [("m2", 3); ("k1", 1); ("s2", 2)] 0 in
  match for_each 9 (fun s => match for_each 9 (fun s => s) s with Some (_, s', _) => s' | None => s end) s
  with Some (xs, _, _) => xs | None => [] end = [("k1", Arr 1)].
Proof. reflexivity. Qed.
